(** Proofs about the CRYPTO streams. *)
From Verif Require Import Base Tac Reasm_model Reasm_spec Reasm_proofs Reasm2_proofs Crypto_model Crypto_spec.

(** ** Queueing anywhere *)

Lemma queue_spec_any : forall D tree consumed lo off d, wfc D lo tree -> slice_of D off d ->
  lo <= consumed ->
  exists t2 n2, queue_network_input tree consumed off d = Some (t2, n2) /\ wfc D lo t2 /\
    (forall i, incs t2 i <-> incs tree i \/ N.max off consumed <= i < off + blen d).
Proof.
  intros D tree consumed lo off d Hw Hd Hlo. unfold queue_network_input.
  assert (exists f0, (if off <? consumed then consumed else off) = f0 /\ f0 = N.max off consumed) as (f0 & -> & Ef).
  { destruct (N.ltb_spec off consumed); eexists; split; try reflexivity; lia. }
  rewrite <- Ef.
  destruct (N.ltb_spec f0 (off + blen d)) as [Hl|Hl].
  2: { exists tree, false. split; [reflexivity|]. split; [exact Hw|].
       intros i. split; [tauto|]. intros [Hi|Hi]; [exact Hi|lia]. }
  destruct (split_at D f0 tree lo Hw) as (pre & post & -> & Hpre & Hpost).
  assert (Hprev : chunk_previous (pre ++ post) f0 = hd_error (rev pre)).
  { unfold chunk_previous. rewrite filter_app, (filter_all_true _ _ pre), (filter_all_false _ _ post), app_nil_r; [reflexivity| |].
    - intros c Hx. apply Hpost in Hx. lia.
    - intros c Hx. apply Hpre in Hx. lia. }
  rewrite Hprev. clear Hprev.
  pose proof Hw as Hw0. apply wfc_app in Hw0. destruct Hw0 as (Hw1 & Hw2).
  destruct (rev pre) as [|p rpre] eqn:Er.
  - assert (pre = []) as -> by (apply (f_equal (@rev chunk)) in Er; rewrite rev_involutive in Er; exact Er).
    cbn [hd_error app]. cbn [app] in Hw.
    change (match queue_loop (S (length post)) post off (off + blen d) d f0 (hd_error post) false with
            | Some (tree', fdo'', new) => _ | None => None end)
      with (finish off (off + blen d) d (queue_loop (S (length post)) post off (off + blen d) d f0 (hd_error post) false)).
    destruct (queue_loop_spec D off d lo Hd post [] f0 false (S (length post))) as (t2 & n2 & G1 & G2 & G3 & G4).
    + lia.
    + exact Hw.
    + intros c [].
    + destruct post as [|x post']; [exact I|]. apply N.lt_le_incl. apply Hpost. left. reflexivity.
    + lia.
    + lia.
    + exists t2, n2. split; [exact G1|]. split; [exact G2|exact G3].
  - assert (Epre : pre = rev rpre ++ [p]) by (apply (f_equal (@rev chunk)) in Er; rewrite rev_involutive in Er; exact Er).
    cbn [hd_error].
    assert (Hin : In p pre) by (rewrite Epre; apply in_or_app; right; left; reflexivity).
    assert (Hlast : last_end lo pre = c_end p) by (rewrite Epre; apply last_end_snoc).
    rewrite Hlast in Hw2.
    assert (Hends : forall c, In c pre -> c_end c <= c_end p /\ c_off c <= c_off p).
    { intros c Hx. rewrite Epre in Hx, Hw1. apply in_app_or in Hx. destruct Hx as [Hx|[<-|[]]]; [|lia].
      apply wfc_app in Hw1. destruct Hw1 as (A1 & A2). cbn [wfc] in A2.
      assert (G : forall cs l, wfc D l cs -> forall c, In c cs -> c_end c <= last_end l cs).
      { clear. induction cs as [|x cs IH]; intros l H c Hc; [contradiction|]. cbn [wfc last_end] in *.
        destruct H as (H1 & H2 & H3 & H4). destruct Hc as [<-|Hc]; [|apply IH; assumption].
        clear - H4. revert x H4. induction cs as [|y cs IH]; intros x H4; cbn [last_end]; [lia|]. cbn [wfc] in H4.
        destruct H4 as (A & B & C & E). specialize (IH y E). unfold c_end in *. lia. }
      specialize (G _ _ A1 _ Hx). unfold c_end in *. lia. }
    rewrite (chunk_next_mid pre post (c_off p)).
    2: { intros c Hx. apply Hends. exact Hx. }
    2: { intros c Hx. apply Hpost in Hx. pose proof (Hpre p Hin). lia. }
    assert (Hfdo : exists fdo, (if c_end p <? f0 then f0 else c_end p) = fdo /\ f0 <= fdo /\ c_end p <= fdo /\
       (fdo = f0 \/ fdo = c_end p)).
    { destruct (N.ltb_spec (c_end p) f0); eexists; split; try reflexivity; lia. }
    destruct Hfdo as (fdo & -> & F1 & F2 & F3).
    change (match queue_loop (S (length (pre ++ post))) (pre ++ post) off (off + blen d) d fdo (hd_error post) false with
            | Some (tree', fdo'', new) => _ | None => None end)
      with (finish off (off + blen d) d (queue_loop (S (length (pre ++ post))) (pre ++ post) off (off + blen d) d fdo (hd_error post) false)).
    destruct (queue_loop_spec D off d lo Hd post pre fdo false (S (length (pre ++ post)))) as (t2 & n2 & G1 & G2 & G3 & G4).
    + rewrite app_length. lia.
    + exact Hw.
    + intros c Hx. apply Hends in Hx. lia.
    + destruct post as [|x post']; [exact I|]. pose proof (Hpost x (or_introl eq_refl)). cbn [wfc] in Hw2. destruct F3 as [-> | ->]; [lia|tauto].
    + lia.
    + lia.
    + exists t2, n2. split; [exact G1|]. split; [exact G2|].
      intros i. rewrite G3. split; [intros [Hi|Hi]; [tauto|right; lia]|]. intros [Hi|Hi]; [tauto|].
      destruct (N.lt_ge_cases i fdo); [|right; lia]. left. exists p. split; [apply in_or_app; left; exact Hin|].
      pose proof (Hpre p Hin). destruct F3 as [-> | ->]; lia.
Qed.

(** ** Any data *)

Lemma wfc_apart : forall zs t lo, (forall x, In x zs -> x = 0) -> wfc zs lo (map zc t) <-> apart lo (blen zs) t.
Proof.
  intros zs t lo Hz. revert lo. induction t as [|c t IH]; intros lo; [tauto|].
  cbn [map wfc apart]. rewrite zc_off, zc_end. change (c_data (zc c)) with (zb (c_data c)). rewrite zb_len, IH.
  split; intros (A & B & C & E); repeat (split; [assumption|]); (split; [|assumption]).
  - destruct C as [C _]. rewrite zb_len in C. exact C.
  - apply zeros_slice; [exact Hz|exact C].
Qed.

Lemma queue_apart : forall tree consumed m off d, apart consumed m tree -> off + blen d <= m ->
  exists t2 n2, queue_network_input tree consumed off d = Some (t2, n2) /\ apart consumed m t2.
Proof.
  intros tree consumed m off d Ha Hl. set (zs := repeat 0 (N.to_nat m)).
  assert (Hz : forall x, In x zs -> x = 0) by (intros x Hx; apply repeat_spec in Hx; exact Hx).
  assert (Hm : blen zs = m) by (unfold zs, blen; rewrite repeat_length; lia).
  destruct (queue_spec_any zs (map zc tree) consumed consumed off (zb d)) as (t2 & n2 & E & W & _).
  - apply wfc_apart; [exact Hz|]. rewrite Hm. exact Ha.
  - apply zeros_slice; [exact Hz|]. rewrite Hm. exact Hl.
  - lia.
  - rewrite z_queue in E. destruct (queue_network_input tree consumed off d) as [[t3 n3]|]; cbn [option_map z2] in E; [|discriminate].
    apply some_pair_inj in E. destruct E as [E1 E2]. exists t3, n3. split; [reflexivity|]. rewrite <- E1 in W. apply wfc_apart in W; [|exact Hz]. rewrite Hm in W. exact W.
Qed.

Section Any.
  Context {T : Type} (P : tls T).

  (** Chunks of each epoch: in order, disjoint, after the consumed bytes, at most [M]
      further. *)
  Definition capart (M : N) (c : ccnx T) : Prop :=
    forall e, let '(consumed, tree) := cr_streams c e in apart consumed (consumed + M) tree.

  Lemma push_apart : forall epoch tree consumed t M, apart consumed (consumed + M) tree ->
    exists tree2 consumed2 t2 out r, push P epoch tree consumed t = Some (tree2, consumed2, t2, out, r) /\
      apart consumed2 (consumed2 + M) tree2.
  Proof.
    intros epoch. induction tree as [|c rest IH]; intros consumed t M H; cbn [push].
    - eexists _, _, _, _, _. split; [reflexivity|exact I].
    - pose proof H as H0. cbn [apart] in H. destruct H as (A & B & C & E).
      destruct (N.leb_spec (c_off c) consumed) as [Hc|Hc].
      2: { eexists _, _, _, _, _. split; [reflexivity|exact H0]. }
      assert (c_off c = consumed) as Eo by lia.
      destruct (N.leb_spec (consumed - c_off c) (blen (c_data c))) as [Hs|Hs]; [|lia].
      destruct (tls_handle P t epoch _) as [t1 ret].
      assert (Hn : consumed + blen (skipn (N.to_nat (consumed - c_off c)) (c_data c)) = c_end c).
      { rewrite blen_skipn. unfold c_end. lia. }
      rewrite Hn. assert (Hr : apart (c_end c) (c_end c + M) rest).
      { eapply apart_mono; [exact E|]. unfold c_end. lia. }
      destruct ret; [|eexists _, _, _, _, _; split; [reflexivity|exact Hr]..].
      destruct (IH (c_end c) t1 M Hr) as (t2 & c2 & t3 & o & r & -> & G).
      eexists _, _, _, _, _. split; [reflexivity|exact G].
  Qed.

  Lemma process_apart : forall M n epoch c, capart M c ->
    exists c', tls_process P n epoch c = Some c' /\ capart M c'.
  Proof.
    intros M. induction n as [|n IH]; intros epoch c H; cbn [tls_process]; [eauto|].
    pose proof (H epoch) as He. destruct (cr_streams c epoch) as [consumed tree].
    destruct (_ <? epoch); [eauto|]. destruct (epoch <? _).
    - destruct tree as [|x t]; [apply IH; exact H|]. destruct (consumed <? c_off x); [|apply IH; exact H].
      eexists. split; [reflexivity|]. exact H.
    - destruct (push_apart epoch tree consumed (cr_tls c) M He) as (t2 & c2 & t3 & o & r & -> & G).
      apply IH. intros e. cbn [cr_streams]. unfold cset. destruct (e =? epoch); [exact G|apply H].
  Qed.

  Lemma step_apart : forall M c o, crypto_gap <= M ->
    (match o with CoFrame _ _ d => blen d <= M | CoProcess => True end) -> capart M c ->
    exists c', cstep P c o = Some c' /\ capart M c'.
  Proof.
    intros M c [e off d|] HM Hd H; cbn [cstep]; [|apply process_apart; exact H].
    unfold decode_crypto. pose proof (H e) as He. destruct (cr_streams c e) as [consumed tree].
    destruct ((consumed <? off) && (consumed + crypto_gap <? off + blen d)) eqn:E.
    - eexists. split; [reflexivity|]. exact H.
    - destruct (queue_apart tree consumed (consumed + M) off d He) as (t2 & n2 & -> & G).
      + apply andb_false_iff in E. destruct E as [E|E]; lia.
      + eexists. split; [reflexivity|]. intros x. cbn [cr_streams]. unfold cset. destruct (x =? e); [exact G|apply H].
  Qed.

  Lemma run_apart : forall M ops c, crypto_gap <= M ->
    (forall e off d, In (CoFrame e off d) ops -> blen d <= M) -> capart M c ->
    exists c', crun P c ops = Some c' /\ capart M c'.
  Proof.
    intros M. induction ops as [|o ops IH]; intros c HM Hd H; cbn [crun]; [eauto|].
    destruct (step_apart M c o HM) as (c1 & -> & H1).
    - destruct o as [e off d|]; [|exact I]. apply (Hd e off). left. reflexivity.
    - exact H.
    - apply IH; [exact HM| |exact H1]. intros e off d Hin. apply (Hd e off). right. exact Hin.
  Qed.

  Lemma crypto_bounded : forall t0 M ops, crypto_gap <= M ->
    (forall e off d, In (CoFrame e off d) ops -> blen d <= M) ->
    exists c, crun P (ccnx0 t0) ops = Some c /\ forall e, buffered c e <= M.
  Proof.
    intros t0 M ops HM Hd. destruct (run_apart M ops (ccnx0 t0) HM Hd) as (c & E & H).
    - intros e. exact I.
    - exists c. split; [exact E|]. intros e. specialize (H e). unfold buffered. destruct (cr_streams c e) as [consumed tree].
      cbn [snd]. change (held tree <= M). etransitivity; [eapply apart_held; [exact H|lia]|lia].
  Qed.
End Any.

(** ** One sequence of bytes per epoch *)

Lemma handed_app : forall e a b, handed e (a ++ b) = handed e a ++ handed e b.
Proof. intros. unfold handed. apply flat_map_app. Qed.

Definition cframes_cons : forall e o ops, crypto_frames e (o :: ops) =
  (match o with CoFrame e' off d => if e' =? e then [mk_sframe off d false] else [] | CoProcess => [] end) ++ crypto_frames e ops.
Proof. reflexivity. Qed.

Lemma cframes_app : forall e a b, crypto_frames e (a ++ b) = crypto_frames e a ++ crypto_frames e b.
Proof. intros. unfold crypto_frames. apply flat_map_app. Qed.

Section Data.
  Context {T : Type} (P : tls T) (D : N -> list N).

  (** [fs e]: frames of epoch [e] received so far. *)
  Definition cinv (fs : N -> list sframe) (c : ccnx T) : Prop :=
    forall e, let '(consumed, tree) := cr_streams c e in
      consumed <= blen (D e) /\ handed e (cr_out c) = firstn (N.to_nat consumed) (D e) /\
      wfc (D e) consumed tree /\
      (forall i, i < consumed \/ incs tree i -> covered (fs e) i) /\
      (cr_err c = None -> forall i, covered (fs e) i -> i < consumed \/ incs tree i).

  Definition drained (s : cstream) : Prop :=
    match snd s with [] => True | x :: _ => fst s < c_off x end.

  Lemma push_data : forall epoch tree consumed t out0,
    consumed <= blen (D epoch) -> out0 = firstn (N.to_nat consumed) (D epoch) -> wfc (D epoch) consumed tree ->
    forall tree2 consumed2 t2 out r, push P epoch tree consumed t = Some (tree2, consumed2, t2, out, r) ->
      consumed2 <= blen (D epoch) /\ out0 ++ handed epoch out = firstn (N.to_nat consumed2) (D epoch) /\
      wfc (D epoch) consumed2 tree2 /\
      (forall e, e <> epoch -> handed e out = []) /\
      (forall i, i < consumed2 \/ incs tree2 i <-> i < consumed \/ incs tree i) /\
      (r = TlsContinue -> drained (consumed2, tree2)) /\
      (forward P -> tls_read_epoch P t <= tls_read_epoch P t2) /\
      ((forall t e d, snd (tls_handle P t e d) <> TlsStop) -> r <> TlsStop).
  Proof.
    intros epoch. induction tree as [|c rest IH]; intros consumed t out0 Hc Ho Hw tree2 consumed2 t2 out r E; cbn [push] in E.
    - apply some_inj in E. injection E as <- <- <- <- <-. rewrite app_nil_r.
      split; [exact Hc|]. split; [exact Ho|]. split; [exact I|]. split; [reflexivity|]. split; [tauto|]. split; [intros _; exact I|].
      split; [reflexivity|discriminate].
    - pose proof Hw as Hw0. cbn [wfc] in Hw. destruct Hw as (A & B & C & W).
      destruct (N.leb_spec (c_off c) consumed) as [Hcc|Hcc].
      2: { apply some_inj in E. injection E as <- <- <- <- <-. rewrite app_nil_r.
           split; [exact Hc|]. split; [exact Ho|]. split; [exact Hw0|]. split; [reflexivity|]. split; [tauto|]. split; [intros _; exact Hcc|].
           split; [reflexivity|discriminate]. }
      assert (Eo : c_off c = consumed) by lia. rewrite Eo, N.sub_diag in E. cbn [N.to_nat skipn] in E.
      destruct (N.leb_spec 0 (blen (c_data c))) as [_|Hs]; [|lia].
      assert (He : consumed + blen (c_data c) = c_end c) by (unfold c_end; lia). rewrite He in E.
      assert (Hce : c_end c <= blen (D epoch)) by (destruct C as [C _]; unfold c_end; exact C).
      assert (Ho1 : out0 ++ c_data c = firstn (N.to_nat (c_end c)) (D epoch)).
      { rewrite Ho, (proj2 C). rewrite <- !slice_zero, Eo. rewrite <- (N.add_0_l consumed) at 2. rewrite slice_app.
        f_equal. unfold c_end. lia. }
      assert (Hi : forall i, i < c_end c \/ incs rest i <-> i < consumed \/ incs (c :: rest) i).
      { intros i. rewrite incs_cons. unfold c_end in *. split; [intros [H|H]; [destruct (N.lt_ge_cases i consumed); [tauto|right; left; lia]|tauto]|].
        intros [H|[H|H]]; [left; lia|left; lia|tauto]. }
      destruct (tls_handle P t epoch (c_data c)) as [t1 ret] eqn:Et. cbv beta iota zeta in E.
      assert (Hh : forall o, handed epoch ((epoch, c_data c) :: o) = c_data c ++ handed epoch o).
      { intros o. unfold handed. cbn [flat_map fst snd]. rewrite N.eqb_refl. reflexivity. }
      assert (Hne : forall o e, e <> epoch -> handed e ((epoch, c_data c) :: o) = handed e o).
      { intros o e Hn. unfold handed. cbn [flat_map fst snd]. destruct (N.eqb_spec epoch e); [congruence|reflexivity]. }
      assert (Hst : ret <> TlsContinue -> Some (rest, c_end c, t1, [(epoch, c_data c)], ret) = Some (tree2, consumed2, t2, out, r) ->
        consumed2 <= blen (D epoch) /\ out0 ++ handed epoch out = firstn (N.to_nat consumed2) (D epoch) /\
        wfc (D epoch) consumed2 tree2 /\
        (forall e, e <> epoch -> handed e out = []) /\
        (forall i, i < consumed2 \/ incs tree2 i <-> i < consumed \/ incs (c :: rest) i) /\
        (r = TlsContinue -> drained (consumed2, tree2)) /\
        (forward P -> tls_read_epoch P t <= tls_read_epoch P t2) /\
        ((forall t e d, snd (tls_handle P t e d) <> TlsStop) -> r <> TlsStop)).
      { intros Hr E2. apply some_inj in E2. injection E2 as <- <- <- <- <-. rewrite Hh. change (handed epoch []) with (@nil N). rewrite app_nil_r.
        split; [exact Hce|]. split; [exact Ho1|]. split; [exact W|]. split; [intros e Hn; rewrite Hne by exact Hn; reflexivity|].
        split; [exact Hi|]. split; [intros Hx; contradiction|]. split; [intros F; specialize (F t epoch (c_data c)); rewrite Et in F; exact F|].
        intros F. specialize (F t epoch (c_data c)). rewrite Et in F. exact F. }
      destruct ret; [|apply Hst; [discriminate|exact E]..]. clear Hst.
      destruct (push P epoch rest (c_end c) t1) as [[[[[tr cs] tt] oo] rr]|] eqn:Ep; [|discriminate].
      apply some_inj in E. injection E as <- <- <- <- <-.
      destruct (IH (c_end c) t1 (out0 ++ c_data c) Hce Ho1 W _ _ _ _ _ Ep) as (G1 & G2 & G3 & G4 & G5 & G6 & G7 & G8).
      split; [exact G1|]. split; [rewrite Hh, app_assoc; exact G2|]. split; [exact G3|].
      split; [intros e Hn; rewrite Hne by exact Hn; apply G4; exact Hn|]. split; [intros i; rewrite G5; apply Hi|].
      split; [exact G6|]. split; [|exact G8]. intros F. specialize (G7 F). specialize (F t epoch (c_data c)). rewrite Et in F. cbn [fst] in F. lia.
  Qed.

  Lemma process_data : forall fs n epoch c c', cinv fs c -> tls_process P n epoch c = Some c' ->
    cinv fs c' /\ (cr_err c' = None -> cr_err c = None) /\
    (forward P -> tls_read_epoch P (cr_tls c) <= tls_read_epoch P (cr_tls c')) /\
    (forall e, e < epoch -> cr_streams c' e = cr_streams c e) /\
    (forward P -> (forall t e d, snd (tls_handle P t e d) <> TlsStop) -> cr_err c' = None ->
     forall e, epoch <= e < epoch + N.of_nat n ->
     tls_read_epoch P (cr_tls c) = e \/ tls_read_epoch P (cr_tls c') = e -> drained (cr_streams c' e)).
  Proof.
    intros fs. induction n as [|n IH]; intros epoch c c' H E; cbn [tls_process] in E.
    - apply some_inj in E. subst c'. split; [exact H|]. split; [auto|]. split; [reflexivity|]. split; [reflexivity|]. intros. lia.
    - pose proof (H epoch) as He. destruct (cr_streams c epoch) as [consumed tree] eqn:Es.
      destruct (N.ltb_spec (tls_read_epoch P (cr_tls c)) epoch) as [Hr|Hr].
      { apply some_inj in E. subst c'. split; [exact H|]. split; [auto|]. split; [reflexivity|]. split; [reflexivity|]. intros. lia. }
      assert (Hskip : epoch < tls_read_epoch P (cr_tls c) -> tls_process P n (epoch + 1) c = Some c' ->
        cinv fs c' /\ (cr_err c' = None -> cr_err c = None) /\
        (forward P -> tls_read_epoch P (cr_tls c) <= tls_read_epoch P (cr_tls c')) /\
        (forall e, e < epoch -> cr_streams c' e = cr_streams c e) /\
        (forward P -> (forall t e d, snd (tls_handle P t e d) <> TlsStop) -> cr_err c' = None ->
         forall e, epoch <= e < epoch + N.of_nat (S n) ->
         tls_read_epoch P (cr_tls c) = e \/ tls_read_epoch P (cr_tls c') = e -> drained (cr_streams c' e))).
      { intros Hlt E2. destruct (IH _ _ _ H E2) as (G1 & G2 & G3 & G4 & G5).
        split; [exact G1|]. split; [exact G2|]. split; [exact G3|]. split; [intros e Hlte; apply G4; lia|].
        intros F1 F2 F3 e Hre Hor. apply (G5 F1 F2 F3 e); [|exact Hor]. specialize (G3 F1). lia. }
      destruct (N.ltb_spec epoch (tls_read_epoch P (cr_tls c))) as [Hlt|Hge].
      { destruct tree as [|x t]; [exact (Hskip Hlt E)|]. destruct (consumed <? c_off x); [|exact (Hskip Hlt E)].
        apply some_inj in E. subst c'. split; [|split; [discriminate|split; [reflexivity|split; [reflexivity|discriminate]]]].
        intros e. specialize (H e). cbn [cr_streams cr_out cr_err]. destruct (cr_streams c e).
        destruct H as (A & B & C & F & _). repeat (split; [assumption|]). discriminate. }
      assert (Hre : tls_read_epoch P (cr_tls c) = epoch) by lia. clear Hskip.
      destruct (push P epoch tree consumed (cr_tls c)) as [[[[[tr cs] tt] oo] rr]|] eqn:Ep; [|discriminate].
      destruct He as (A & B & C & F & G).
      destruct (push_data epoch tree consumed (cr_tls c) _ A B C _ _ _ _ _ Ep) as (P1 & P2 & P3 & P4 & P5 & P6 & P7 & P8).
      set (c1 := mk_ccnx (cset (cr_streams c) epoch (cs, tr)) tt (cr_out c ++ oo)
             (match rr with TlsFail => Some 1 | _ => cr_err c end)) in E.
      assert (Herr : cr_err c1 = None -> cr_err c = None /\ rr <> TlsFail).
      { unfold c1. cbn [cr_err]. destruct rr; [split; [assumption|discriminate]..|discriminate]. }
      assert (H1 : cinv fs c1).
      { intros e. unfold c1. cbn [cr_streams cr_out]. unfold cset. destruct (N.eqb_spec e epoch) as [->|Hn].
        - split; [exact P1|]. rewrite handed_app. split; [exact P2|]. split; [exact P3|]. split; [intros i Hi; apply F; apply P5; exact Hi|].
          intros He i Hi. apply P5. apply G; [|exact Hi]. apply Herr. exact He.
        - specialize (H e). destruct (cr_streams c e). destruct H as (X1 & X2 & X3 & X4 & X5).
          rewrite handed_app, P4, app_nil_r by exact Hn. repeat (split; [assumption|]). intros He. apply X5. apply Herr. exact He. }
      destruct (IH _ _ _ H1 E) as (G1 & G2 & G3 & G4 & G5).
      split; [exact G1|]. split; [intros Hn; apply Herr; apply G2; exact Hn|].
      split; [intros Fw; specialize (G3 Fw); specialize (P7 Fw); change (cr_tls c1) with tt in G3; lia|].
      split. { intros e Hl. rewrite G4 by lia. unfold c1. cbn [cr_streams]. unfold cset. destruct (N.eqb_spec e epoch); [lia|reflexivity]. }
      intros F1 F2 F3 e Hrange Hor. destruct (N.eq_dec e epoch) as [->|Hn].
      + rewrite G4 by lia. unfold c1. cbn [cr_streams]. unfold cset. rewrite N.eqb_refl.
        specialize (P8 F2). pose proof (proj2 (Herr (G2 F3))) as Hf. apply P6. destruct rr; [reflexivity|contradiction..].
      + apply (G5 F1 F2 F3 e); [lia|]. destruct Hor as [Hor|Hor]; [lia|right; exact Hor].
  Qed.

  Lemma decode_data : forall fs c e off d c', cinv fs c -> slice_of (D e) off d -> decode_crypto c e off d = Some c' ->
    cinv (fun x => if x =? e then fs x ++ [mk_sframe off d false] else fs x) c' /\ (cr_err c' = None -> cr_err c = None).
  Proof.
    intros fs c e off d c' H Hs E. unfold decode_crypto in E. pose proof (H e) as He.
    destruct (cr_streams c e) as [consumed tree] eqn:Es. destruct He as (A & B & C & F & G).
    assert (Hcov : forall i, covered (fs e ++ [mk_sframe off d false]) i <-> covered (fs e) i \/ off <= i < off + blen d).
    { intros i. unfold covered. split.
      - intros (f & Hf & Hi). apply in_app_or in Hf. destruct Hf as [Hf|[<-|[]]]; [left; eauto|right; exact Hi].
      - intros [(f & Hf & Hi)|Hi]; [exists f; split; [apply in_or_app; left; exact Hf|exact Hi]|].
        exists (mk_sframe off d false). split; [apply in_or_app; right; left; reflexivity|exact Hi]. }
    destruct ((consumed <? off) && (consumed + crypto_gap <? off + blen d)).
    - apply some_inj in E. subst c'. split; [|discriminate]. intros x. cbn [cr_streams cr_out cr_err].
      destruct (N.eqb_spec x e) as [->|Hn].
      + rewrite Es. split; [exact A|]. split; [exact B|]. split; [exact C|]. split; [|discriminate].
        intros i Hi. apply Hcov. left. apply F. exact Hi.
      + specialize (H x). destruct (cr_streams c x). destruct H as (X1 & X2 & X3 & X4 & X5). repeat (split; [assumption|]). discriminate.
    - destruct (queue_spec_any (D e) tree consumed consumed off d C Hs (N.le_refl _)) as (t2 & n2 & Eq & W & Hin).
      rewrite Eq in E. apply some_inj in E. subst c'. split; [|auto]. intros x. cbn [cr_streams cr_out cr_err]. unfold cset.
      destruct (N.eqb_spec x e) as [->|Hn].
      + split; [exact A|]. split; [exact B|]. split; [exact W|]. split.
        * intros i Hi. apply Hcov. destruct Hi as [Hi|Hi]; [left; apply F; left; exact Hi|]. apply Hin in Hi.
          destruct Hi as [Hi|Hi]; [left; apply F; right; exact Hi|right; lia].
        * intros Hn i Hi. apply Hcov in Hi. destruct Hi as [Hi|Hi].
          -- destruct (G Hn i Hi) as [Hx|Hx]; [left; exact Hx|right; apply Hin; left; exact Hx].
          -- destruct (N.lt_ge_cases i consumed); [left; assumption|]. right. apply Hin. right. lia.
      + specialize (H x). destruct (cr_streams c x). exact H.
  Qed.

  Lemma run_data : forall ops fs c c', cinv fs c -> crun P c ops = Some c' ->
    (forall e off d, In (CoFrame e off d) ops -> slice_of (D e) off d) ->
    cinv (fun x => fs x ++ crypto_frames x ops) c' /\ (cr_err c' = None -> cr_err c = None).
  Proof.
    induction ops as [|o ops IH]; intros fs c c' H E Hs; cbn [crun] in E.
    - apply some_inj in E. subst c'. split; [|auto]. intros e. cbn [crypto_frames flat_map]. rewrite app_nil_r. apply H.
    - destruct (cstep P c o) as [c1|] eqn:E1; [|discriminate].
      assert (Hs' : forall e off d, In (CoFrame e off d) ops -> slice_of (D e) off d) by (intros; apply Hs; right; assumption).
      destruct o as [e off d|]; cbn [cstep] in E1.
      + destruct (decode_data fs c e off d c1 H (Hs e off d (or_introl eq_refl)) E1) as (H1 & H2).
        destruct (IH _ _ _ H1 E Hs') as (G1 & G2). split; [|auto].
        intros x. specialize (G1 x). cbv beta in G1. rewrite cframes_cons. rewrite (N.eqb_sym e x).
        destruct (x =? e); [rewrite app_assoc; exact G1|exact G1].
      + destruct (process_data fs 4 0 c c1 H E1) as (H1 & H2 & _). destruct (IH _ _ _ H1 E Hs') as (G1 & G2). split; [|auto].
        intros x. specialize (G1 x). rewrite cframes_cons. exact G1.
  Qed.
End Data.

Lemma cinv0 : forall {T} (t0 : T) D, cinv D (fun _ => []) (ccnx0 t0).
Proof.
  intros T t0 D e. cbn [ccnx0 cr_streams cr_out cr_err]. split; [lia|]. split; [reflexivity|]. split; [exact I|]. split.
  - intros i [Hi|Hi]; [lia|]. apply incs_nil in Hi. contradiction.
  - intros _ i (f & [] & _).
Qed.

Lemma frames_slices : forall (D : N -> list N) ops, (forall e, Forall (carries (D e)) (crypto_frames e ops)) ->
  forall e off d, In (CoFrame e off d) ops -> slice_of (D e) off d.
Proof.
  intros D ops H e off d Hin. specialize (H e). rewrite Forall_forall in H. specialize (H (mk_sframe off d false)).
  apply carries_slice in H; [exact H|]. unfold crypto_frames. apply in_flat_map. exists (CoFrame e off d). split; [exact Hin|].
  rewrite N.eqb_refl. left. reflexivity.
Qed.

Lemma crypto_prefix : forall T (P : tls T) t0 (D : N -> list N) ops c e,
  (forall e, Forall (carries (D e)) (crypto_frames e ops)) -> crun P (ccnx0 t0) ops = Some c ->
  exists n, handed e (cr_out c) = firstn (N.to_nat n) (D e) /\ n <= blen (D e) /\
    forall i, i < n -> covered (crypto_frames e ops) i.
Proof.
  intros T P t0 D ops c e H E.
  destruct (run_data P D ops _ _ _ (cinv0 t0 D) E (frames_slices D ops H)) as (G & _). specialize (G e).
  destruct (cr_streams c e) as [consumed tree]. destruct G as (A & B & C & F & _). exists consumed.
  split; [exact B|]. split; [exact A|]. intros i Hi. apply (F i). left. exact Hi.
Qed.

Lemma crypto_exact : forall T (P : tls T) t0 (D : N -> list N) ops c c' e,
  forward P -> (forall t e d, snd (tls_handle P t e d) <> TlsStop) ->
  (forall e, Forall (carries (D e)) (crypto_frames e ops)) ->
  crun P (ccnx0 t0) ops = Some c -> crun P c [CoProcess] = Some c' -> cr_err c' = None -> e < 4 ->
  tls_read_epoch P (cr_tls c) = e \/ tls_read_epoch P (cr_tls c') = e ->
  exists n, longest_covered (crypto_frames e ops) n /\ handed e (cr_out c') = firstn (N.to_nat n) (D e).
Proof.
  intros T P t0 D ops c c' e F1 F2 H E1 E2 He Hlt Hor.
  destruct (run_data P D ops _ _ _ (cinv0 t0 D) E1 (frames_slices D ops H)) as (G & _).
  cbn [crun cstep] in E2. destruct (tls_process P 4 0 c) as [c2|] eqn:Ep; [|discriminate]. apply some_inj in E2. subst c2.
  destruct (process_data P D _ 4 0 c c' G Ep) as (G1 & G2 & G3 & G4 & G5).
  specialize (G5 F1 F2 He e ltac:(lia) Hor). specialize (G1 e). destruct (cr_streams c' e) as [consumed tree].
  destruct G1 as (A & B & C & F & Gx). exists consumed. split; [|exact B]. split.
  - intros i Hi. apply (F i). left. exact Hi.
  - intros Hc. apply (Gx He consumed) in Hc. destruct Hc as [Hc|Hc]; [lia|]. unfold drained in G5. cbn [snd fst] in G5.
    destruct tree as [|x t]; [apply incs_nil in Hc; exact Hc|]. cbn [wfc] in C. destruct C as (C1 & C2 & C3 & C4).
    apply incs_cons in Hc. destruct Hc as [Hc|Hc]; [lia|]. destruct Hc as (y & Hy & Hi). destruct (wfc_in _ _ _ _ C4 Hy) as (W & _).
    unfold c_end in W. lia.
Qed.
