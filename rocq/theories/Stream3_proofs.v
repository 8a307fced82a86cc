(** Histories: delivery, FIN, absence of undefined behaviour. *)
From Verif Require Import Base Reasm_model Reasm_spec Reasm_proofs Reasm2_proofs Stream_model Stream_spec Stream_proofs Stream2_proofs.

(** ** Histories as sequences of views *)

Lemma pieces_app : forall sid a b, pieces_of sid (a ++ b) = pieces_of sid a ++ pieces_of sid b.
Proof. intros. unfold pieces_of. apply flat_map_app. Qed.

(** One stream over a history, with the parameters of the connection and whether an
    error was recorded in the end. *)
Lemma run_views : forall ops c c', winv c -> srun c ops = Some (c', true) ->
  winv c' /\ (k_client c' = k_client c /\ k_par c' = k_par c) /\
  (exists evs, k_out c' = k_out c ++ evs /\
    forall sid e, (k_err c' <> None -> e = true) -> vt (vpc c e sid) (view_of c sid) (flat_map (labels sid) ops) (pieces_of sid evs) (view_of c' sid)) /\
  (k_rcvd c' + sumoff c = k_rcvd c + sumoff c' /\ (k_rcvd c <= k_md_l c -> k_rcvd c' <= k_md_l c') /\
   (lim_ok c -> lim_ok c') /\ (k_err c <> None -> k_err c' <> None)).
Proof.
  induction ops as [|o ops IH]; intros c c' Hw H; cbn [srun] in H.
  - injection H as <-. apply (good_refl c Hw).
  - destruct (sstep c o) as [[c1 ok]|] eqn:E; [|discriminate]. destruct ok; [|discriminate].
    destruct (sstep_spec _ _ _ _ Hw E) as [G _]. specialize (G eq_refl). pose proof G as (G1 & _).
    apply (good_trans c c1 c' (fun sid => labels sid o) (fun sid => flat_map (labels sid) ops) (fun sid => flat_map (labels sid) (o :: ops))); [reflexivity|exact G|].
    apply (IH _ _ G1 H).
Qed.

Lemma run_view0 : forall client p nb nu md mdr br ur ops c, srun (scnx0 client p nb nu md mdr br ur) ops = Some (c, true) ->
  forall sid e, (k_err c <> None -> e = true) ->
  vt (vpc (scnx0 client p nb nu md mdr br ur) e sid) VNone (flat_map (labels sid) ops) (pieces_of sid (k_out c)) (view_of c sid).
Proof.
  intros client p nb nu md mdr br ur ops c H sid e He.
  assert (Hw : winv (scnx0 client p nb nu md mdr br ur)).
  { split; [|constructor]. split; [constructor|]. split; [|intros t Ht; apply N.mod_small; exact Ht].
    intros id. split; [intros []|]. unfold stream_type. cbn [scnx0 k_next]. intros X. pose proof (N.mod_le id 4 ltac:(lia)). lia. }
  destruct (run_views _ _ _ Hw H) as (_ & _ & (evs & E1 & E2) & _). cbn [scnx0 k_out app] in E1. rewrite E1. apply (E2 sid e He).
Qed.

(** A history that stops on an error ends with what the completed part gave. *)
Lemma run_split : forall ops c c' ok, winv c -> srun c ops = Some (c', ok) ->
  exists done rest c1, ops = done ++ rest /\ srun c done = Some (c1, true) /\ k_out c' = k_out c1 /\
    (ok = true -> rest = [] /\ c' = c1) /\ (ok = false -> k_err c' <> None).
Proof.
  induction ops as [|o ops IH]; intros c c' ok Hw H; cbn [srun] in H.
  - injection H as <- <-. exists [], [], c. repeat split. discriminate.
  - destruct (sstep c o) as [[c1 b]|] eqn:E; [|discriminate]. destruct (sstep_spec _ _ _ _ Hw E) as [G F]. destruct b.
    + destruct (G eq_refl) as (G1 & G2 & _). destruct (IH _ _ _ G1 H) as (d & r & c2 & A & B & C & D & F2).
      exists (o :: d), r, c2. split; [cbn [app]; rewrite A; reflexivity|]. split; [cbn [srun]; rewrite E; exact B|]. split; [exact C|]. split; [exact D|exact F2].
    + injection H as <- <-. destruct (F eq_refl) as [F1 F2]. exists [], (o :: ops), c. split; [reflexivity|]. split; [reflexivity|]. split; [exact F1|]. split; [discriminate|]. intros _. exact F2.
Qed.

Lemma winv0 : forall client p nb nu md mdr br ur, winv (scnx0 client p nb nu md mdr br ur).
Proof.
  intros. split; [|constructor]. split; [constructor|]. split; [|intros t Ht; apply N.mod_small; exact Ht].
  intros id. split; [intros []|]. unfold stream_type. cbn [scnx0 k_next]. intros H. pose proof (N.mod_le id 4 ltac:(lia)). lia.
Qed.

Lemma view0 : forall client p nb nu md mdr br ur sid, view_of (scnx0 client p nb nu md mdr br ur) sid = VNone.
Proof. reflexivity. Qed.

Lemma out0 : forall client p nb nu md mdr br ur, k_out (scnx0 client p nb nu md mdr br ur) = [].
Proof. reflexivity. Qed.

(** ** Exact delivery *)

Definition lframes (l : list label) : list sframe :=
  flat_map (fun x => match x with LFrame f => [f] | _ => [] end) l.

Lemma lframes_labels : forall sid ops, lframes (flat_map (labels sid) ops) = frames_of sid ops.
Proof.
  intros sid. induction ops as [|o ops IH]; [reflexivity|]. cbn [flat_map]. unfold lframes in *. rewrite flat_map_app, IH.
  unfold frames_of. cbn [flat_map]. f_equal. destruct o; cbn [labels]; try reflexivity; destruct (_ =? _); reflexivity.
Qed.

Lemma rx_inv_ext : forall D fs fs' r out, (forall f, In f fs <-> In f fs') -> rx_inv D fs r out -> rx_inv D fs' r out.
Proof.
  intros D fs fs' r out H (A1 & A2 & A3 & A4 & A5 & A6 & A7 & A8).
  assert (Hc : forall i, covered fs i <-> covered fs' i).
  { intros i. unfold covered. split; intros (f & Hf & Hi); exists f; (split; [apply H; exact Hf|exact Hi]). }
  split; [exact A1|]. split; [exact A2|]. split; [intros i; rewrite A3; apply Hc|]. split; [intros f Hf; apply A4, H; exact Hf|].
  split; [destruct A5 as [A5|(f & Hf & A5)]; [left; exact A5|right; exists f; split; [apply H; exact Hf|exact A5]]|]. split; [exact A6|].
  split; [|exact A8]. rewrite A7. apply Bool.eq_iff_eq_true. rewrite !existsb_exists.
  split; intros (f & Hf & Hb); exists f; (split; [apply H; exact Hf|exact Hb]).
Qed.

Definition vinv (D : list N) (fs : list sframe) (v : view) (out : list piece) : Prop :=
  match v with
  | VNone => fs = [] /\ out = []
  | VLive r g => fst g = true /\ rx_reset_received r = false /\ rx_inv D fs r out
  | VRet _ => (exists f, In f fs /\ f_fin f = true) /\ total out = D /\ existsb snd out = true /\ fin_last out /\ (forall i, i < blen D -> covered fs i)
  end.

Definition good_label (D : list N) (l : label) : Prop :=
  match l with LFrame f => carries D f | LReset _ | LGate => False | _ => True end.

Lemma fin_known : forall D fs r out, rx_inv D fs r out -> Forall (carries D) fs -> rx_fin_received r = true -> rx_fin_offset r = blen D.
Proof.
  intros D fs r out (Hd & Hw & Hv & Ho & Hx & He & Hr & Hs) Hfs E. rewrite Hr in E. apply existsb_exists in E. destruct E as (g & Hg & Hgf).
  rewrite Forall_forall in Hfs. pose proof (Hfs g Hg) as [_ Gf]. specialize (Gf Hgf).
  apply N.le_antisymm; [|rewrite <- Gf; apply Ho; exact Hg].
  destruct Hx as [->|(h & Hh & <-)]; [lia|]. pose proof (carries_slice D h (Hfs h Hh)) as [G _]. exact G.
Qed.

Lemma covered_app : forall a b i, covered (a ++ b) i <-> covered a i \/ covered b i.
Proof.
  intros a b i. unfold covered. split.
  - intros (f & Hf & Hi). apply in_app_or in Hf. destruct Hf; [left|right]; eauto.
  - intros [(f & Hf & Hi)|(f & Hf & Hi)]; exists f; (split; [apply in_or_app; tauto|exact Hi]).
Qed.

Lemma vt_exact : forall u D v l p v', vt u v l p v' -> vp_uni u = false -> Forall (good_label D) l ->
  forall fs out, Forall (carries D) fs -> vinv D fs v out -> vinv D (fs ++ lframes l) v' (out ++ p).
Proof.
  intros u D v l p v' H. induction H; intros Hu Hl fs out Hc Hv.
  - cbn [lframes flat_map]. rewrite !app_nil_r. exact Hv.
  - apply Forall_app in Hl. destruct Hl as [Hl1 Hl2]. unfold lframes. rewrite flat_map_app, !app_assoc. apply IHvt2; [exact Hu|exact Hl2| |].
    + apply Forall_app. split; [exact Hc|]. fold (lframes l1). rewrite Forall_forall in *. intros f Hf. unfold lframes in Hf.
      apply in_flat_map in Hf. destruct Hf as (x & Hx & Hf). specialize (Hl1 x Hx). destruct x; try contradiction. destruct Hf as [<-|[]]. exact Hl1.
    + apply IHvt1; assumption.
  - destruct Hv as [-> ->]. cbn [lframes flat_map app vinv]. split; [reflexivity|]. split; [reflexivity|]. apply rx_inv_init.
  - cbn [lframes flat_map app]. rewrite !app_nil_r. destruct Hv as (A & B & C). destruct (_ <? _); (split; [exact A|]); (split; [exact B|]); exact C.
  - cbn [lframes flat_map app]. rewrite !app_nil_r. exact Hv.
  - cbn [lframes flat_map app]. rewrite !app_nil_r. destruct Hv as (A & B & C). split; [exact A|]. split; [exact B|]. exact C.
  - cbn [lframes flat_map app]. rewrite !app_nil_r. exact Hv.
  - inversion Hl as [|x y F]. contradiction.
  - inversion Hl as [|x y F]. contradiction.
  - destruct H as [H|H]; [|congruence]. cbn [lframes flat_map]. rewrite !app_nil_r. destruct Hv as (A & B & C).
    unfold rx_done in H. rewrite B in H. cbn [andb] in H. rewrite orb_false_r in H. apply andb_prop in H. destruct H as [H1 H2].
    pose proof (fin_known _ _ _ _ C Hc H1) as Hk. destruct C as ((D1 & D2 & D3 & D4 & D5) & C2 & C3 & C4 & C5 & C6 & C7 & C8).
    destruct (D5 H2) as [_ D6]. assert (Hcons : rx_consumed r = blen D) by lia. cbn [vinv]. split.
    + rewrite C7 in H1. apply existsb_exists in H1. exact H1.
    + split; [rewrite D2, Hcons; unfold blen; rewrite Nat2N.id; apply firstn_all|]. split; [congruence|]. split; [exact D4|].
      intros i Hi. apply C3. left. lia.
  - rewrite app_nil_r. destruct Hv as ((f & Hf & Hff) & B & C & E & F).
    cbn [vinv]. split; [exists f; split; [apply in_or_app; left; exact Hf|exact Hff]|]. split; [exact B|]. split; [exact C|]. split; [exact E|].
    intros i Hi. apply covered_app. left. apply F. exact Hi.
  - destruct Hv as (A & B & C). rewrite A. inversion Hl as [|x y F _]. subst. cbn [good_label] in F.
    destruct (rx_step D fs r out f C Hc F) as (r2 & p2 & E & I2 & S1 & S2 & S3 & S4 & S5). rewrite H2 in E. injection E as <- <-.
    cbn [vinv lframes flat_map app]. split; [exact A|]. split; [congruence|]. eapply rx_inv_ext; [|exact I2].
    intros x. rewrite in_app_iff. cbn [In]. tauto.
  - inversion Hl as [|x y F]. contradiction.
Qed.

Lemma vinv_result : forall D fs v out, Forall (carries D) fs -> vinv D fs v out ->
  (exists n, longest_covered fs n /\ n <= blen D /\ total out = firstn (N.to_nat n) D /\
    ((exists p, In p out /\ snd p = true) <-> (exists f, In f fs /\ f_fin f = true) /\ n = blen D)) /\ fin_last out.
Proof.
  intros D fs v out Hc Hv.
  assert (Hbound : forall i, covered fs i -> i < blen D).
  { intros i (f & Hf & Hi). rewrite Forall_forall in Hc. specialize (Hc f Hf). pose proof (carries_slice _ _ Hc) as [S _]. unfold f_end in Hi. lia. }
  destruct v as [|r g|]; cbn [vinv] in Hv.
  - destruct Hv as [-> ->]. split; [|intros [|? ?] ? ? E; discriminate]. exists 0. split; [split; [intros i Hi; lia|intros (f & [] & _)]|]. split; [lia|].
    split; [reflexivity|]. split; [intros (p & [] & _)|intros ((f & [] & _) & _)].
  - destruct Hv as (_ & B & C). pose proof (fin_known _ _ _ _ C Hc) as Hk.
    destruct C as ((D1 & D2 & D3 & D4 & D5) & C2 & C3 & C4 & C5 & C6 & C7 & C8).
    split; [|exact D4]. exists (rx_consumed r). split; [split|].
    + intros i Hi. apply C3. left. exact Hi.
    + intros Hcov. apply C3 in Hcov. destruct Hcov as [Hcov|(c & Hc1 & Hc2)]; [lia|]. pose proof (wfc_in _ _ _ _ C2 Hc1) as W. lia.
    + split; [exact D1|]. split; [exact D2|]. split.
      * intros Hp. assert (E : rx_fin_signalled r = true) by (rewrite D3; apply existsb_exists; exact Hp).
        destruct (D5 E) as [E1 E2]. split; [rewrite C7 in E1; apply existsb_exists in E1; exact E1|]. rewrite (Hk E1) in E2. lia.
      * intros (Hf & Hn). assert (E1 : rx_fin_received r = true) by (rewrite C7; apply existsb_exists; exact Hf).
        assert (E : rx_fin_signalled r = true) by (apply C8; [exact E1|rewrite (Hk E1); lia]).
        rewrite D3 in E. apply existsb_exists in E. exact E.
  - destruct Hv as (A & B & C & E & F). split; [|exact E]. exists (blen D). split; [split; [exact F|intros Hn; apply Hbound in Hn; lia]|]. split; [lia|].
    split; [rewrite B; unfold blen; rewrite Nat2N.id, firstn_all; reflexivity|]. split; [intros _; split; [exact A|reflexivity]|].
    intros _. apply existsb_exists in C. exact C.
Qed.

(** ** Any history: a prefix *)

Definition pinv (D : list N) (v : view) (out : list piece) : Prop :=
  match v with
  | VNone => out = []
  | VLive r g => exists all, data_inv D r all /\ (if fst g then out = all else exists t, all = out ++ t)
  | VRet _ => exists t, D = total out ++ t
  end.

Definition slice_label (D : list N) (l : label) : Prop :=
  match l with LFrame f => slice_of D (f_off f) (f_data f) | _ => True end.

Lemma vt_prefix : forall u D v l p v', vt u v l p v' -> Forall (slice_label D) l ->
  forall out, pinv D v out -> pinv D v' (out ++ p).
Proof.
  intros u D v l p v' H. induction H; intros Hl out Hv; rewrite ?app_nil_r; try exact Hv.
  - apply Forall_app in Hl. destruct Hl as [Hl1 Hl2]. rewrite app_assoc. apply IHvt2; [exact Hl2|]. apply IHvt1; assumption.
  - cbn in Hv. subst out. exists []. split; [|reflexivity]. split; [cbn [rx0 rx_consumed]; lia|]. split; [reflexivity|exact I].
  - destruct (_ <? _); exact Hv.
  - destruct Hv as (all & A & B). exists all. split; [exact A|]. cbn [fst]. destruct (fst g); [subst; exists []; rewrite app_nil_r; reflexivity|exact B].
  - destruct Hv as (all & (A1 & A2 & A3) & B).
    assert (Hall : exists t, D = total all ++ t).
    { exists (skipn (N.to_nat (rx_consumed r)) D). rewrite A2. symmetry. apply firstn_skipn. }
    destruct Hall as (t & Ht). destruct (fst g); [subst all; exists t; exact Ht|]. destruct B as (t2 & ->).
    exists (total t2 ++ t). rewrite Ht, total_app, <- app_assoc. reflexivity.
  - inversion Hl as [|x y F _]. subst. cbn [slice_label] in F. destruct Hv as (all & A & B).
    destruct (data_step D (rx_note r (f_fin f) (f_end f)) all (f_off f) (f_data f) (f_fin f && negb (rx_fin_received r)) A F) as (r2 & p2 & E & I2).
    rewrite H2 in E. injection E as <- <-. exists (all ++ ps). split; [exact I2|]. destruct (fst g); [subst; reflexivity|].
    destruct B as (t & ->). exists (t ++ ps). rewrite app_nil_r, app_assoc. reflexivity.
  - destruct Hv as (all & A & B). exists all. split; [|exact B]. destruct (rx_reset_received r); exact A.
Qed.

(** ** Any history at all: FIN once, chunks apart, nothing undefined *)

Definition ainv (v : view) (out : list piece) : Prop :=
  match v with
  | VNone => out = []
  | VLive r g => any_inv (rx_fin_offset r) r /\ rx_fin_offset r <= rx_maxdata r /\
                 exists all, fin_ok r all /\ (if fst g then out = all else exists t, all = out ++ t)
  | VRet _ => fin_last out
  end.

Lemma fin_last_prefix : forall a b, fin_last (a ++ b) -> fin_last a.
Proof.
  intros a b H x p y E Hp. specialize (H x p (y ++ b)). rewrite E, <- app_assoc in H. specialize (H eq_refl Hp).
  apply app_eq_nil in H. tauto.
Qed.

Lemma vt_any : forall u v l p v', vt u v l p v' -> forall out, ainv v out -> ainv v' (out ++ p).
Proof.
  intros u v l p v' H. induction H; intros out Hv; rewrite ?app_nil_r; try exact Hv.
  - rewrite app_assoc. apply IHvt2. apply IHvt1. exact Hv.
  - cbn in Hv. subst out. split; [apply any_init|]. split; [cbn [rx0 rx_fin_offset rx_maxdata]; lia|]. exists []. split; [|reflexivity].
    split; [reflexivity|]. split; [intros [|? ?] q b E; discriminate|discriminate].
  - destruct Hv as (A & B & C). destruct (N.ltb_spec (rx_maxdata r) v); (split; [exact A|]); (split; [cbn [r_set_maxdata rx_fin_offset rx_maxdata]; lia|]); exact C.
  - destruct Hv as (A & B & (all & C & E)). split; [exact A|]. split; [exact B|]. exists all. split; [exact C|].
    cbn [fst]. destruct (fst g); [subst; exists []; rewrite app_nil_r; reflexivity|exact E].
  - destruct Hv as (A & B & (all & (C1 & C2 & C3) & E)). destruct (fst g); [subst; exact C2|]. destruct E as (t & ->). eapply fin_last_prefix. exact C2.
  - destruct Hv as (A & B & (all & (C1 & C2 & C3) & E)).
    set (r0 := rx_note r (f_fin f) (f_end f)) in *.
    assert (A0 : any_inv (rx_fin_offset r0) r0).
    { eapply any_congr with (r := r); [reflexivity|reflexivity|]. eapply any_mono; [exact A|]. unfold r0, rx_note. cbn [rx_fin_offset]. lia. }
    assert (L0 : f_off f + blen (f_data f) <= rx_fin_offset r0) by (unfold r0, rx_note; cbn [rx_fin_offset]; unfold f_end; lia).
    assert (F0 : fin_ok r0 all).
    { split; [exact C1|]. split; [exact C2|]. unfold r0, rx_note. cbn [rx_fin_signalled rx_fin_received rx_fin_offset rx_consumed]. intros Hs.
      destruct (C3 Hs) as [C4 C5]. rewrite C4. split; [reflexivity|]. specialize (H0 C4). destruct (f_fin f); lia. }
    destruct (fin_input _ _ _ _ _ _ _ A0 L0 F0 H2) as (G1 & (S1 & S2 & S3 & S4 & S5) & G3).
    split; [exact G3|]. split; [rewrite S4, S5; unfold r0, rx_note; cbn [rx_fin_offset rx_maxdata]; lia|].
    exists (all ++ ps). split; [exact G1|]. destruct (fst g); [subst; reflexivity|]. destruct E as (t & ->). exists (t ++ ps). rewrite app_nil_r, app_assoc. reflexivity.
  - destruct Hv as (A & B & (all & (C1 & C2 & C3) & E)). destruct (rx_reset_received r) eqn:Er.
    + split; [exact A|]. split; [exact B|]. exists all. split; [split; [exact C1|split; [exact C2|exact C3]]|exact E].
    + split.
      { eapply any_congr with (r := r); [reflexivity|reflexivity|]. eapply any_mono; [exact A|]. unfold rx_reset. cbn [rx_fin_offset]. lia. }
      split; [unfold rx_reset; cbn [rx_fin_offset rx_maxdata]; lia|]. exists all. split; [|exact E].
      split; [exact C1|]. split; [exact C2|]. unfold rx_reset. cbn [rx_fin_signalled rx_fin_received rx_fin_offset rx_consumed]. intros Hs.
      destruct (C3 Hs) as [C4 C5]. split; [exact C4|]. rewrite (H ltac:(rewrite C4; reflexivity)). lia.
Qed.

(** Every live stream is in order. *)
Definition live_ok (c : scnx) : Prop := forall sid, exists out, ainv (view_of c sid) out.

Lemma rx_input_any : forall m r off d n, any_inv m r -> off + blen d <= m -> rx_input r off d n <> None.
Proof. intros m r off d n Ha Hl. destruct (any_step _ r off d n Ha Hl) as (r' & ps & E & _). rewrite E. discriminate. Qed.

Lemma stream_frame_defined : forall c sid off fin d, winv c -> live_ok c -> stream_frame c sid off fin d <> None.
Proof.
  intros c sid off fin d Hw Hok H. unfold stream_frame in H.
  destruct (N.leb_spec two62 (off + blen d)) as [Hbig|Hbig]; [discriminate|].
  destruct (find_or_create c sid) as [c1 os] eqn:Ef.
  destruct (find_or_create_spec _ _ _ _ Hw Ef) as ((M1 & M2 & M3 & M4 & M5 & M6 & _) & Ho).
  destruct os as [s|]; [|discriminate]. destruct Ho as (Hlk & Herr).
  destruct (Hok sid) as (out & Hav). pose proof (vt_any _ _ _ _ _ (M6 sid true) out Hav) as Hv. rewrite (view_live _ _ _ Hlk) in Hv.
  destruct Hv as (A & _ & _). set (r := s_rx s) in *. set (nfo := off + blen d) in *.
  match type of H with (let '(_, _) := ?e in _) = _ => destruct e as [[[c2 s2] okk] notify] eqn:Ec end.
  assert (Hc2 : rx_consumed (s_rx s2) = rx_consumed r /\ rx_chunks (s_rx s2) = rx_chunks r).
  { destruct (rx_fin_received r).
    - destruct (if fin then negb (rx_fin_offset r =? nfo) else rx_fin_offset r <? nfo); injection Ec as <- <- <- <-; split; reflexivity.
    - destruct (if fin then update_max c1 (s_set_rx s (r_set_fin r true)) else (c1, s)) as [cA sA] eqn:Eu.
      assert (Hu : rx_consumed (s_rx sA) = rx_consumed r /\ rx_chunks (s_rx sA) = rx_chunks r).
      { destruct fin.
        - destruct (update_max_spec _ _ _ _ Eu) as (U1 & U2 & U3 & U4 & U5 & U6 & U7 & U8 & U9 & U10 & U11 & U12 & U13). rewrite U9. split; reflexivity.
        - injection Eu as <- <-. split; reflexivity. }
      destruct (rx_fin_offset r <? nfo).
      + destruct (flow_check cA sA nfo) as [[cB sB] okB] eqn:Efl. injection Ec as <- <- <- <-.
        destruct (flow_check_spec _ _ _ _ _ _ Efl) as (F1 & F2 & F3 & F4 & F5 & F6 & F7 & F8 & F9 & F10 & F11 & F12 & F13). destruct okB.
        * destruct (F12 eq_refl) as (_ & -> & _). exact Hu.
        * destruct (F13 eq_refl) as (_ & -> & _). exact Hu.
      + injection Ec as <- <- <- <-. exact Hu. }
  destruct okk; [|discriminate]. destruct (rx_input (s_rx s2) off d notify) as [[r' ps]|] eqn:Ei; [discriminate|].
  revert Ei. apply rx_input_any with (m := N.max (rx_fin_offset r) nfo); [|unfold nfo; lia].
  eapply any_congr; [apply Hc2|apply Hc2|]. eapply any_mono; [exact A|lia].
Qed.

Lemma sstep_defined : forall c o, winv c -> live_ok c -> sstep c o <> None.
Proof.
  intros c o Hw Hok. destruct o; cbn [sstep]; try discriminate. apply stream_frame_defined; assumption.
Qed.

Lemma srun_defined : forall ops c, winv c -> live_ok c -> srun c ops <> None.
Proof.
  induction ops as [|o ops IH]; intros c Hw Hok; cbn [srun]; [discriminate|].
  destruct (sstep c o) as [[c1 ok]|] eqn:E; [|exfalso; eapply sstep_defined; eassumption]. destruct ok; [|discriminate].
  destruct (sstep_spec _ _ _ _ Hw E) as [G _]. destruct (G eq_refl) as (G1 & G2 & (e1 & G3 & G4) & _). apply IH; [exact G1|].
  intros sid. destruct (Hok sid) as (out & Ho). exists (out ++ pieces_of sid e1). eapply vt_any; [apply (G4 sid true); auto|exact Ho].
Qed.

Lemma live0 : forall client p nb nu md mdr br ur, live_ok (scnx0 client p nb nu md mdr br ur).
Proof. intros. intros sid. exists []. rewrite view0. reflexivity. Qed.

(** ** The theorems *)

Lemma tx_only_peer : forall client sid, peer_sends client sid -> tx_only client sid = false.
Proof.
  intros client sid H. unfold tx_only, is_bidir_id, is_local_id.
  destruct H as [H|H].
  - assert (E : N.b2n (N.testbit sid 1) = (sid / 2) mod 2) by apply (N.testbit_spec' sid 1).
    rewrite H in E. cbn [N.b2n] in E. rewrite <- E. reflexivity.
  - assert (E : N.b2n (N.testbit sid 0) = sid mod 2) by (rewrite (N.testbit_spec' sid 0); change (2 ^ 0) with 1; rewrite N.div_1_r; reflexivity).
    rewrite H in E. rewrite <- E. destruct client; cbn; apply andb_false_r.
Qed.

Lemma labels_good : forall D sid ops, no_reset sid ops -> wanted sid ops -> Forall (carries D) (frames_of sid ops) ->
  Forall (good_label D) (flat_map (labels sid) ops).
Proof.
  intros D sid ops Hr [Hs Hd] Hc. rewrite Forall_forall in *. intros l Hl. apply in_flat_map in Hl. destruct Hl as (o & Ho & Hl).
  destruct o as [i off fin d|i final|i|v|i v|uni rank|v|i v| |i|i t|i t|i|i]; cbn [labels] in Hl; try contradiction; destruct (N.eqb_spec i sid) as [->|]; try contradiction; destruct Hl as [<-|[]]; cbn [good_label]; try exact I.
  - apply Hc. unfold frames_of. apply in_flat_map. exists (OpStream sid off fin d). split; [exact Ho|]. rewrite N.eqb_refl. left. reflexivity.
  - exact (Hr _ Ho).
Qed.

Lemma run_exact : forall client p nb nu md mdr br ur ops c sid D,
  srun (scnx0 client p nb nu md mdr br ur) ops = Some (c, true) ->
  peer_sends client sid -> no_reset sid ops -> wanted sid ops -> Forall (carries D) (frames_of sid ops) ->
  (exists n, longest_covered (frames_of sid ops) n /\ n <= blen D /\ total (pieces_of sid (k_out c)) = firstn (N.to_nat n) D /\
    ((exists p, In p (pieces_of sid (k_out c)) /\ snd p = true) <-> (exists f, In f (frames_of sid ops) /\ f_fin f = true) /\ n = blen D)) /\
  fin_last (pieces_of sid (k_out c)).
Proof.
  intros client p nb nu md mdr br ur ops c sid D H Hp Hr Hw Hc.
  pose proof (run_view0 _ _ _ _ _ _ _ _ _ _ H sid true ltac:(auto)) as E2.
  pose proof (vt_exact _ D _ _ _ _ E2 (tx_only_peer _ _ Hp) (labels_good _ _ _ Hr Hw Hc) [] [] (Forall_nil _) (conj eq_refl eq_refl)) as V.
  cbn [app] in V. rewrite lframes_labels in V. eapply vinv_result; eassumption.
Qed.

Lemma carries_labels : forall D sid ops, (forall f, In f (frames_of sid ops) -> slice_of D (f_off f) (f_data f)) ->
  Forall (slice_label D) (flat_map (labels sid) ops).
Proof.
  intros D sid ops Hc. rewrite Forall_forall. intros l Hl. apply in_flat_map in Hl. destruct Hl as (o & Ho & Hl).
  destruct l as [f|final| | |]; try exact I. cbn [slice_label]. apply Hc. rewrite <- lframes_labels. unfold lframes. apply in_flat_map.
  exists (LFrame f). split; [apply in_flat_map; exists o; split; assumption|left; reflexivity].
Qed.

Lemma run_prefix : forall client p nb nu md mdr br ur ops c ok sid D,
  srun (scnx0 client p nb nu md mdr br ur) ops = Some (c, ok) ->
  (forall f, In f (frames_of sid ops) -> exists a b, D = a ++ f_data f ++ b /\ blen a = f_off f) ->
  exists t, D = bytes_of sid (k_out c) ++ t.
Proof.
  intros client p nb nu md mdr br ur ops c ok sid D H Hc.
  destruct (run_split _ _ _ _ (winv0 _ _ _ _ _ _ _ _) H) as (d & r & c1 & -> & R & -> & _).
  pose proof (run_view0 _ _ _ _ _ _ _ _ _ _ R sid true ltac:(auto)) as E2.
  assert (V : pinv D (view_of c1 sid) ([] ++ pieces_of sid (k_out c1))).
  { eapply vt_prefix; [exact E2| |reflexivity]. apply carries_labels. intros f Hf.
    destruct (Hc f) as (a & b & A & B); [unfold frames_of in *; rewrite flat_map_app; apply in_or_app; left; exact Hf|].
    apply carries_slice with (f := mk_sframe (f_off f) (f_data f) false). split; [exists a, b; split; assumption|discriminate]. }
  cbn [app] in V. destruct (view_of c1 sid) as [|rr g|]; cbn [pinv] in V.
  - exists D. unfold bytes_of. rewrite V. reflexivity.
  - destruct V as (all & (A1 & A2 & A3) & B).
    assert (Hall : exists t, D = total all ++ t).
    { exists (skipn (N.to_nat (rx_consumed rr)) D). rewrite A2. symmetry. apply firstn_skipn. }
    destruct Hall as (t & Ht). destruct (fst g); [subst all; exists t; exact Ht|]. destruct B as (t2 & ->).
    exists (total t2 ++ t). rewrite Ht at 1. rewrite total_app, <- app_assoc. reflexivity.
  - exact V.
Qed.

Lemma run_defined : forall client p nb nu md mdr br ur ops, srun (scnx0 client p nb nu md mdr br ur) ops <> None.
Proof. intros. apply srun_defined; [apply winv0|apply live0]. Qed.

Lemma run_live : forall client p nb nu md mdr br ur ops c, srun (scnx0 client p nb nu md mdr br ur) ops = Some (c, true) ->
  winv c /\ forall sid, ainv (view_of c sid) (pieces_of sid (k_out c)).
Proof.
  intros client p nb nu md mdr br ur ops c H.
  destruct (run_views _ _ _ (winv0 _ _ _ _ _ _ _ _) H) as (W & _).
  split; [exact W|]. intros sid. pose proof (run_view0 _ _ _ _ _ _ _ _ _ _ H sid true ltac:(auto)) as E2. eapply vt_any with (out := []); [apply E2|reflexivity].
Qed.

Lemma run_fin_last : forall client p nb nu md mdr br ur ops c ok sid a q b,
  srun (scnx0 client p nb nu md mdr br ur) ops = Some (c, ok) ->
  pieces_of sid (k_out c) = a ++ q :: b -> snd q = true -> b = [].
Proof.
  intros client p nb nu md mdr br ur ops c ok sid a q b H E Hq.
  destruct (run_split _ _ _ _ (winv0 _ _ _ _ _ _ _ _) H) as (d & r & c1 & -> & R & Ho & _). rewrite Ho in E.
  destruct (run_live _ _ _ _ _ _ _ _ _ _ R) as [_ L]. specialize (L sid).
  assert (F : fin_last (pieces_of sid (k_out c1))).
  { destruct (view_of c1 sid) as [|rr g|]; cbn [ainv] in L.
    - rewrite L. intros [|? ?] x y Ex; discriminate.
    - destruct L as (_ & _ & (all & (C1 & C2 & C3) & Eg)). destruct (fst g); [subst; exact C2|]. destruct Eg as (t & ->). eapply fin_last_prefix. exact C2.
    - exact L. }
  exact (F _ _ _ E Hq).
Qed.
