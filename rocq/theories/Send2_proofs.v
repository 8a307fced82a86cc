(** Proofs about the sending side: selection of streams, formatting, filling. *)
From Verif Require Import Base Tac Varint_model Stream_model Send_model Send_spec Send_proofs.

(** What is required of each frame, given what was observed before it. *)
Definition frame_ok (A : N -> N) (cl : bool) (pre : list item) (x : item) : Prop :=
  match x with
  | IStream id off fin d =>
    off = blen (sent_bytes id pre) /\ off + blen d <= A id /\ rst_free id pre /\
    exists rest, wrote_bytes id pre = sent_bytes id pre ++ d ++ rest /\
      (fin = true -> rest = [] /\ (In (IFin id) pre \/ rx_only cl id = true))
  | IReset id _ f => f = blen (sent_bytes id pre) /\ rst_free id pre
  | _ => True
  end.

Definition good (A : N -> N) (cl : bool) (pre its : list item) : Prop :=
  forall l1 x l2, its = l1 ++ x :: l2 -> frame_ok A cl (pre ++ l1) x.

Lemma good_nil A cl pre : good A cl pre [].
Proof. intros l1 x l2 H. destruct l1; discriminate. Qed.

Lemma good_cons A cl pre x its : frame_ok A cl pre x -> good A cl (pre ++ [x]) its -> good A cl pre (x :: its).
Proof.
  intros H1 H2 l1 y l2 H. destruct l1 as [| z l1].
  - inversion H; subst. rewrite app_nil_r. exact H1.
  - inversion H; subst. specialize (H2 l1 y l2 eq_refl). rewrite <- app_assoc in H2. exact H2.
Qed.

Lemma good_app A cl pre a b : good A cl pre a -> good A cl (pre ++ a) b -> good A cl pre (a ++ b).
Proof.
  revert pre. induction a as [| x a IH]; intros pre Ha Hb; [rewrite app_nil_r in Hb; exact Hb |].
  cbn [app]. apply good_cons.
  - specialize (Ha [] x a eq_refl). rewrite app_nil_r in Ha. exact Ha.
  - apply IH.
    + intros l1 y l2 H. specialize (Ha (x :: l1) y l2). rewrite <- app_assoc. apply Ha. cbn. rewrite H. reflexivity.
    + rewrite <- app_assoc. exact Hb.
Qed.

Lemma frame_ok_mono A A' cl pre x : (forall i, A i <= A' i) -> frame_ok A cl pre x -> frame_ok A' cl pre x.
Proof.
  intros HA. destruct x; cbn; try tauto. intros (H1 & H2 & H3). specialize (HA id).
  split; [exact H1 |]. split; [lia | exact H3].
Qed.

Lemma good_mono A A' cl pre its : (forall i, A i <= A' i) -> good A cl pre its -> good A' cl pre its.
Proof. intros HA H l1 x l2 E. eapply frame_ok_mono; [exact HA | exact (H l1 x l2 E)]. Qed.

(** Selection. *)
Definition chosen (c : snd_cnx) (s : wstream) : Prop :=
  w_lookup c (w_id s) = Some s /\ (urgent s = true \/ has_data c s = true).

Lemma lookup_id c id s : w_lookup c id = Some s -> w_id s = id.
Proof. intro H. apply lookup_in in H. tauto. Qed.

Lemma walk_chosen c l : forall found gone s g,
  (forall f, found = Some f -> chosen c f) -> find_walk c l found gone = (Some s, g) -> chosen c s.
Proof.
  induction l as [| id l IH]; intros found gone s g Hf; cbn [find_walk].
  - intro H. apply pair_inj in H. destruct H as [H _]. apply Hf. exact H.
  - destruct (w_lookup c id) as [x |] eqn:E; [| apply IH; exact Hf].
    assert (Ei := lookup_id _ _ _ E).
    destruct (match found with Some f => w_prio f <? w_prio x | None => false end).
    { intro H. apply pair_inj in H. destruct H as [H _]. apply Hf. exact H. }
    destruct (urgent x) eqn:Eu.
    { intro H. apply pair_inj in H. destruct H as [H _]. apply some_inj in H. subst x. split; [congruence | auto]. }
    destruct (has_data c x) eqn:Eh.
    + assert (Cx : chosen c x) by (split; [congruence | auto]).
      destruct ((w_sent x =? 0) && above_limit c (w_id x)); [apply IH; exact Hf |].
      destruct (N.odd (w_prio x)).
      { intro H. apply pair_inj in H. destruct H as [H _]. apply some_inj in H. subst x. exact Cx. }
      destruct found as [f |].
      * destruct (w_last x <? w_last f); apply IH; intros y Hy; apply some_inj in Hy; subst y; auto.
      * apply IH. intros y Hy. apply some_inj in Hy. subst y. exact Cx.
    + destruct (exhausted x); apply IH; exact Hf.
Qed.

(** Removals only change the output list. *)
Definition same_but_out (c c' : snd_cnx) : Prop := exists out, c' = n_set_streams c (n_streams c) out.

Lemma same_refl c : same_but_out c c.
Proof. exists (n_out c). destruct c. reflexivity. Qed.

Lemma remove_same c c' id : same_but_out c c' -> same_but_out c (remove_output c' id).
Proof. intros [out ->]. eexists. reflexivity. Qed.

Lemma find_ready_spec c c' o :
  find_ready c = (c', o) -> same_but_out c c' /\ forall s, o = Some s -> chosen c s.
Proof.
  unfold find_ready. destruct (find_walk c (n_out c) None []) as [f gone] eqn:E. intro H.
  apply pair_inj in H. destruct H as [<- <-]. split.
  - clear E. induction gone as [| g gone IH]; [apply same_refl |]. cbn [fold_right]. apply remove_same, IH.
  - intros s ->. eapply walk_chosen; [| exact E]. congruence.
Qed.

Lemma same_chosen c c' s : same_but_out c c' -> chosen c s -> chosen c' s.
Proof. intros [out ->] H. exact H. Qed.

Lemma same_inv A M cl log c c' : same_but_out c c' -> inv A M cl log c -> inv A M cl log c'.
Proof. intros [out ->]. apply inv_out. Qed.

(** Arithmetic of the flow control test. *)
Lemma sub64_le a b : b <= a -> sub64 a b <= a - b.
Proof.
  intro H. unfold sub64. replace (a + two64 - b) with ((a - b) + 1 * two64) by lia.
  rewrite N.mod_add by (unfold two64; lia). apply N.mod_le. unfold two64. lia.
Qed.

Lemma allowed_le c s space : has_data c s = true ->
  allowed_space c s space <= space /\ allowed_space c s space <= w_max s - w_sent s /\
  allowed_space c s space <= n_max c - n_data_sent c.
Proof.
  intro H. unfold has_data in H. apply andb_true_iff in H. destruct H as [H _].
  apply andb_true_iff in H. destruct H as [H1 H2]. apply N.ltb_lt in H1. apply N.ltb_lt in H2.
  assert (S1 := sub64_le (w_max s) (w_sent s)). assert (S2 := sub64_le (n_max c) (n_data_sent c)).
  unfold allowed_space. cbv zeta.
  destruct (N.ltb_spec (sub64 (w_max s) (w_sent s)) space).
  - destruct (N.ltb_spec (sub64 (n_max c) (n_data_sent c)) (sub64 (w_max s) (w_sent s))); lia.
  - destruct (N.ltb_spec (sub64 (n_max c) (n_data_sent c)) space); lia.
Qed.

Lemma has_data_limits c s : has_data c s = true -> w_sent s < w_max s /\ n_data_sent c < n_max c.
Proof.
  intro H. unfold has_data in H. apply andb_true_iff in H. destruct H as [H _].
  apply andb_true_iff in H. destruct H as [H1 H2]. apply N.ltb_lt in H1. apply N.ltb_lt in H2. auto.
Qed.

(** Data of a STREAM frame: the new state and the log. *)
Lemma only_stream id off fin d : only id [IStream id off fin d].
Proof.
  intros i Hi. cbn. destruct (N.eqb_spec id i); [congruence |]. split; [reflexivity |]. split; [reflexivity |].
  intros e f [H | []]. discriminate.
Qed.

Lemma rst_free_one id x : (forall i e f, x <> IReset i e f) -> rst_free id [x].
Proof. intros H e f [X | []]. exact (H _ _ _ X). Qed.

Lemma active_ok A M cl log c s hdr room now r c' b its asked :
  inv A M cl log c -> w_lookup c (w_id s) = Some s -> has_data c s = true ->
  w_queue s = [] -> w_rst_sent s = false ->
  format_active c s hdr room now r = FOk c' b its asked ->
  inv A M cl (log ++ its) c' /\ good A cl log its.
Proof.
  intros I Hl Hd Hq Hr. unfold format_active. cbv zeta.
  destruct (lookup_wf _ _ _ _ _ _ _ I Hl) as [Hw _]. assert (Hin := in_ids _ _ _ Hl).
  assert (Quiet : forall a, inv A M cl (log ++ []) (w_put c (w_set_fin s a (w_fin_req s) (w_fin_sent s)))
     /\ good A cl log []).
  { intro a. rewrite app_nil_r. split; [same_put I | apply good_nil]. }
  destruct r as [| | d fin still].
  - discriminate.
  - intro H. inversion H; subst. apply Quiet.
  - set (al := allowed_space c s (room - blen hdr)).
    destruct (N.ltb_spec al (blen d)) as [Ha | Ha].
    { intro H. inversion H; subst. apply Quiet. }
    destruct ((blen d =? 0) && negb fin) eqn:E0.
    { intro H. inversion H; subst. apply Quiet. }
    destruct (room <? _); [discriminate |].
    destruct (allowed_le c s (room - blen hdr) Hd) as (L1 & L2 & L3). fold al in L1, L2, L3.
    destruct (has_data_limits _ _ Hd) as [B1 B2].
    destruct Hw as (W1 & W2 & W3 & W4 & rest & W5 & W6 & W7 & W8 & W9).
    rewrite (W6 Hr), Hq in W5. cbn [pending map concat] in W5. rewrite !app_nil_r in W5.
    set (id := w_id s) in *.
    set (it := IWrote id d :: (if fin then [IFin id] else []) ++ [IStream id (w_sent s) fin d]).
    assert (T1 : forall i, sent_bytes i it = if id =? i then d else []).
    { intro i. unfold it. destruct fin; cbn; destruct (id =? i); rewrite ?app_nil_r; reflexivity. }
    assert (T2 : forall i, wrote_bytes i it = if id =? i then d else []).
    { intro i. unfold it. destruct fin; cbn; destruct (id =? i); rewrite ?app_nil_r; reflexivity. }
    assert (T3 : forall i, rst_free i it).
    { intros i e f. unfold it. destruct fin; cbn; intuition congruence. }
    assert (T4 : total_sent it = blen d) by (unfold it; destruct fin; cbn; lia).
    assert (O : only id it).
    { intros i Hi. rewrite T1, T2. destruct (N.eqb_spec id i); [congruence |]. auto. }
    assert (G : good A cl log it).
    { unfold it. apply good_cons; [exact Logic.I |].
      assert (F : forall pre, wrote_bytes id pre = sent_bytes id pre ++ d -> w_sent s = blen (sent_bytes id pre) ->
         rst_free id pre -> (fin = true -> In (IFin id) pre) -> good A cl pre [IStream id (w_sent s) fin d]).
      { intros pre P1 P2 P3 P4. apply good_cons; [| apply good_nil]. cbn [frame_ok].
        split; [exact P2 |]. split; [lia |]. split; [exact P3 |]. exists []. rewrite !app_nil_r.
        split; [exact P1 |]. auto. }
      assert (R : rst_free id (log ++ [IWrote id d])).
      { apply rst_free_app; [auto |]. apply rst_free_one. discriminate. }
      destruct fin; cbn [app].
      - apply good_cons; [exact Logic.I |]. apply F.
        + rewrite !wrote_app, !sent_app. cbn. rewrite N.eqb_refl, !app_nil_r, W5. reflexivity.
        + rewrite !sent_app. cbn. rewrite !app_nil_r. exact W3.
        + apply rst_free_app; [exact R |]. apply rst_free_one. discriminate.
        + intros _. apply in_app_iff. right. left. reflexivity.
      - apply F.
        + rewrite !wrote_app, !sent_app. cbn. rewrite N.eqb_refl, !app_nil_r, W5. reflexivity.
        + rewrite !sent_app. cbn. rewrite !app_nil_r. exact W3.
        + exact R.
        + discriminate. }
    assert (S : forall a fr fs, (fr = true -> fin = true \/ w_fin_req s = true) ->
       swf A cl (log ++ it) (w_set_fin (w_set_data s (w_sent s + blen d) (w_queue s) now) a fr fs)).
    { intros a fr fs Hfr. unfold swf. cbn [w_max w_id w_sent w_queue w_rst_sent w_fin_req w_set_fin w_set_data].
      fold id. rewrite sent_app, wrote_app, T1, T2, N.eqb_refl, Hq.
      split; [exact W1 |]. split; [lia |]. split; [rewrite blen_app; lia |]. split; [constructor |].
      exists []. cbn [pending map concat]. rewrite !app_nil_r, W5.
      split; [reflexivity |]. split; [auto |]. split; [auto |].
      split; [intros _; apply rst_free_app; auto |].
      intro X. destruct (Hfr X) as [Y | Y].
      - left. apply in_app_iff. right. unfold it. rewrite Y. cbn. auto.
      - destruct (W9 Y); [left; apply in_app_iff; auto | auto]. }
    assert (Hs := i_max _ _ _ _ _ I).
    destruct fin; intro H; injection H as <- <- <- <-; (split; [| exact G]).
    + apply inv_remove. eapply inv_replace with (its := it)
        (s := w_set_fin (w_set_data s (w_sent s + blen d) (w_queue s) now) false true true) (1 := I); [exact Hin | try reflexivity .. | exact O |].
      * change (n_data_sent c + blen d = n_data_sent c + total_sent it). rewrite T4. reflexivity.
      * cbn [n_add_sent n_data_sent w_put n_set_streams]. lia.
      * apply S. auto.
    + eapply inv_replace with (its := it)
        (s := w_set_fin (w_set_data s (w_sent s + blen d) (w_queue s) now) still (w_fin_req s) (w_fin_sent s)) (1 := I); [exact Hin | try reflexivity .. | exact O |].
      * change (n_data_sent c + blen d = n_data_sent c + total_sent it). rewrite T4. reflexivity.
      * cbn [n_add_sent n_data_sent w_put n_set_streams]. lia.
      * apply S. auto.
Qed.

Lemma firstn_blen (l : list N) n : n <= blen l -> blen (firstn (N.to_nat n) l) = n.
Proof. unfold blen. intro H. rewrite firstn_length. lia. Qed.

Lemma skipn_blen (l : list N) n : blen (skipn (N.to_nat n) l) = blen l - n.
Proof. unfold blen. rewrite skipn_length. lia. Qed.

Lemma skipn_add (l : list N) : forall a b, skipn b (skipn a l) = skipn (a + b) l.
Proof.
  intros a. revert l. induction a as [| a IH]; intros l b; [reflexivity |].
  destruct l; [rewrite !skipn_nil; reflexivity |]. cbn. apply IH.
Qed.

(** The queue after [len] bytes of its first node have been sent. *)
Definition take_queue (q : list (list N * N)) (len : N) : list N * list (list N * N) :=
  match q with
  | (b, o) :: r =>
    (firstn (N.to_nat len) (skipn (N.to_nat o) b),
     if 0 <? len then if blen b <=? o + len then r else (b, o + len) :: r else q)
  | [] => ([], [])
  end.

Lemma take_queue_spec q len d q' :
  Forall node_ok q -> len <= match q with (b, o) :: _ => blen b - o | [] => 0 end ->
  take_queue q len = (d, q') ->
  blen d = len /\ pending q = d ++ pending q' /\ Forall node_ok q'.
Proof.
  intros Hq Hlen. destruct q as [| [b o] r]; cbn [take_queue].
  - intro H. apply pair_inj in H. destruct H as [<- <-]. unfold blen. cbn. split; [lia | auto].
  - intro H. apply pair_inj in H. destruct H as [<- <-]. inversion Hq as [| x l Hb Hr]; subst.
    unfold node_ok in Hb. cbn [fst snd] in Hb.
    assert (Hl : len <= blen (skipn (N.to_nat o) b)) by (rewrite skipn_blen; exact Hlen).
    split; [apply firstn_blen; exact Hl |].
    unfold pending. cbn [map concat fst snd].
    destruct (N.ltb_spec 0 len) as [H0 | H0].
    + destruct (N.leb_spec (blen b) (o + len)) as [H1 | H1].
      * split; [| exact Hr]. f_equal. rewrite firstn_all2; [reflexivity |].
        generalize (skipn_blen b o). unfold blen in *. lia.
      * cbn [map concat fst snd]. split.
        { rewrite app_assoc. f_equal. rewrite N2Nat.inj_add, <- skipn_add. symmetry. apply firstn_skipn. }
        { constructor; [exact H1 | exact Hr]. }
    + assert (len = 0) by lia. subst len. cbn [map concat fst snd]. split; [reflexivity |].
      constructor; assumption.
Qed.

Lemma queued_ok A M cl log c s hdr room now c' b its asked :
  inv A M cl log c -> w_lookup c (w_id s) = Some s -> has_data c s = true -> w_rst_sent s = false ->
  format_queued c s hdr room now = FOk c' b its asked ->
  inv A M cl (log ++ its) c' /\ good A cl log its.
Proof.
  intros I Hl Hd Hr. unfold format_queued. cbv zeta.
  destruct (lookup_wf _ _ _ _ _ _ _ I Hl) as [Hw _]. assert (Hin := in_ids _ _ _ Hl).
  destruct (allowed_le c s (room - blen hdr) Hd) as (L1 & L2 & L3).
  destruct (has_data_limits _ _ Hd) as [B1 B2].
  set (al := allowed_space c s (room - blen hdr)) in *.
  set (avail := match w_queue s with [] => 0 | (d, o) :: _ => blen d - o end).
  set (len := if al <=? avail then al else avail).
  assert (Len : len <= avail /\ len <= al) by (unfold len; destruct (N.leb_spec al avail); lia).
  destruct (take_queue (w_queue s) len) as [d q] eqn:Et.
  destruct Hw as (W1 & W2 & W3 & W4 & rest & W5 & W6 & W7 & W8 & W9).
  destruct (take_queue_spec _ _ _ _ W4 (proj1 Len) Et) as (Q1 & Q2 & Q3).
  assert (Ed : match w_queue s with [] => [] | (b, o) :: _ => firstn (N.to_nat len) (skipn (N.to_nat o) b) end = d).
  { destruct (w_queue s) as [| [bb o] rr]; cbn [take_queue] in Et; apply pair_inj in Et; tauto. }
  assert (Eq : (if 0 <? len then match w_queue s with
      | [] => [] | (b0, o) :: r => if blen b0 <=? o + len then r else (b0, o + len) :: r end else w_queue s) = q).
  { destruct (w_queue s) as [| [bb o] rr]; cbn [take_queue] in Et; apply pair_inj in Et; destruct Et as [_ Et].
    - subst q. destruct (0 <? len); reflexivity.
    - exact Et. }
  change (match w_queue s with [] => [] | p :: _ => let (b0, o) := p in firstn (N.to_nat len) (skipn (N.to_nat o) b0) end)
    with (match w_queue s with [] => [] | (b, o) :: _ => firstn (N.to_nat len) (skipn (N.to_nat o) b) end).
  rewrite Ed, Eq. clear Ed Eq Et.
  rewrite (W6 Hr), app_nil_r in W5.
  set (id := w_id s) in *.
  set (fin := match q with [] => w_fin_req s | _ :: _ => false end).
  destruct (room <? _); [discriminate |].
  set (s1 := if 0 <? len then w_set_data s (w_sent s + len) q now else s).
  assert (S0 : w_sent s1 = w_sent s + len /\ w_queue s1 = (if 0 <? len then q else w_queue s) /\ w_id s1 = id /\
     w_max s1 = w_max s /\ w_rst_sent s1 = w_rst_sent s /\ w_fin_req s1 = w_fin_req s).
  { unfold s1. destruct (N.ltb_spec 0 len); cbn; repeat split; lia. }
  destruct S0 as (S1 & S2 & S3 & S4 & S5 & S6).
  set (it := [IStream id (w_sent s) fin d]).
  set (s2 := w_set_fin s1 (w_active s1) (w_fin_req s1) (w_fin_sent s1 || fin)).
  assert (Ps : pending (w_queue s1) = pending q /\ Forall node_ok (w_queue s1)).
  { rewrite S2. destruct (N.ltb_spec 0 len) as [H | H]; [auto |]. rewrite Q2.
    assert (d = []) by (destruct d; [reflexivity | unfold blen in Q1; cbn in Q1; lia]). subst d. auto. }
  destruct Ps as [Ps1 Ps2].
  assert (T : sent_bytes id it = d) by (unfold it; cbn; rewrite N.eqb_refl, app_nil_r; reflexivity).
  assert (Sw : swf A cl (log ++ it) s2).
  { unfold swf. cbn [w_max w_id w_sent w_queue w_rst_sent w_fin_req w_set_fin s2].
    rewrite S1, S3, S4, S5, S6. fold id in W1, W2, W3, W5, W8, W9 |- *.
    rewrite sent_app, wrote_app, T. cbn [it wrote_bytes]. rewrite app_nil_r.
    split; [exact W1 |]. split; [lia |]. split; [rewrite blen_app; lia |]. split; [exact Ps2 |].
    exists []. rewrite Ps1, W5, Q2, !app_nil_r, app_assoc. split; [reflexivity |]. split; [auto |].
    split; [congruence |]. split.
    - intros _. apply rst_free_app; [auto |]. apply rst_free_one. discriminate.
    - intro X. destruct (W9 X); [left; apply in_app_iff; auto | auto]. }
  assert (G : good A cl log it).
  { apply good_cons; [| apply good_nil]. cbn [frame_ok].
    split; [exact W3 |]. split; [lia |]. split; [auto |]. exists (pending q). rewrite W5, Q2.
    split; [reflexivity |]. unfold fin. intro X. destruct q; [| discriminate]. split; [reflexivity |]. auto. }
  assert (Hs := i_max _ _ _ _ _ I).
  set (c1 := n_add_sent (w_put c s2) len).
  assert (I1 : inv A M cl (log ++ it) c1).
  { eapply inv_replace; try exact I; try exact Sw; try reflexivity.
    - change (w_id s2) with (w_id s1). rewrite S3. exact Hin.
    - unfold c1. cbn. lia.
    - unfold c1. cbn [n_add_sent n_data_sent w_put n_set_streams]. lia.
    - change (w_id s2) with (w_id s1). rewrite S3. apply only_stream. }
  assert (I0 : len = 0 -> d = [] /\ inv A M cl (log ++ []) c1).
  { intro E. assert (d = []) by (destruct d; [reflexivity | unfold blen in Q1; cbn in Q1; lia]).
    split; [assumption |]. eapply inv_replace with (s := s2); try exact I; try reflexivity.
    - change (w_id s2) with (w_id s1). rewrite S3. exact Hin.
    - unfold c1. cbn. lia.
    - unfold c1. cbn [n_add_sent n_data_sent w_put n_set_streams]. lia.
    - apply only_nil.
    - rewrite app_nil_r. unfold swf. cbn [w_max w_id w_sent w_queue w_rst_sent w_fin_req w_set_fin s2].
      rewrite S1, S3, S4, S5, S6, E, N.add_0_r. fold id.
      split; [exact W1 |]. split; [lia |]. split; [lia |]. split; [exact Ps2 |].
      exists []. rewrite Ps1, W5, Q2, H, !app_nil_r. split; [reflexivity |]. split; [auto |].
      split; [congruence |]. split; [auto | exact W9]. }
  destruct q as [| n q'].
  - intro H. injection H as <- <- <- <-. split; [exact I1 | exact G].
  - destruct (N.eqb_spec len 0) as [E | E]; intro H; injection H as <- <- <- <-.
    + destruct (I0 E) as [_ I2]. split; [exact I2 | apply good_nil].
    + split; [exact I1 | exact G].
Qed.

Lemma format_ok A M cl log c s room now r c' b its asked :
  inv A M cl log c -> chosen c s -> format_stream c s room now r = FOk c' b its asked ->
  inv A M cl (log ++ its) c' /\ good A cl log its.
Proof.
  intros I [Hl Hc]. unfold format_stream.
  destruct (above_limit c (w_id s)); [discriminate |].
  assert (N0 : forall c', inv A M cl log c' -> inv A M cl (log ++ []) c' /\ good A cl log [])
    by (intros c0 I0; rewrite app_nil_r; split; [exact I0 | apply good_nil]).
  destruct (w_rst_sent s) eqn:Er; [intro H; injection H as <- <- <- <-; auto |].
  destruct (w_rst_req s) eqn:Eq.
  { destruct (reset_writer _ _ _ _) as [bb |]; [| intro H; injection H as <- <- <- <-; auto].
    cbv zeta. intro H. injection H as <- <- <- <-.
    destruct (lookup_wf _ _ _ _ _ _ _ I Hl) as [Hw _]. assert (Hin := in_ids _ _ _ Hl).
    destruct Hw as (W1 & W2 & W3 & W4 & rest & W5 & W6 & W7 & W8 & W9).
    rewrite (W6 eq_refl), app_nil_r in W5 || rewrite (W6 Er), app_nil_r in W5.
    split.
    - apply inv_put; [exact I | exact Hin | reflexivity | |].
      + intros i Hi. split; [reflexivity |]. split; [reflexivity |]. intros e f [X | []].
        inversion X. subst. cbn in Hi. congruence.
      + unfold swf. cbn [w_max w_id w_sent w_queue w_rst_sent w_fin_req w_set_fin w_set_data w_set_rst].
        rewrite sent_app, wrote_app. cbn [sent_bytes wrote_bytes]. rewrite !app_nil_r.
        split; [exact W1 |]. split; [exact W2 |]. split; [exact W3 |]. split; [constructor |].
        exists (pending (w_queue s)). split; [exact W5 |]. split; [discriminate |]. split; [auto |].
        split; [discriminate |]. intro X. destruct (W9 X); [left; apply in_app_iff; auto | auto].
    - apply good_cons; [| apply good_nil]. cbn [frame_ok]. split; [exact W3 | auto]. }
  destruct (w_stop_req s && negb (w_stop_sent s)) eqn:Es.
  { destruct (w_rcv_end s).
    { intro H. injection H as <- <- <- <-. apply N0. same_put I. }
    destruct (stop_writer _ _ _); intro H; injection H as <- <- <- <-; [| auto]. split.
    - apply inv_put; [exact I | exact (in_ids _ _ _ Hl) | reflexivity | |].
      + intros i Hi. split; [reflexivity |]. split; [reflexivity |]. apply rst_free_one. discriminate.
      + apply (swf_same _ _ _ s); try reflexivity.
        * exact (proj1 (proj1 (lookup_wf _ _ _ _ _ _ _ I Hl))).
        * apply swf_more; try reflexivity; [apply rst_free_one; discriminate |].
          exact (proj1 (lookup_wf _ _ _ _ _ _ _ I Hl)).
    - apply good_cons; [exact Logic.I | apply good_nil]. }
  assert (Hd : has_data c s = true).
  { destruct Hc as [Hc | Hc]; [| exact Hc]. unfold urgent in Hc. rewrite Eq, Es in Hc. discriminate. }
  destruct (negb (w_active s) && negb (queue_ready s) && (negb (w_fin_req s) || w_fin_sent s)).
  { intro H. injection H as <- <- <- <-. auto. }
  destruct (stream_frame_header _ _ _) as [hdr |]; [| intro H; injection H as <- <- <- <-; auto].
  destruct (w_active s && match w_queue s with [] => true | _ :: _ => false end && negb (w_fin_req s)) eqn:Ea.
  - apply active_ok; try assumption. destruct (w_queue s); [reflexivity |]. rewrite andb_false_r in Ea. discriminate.
  - apply queued_ok; assumption.
Qed.

Lemma format_err A M cl log c s room now r c' asked :
  inv A M cl log c -> format_stream c s room now r = FErr c' asked -> c' = c.
Proof.
  intro I. unfold format_stream. destruct (above_limit c (w_id s)); [discriminate |].
  destruct (w_rst_sent s); [discriminate |].
  destruct (w_rst_req s); [destruct (reset_writer _ _ _ _); discriminate |].
  destruct (w_stop_req s && negb (w_stop_sent s)).
  { destruct (w_rcv_end s); [discriminate |]. destruct (stop_writer _ _ _); discriminate. }
  destruct (negb (w_active s) && negb (queue_ready s) && (negb (w_fin_req s) || w_fin_sent s)); [discriminate |].
  destruct (stream_frame_header _ _ _) as [hdr |]; [| discriminate].
  destruct (_ && _ && _).
  - unfold format_active. cbv zeta. destruct r as [| | d fin still]; try discriminate.
    + intro H. injection H as <- _. reflexivity.
    + destruct (_ <? _); [discriminate |]. destruct (_ && _); [discriminate |]. destruct (_ <? _); [discriminate |].
      destruct fin; discriminate.
  - unfold format_queued. cbv zeta. destruct (_ <? _); [discriminate |].
    intro H; repeat match type of H with
    | (match ?x with _ => _ end) = _ => destruct x; try discriminate
    end.
Qed.

Lemma fill_loop_ok A M cl log now prio app fuel : forall c st pos bytes its asks c' bytes' its' ok,
  inv A M cl (log ++ its) c -> good A cl log its -> (forall s, st = Some s -> chosen c s) ->
  fill_loop fuel c st pos bytes its asks now prio app = LDone c' bytes' its' ok ->
  inv A M cl (log ++ its') c' /\ good A cl log its'.
Proof.
  induction fuel as [| fuel IH]; intros c st pos bytes its asks c' bytes' its' ok I G Hc; [discriminate |].
  cbn [fill_loop]. cbv zeta.
  assert (Fin : match pos with Some _ => LDone c bytes its true | None => LNull c its end
     = LDone c' bytes' its' ok -> inv A M cl (log ++ its') c' /\ good A cl log its').
  { destruct pos; [| discriminate]. intro H. injection H as <- _ <- _. auto. }
  destruct st as [s |]; [| exact Fin].
  destruct (_ && _); [| exact Fin].
  assert (Hs := Hc s eq_refl).
  assert (Again : forall pos', (let '(c', st') := find_ready c in fill_loop fuel c' st' pos' bytes its asks now prio app)
     = LDone c' bytes' its' ok -> inv A M cl (log ++ its') c' /\ good A cl log its').
  { intro pos'. destruct (find_ready c) as [c1 st1] eqn:Ef. destruct (find_ready_spec _ _ _ Ef) as [F1 F2].
    apply IH; [eapply same_inv; eassumption | exact G |].
    intros x Hx. eapply same_chosen; [exact F1 | auto]. }
  destruct pos as [room |].
  - destruct (format_stream c s room now (app asks)) as [| c1 b its1 asked | c1 asked |] eqn:Ef.
    + apply Again.
    + destruct (format_ok _ _ _ _ _ _ _ _ _ _ _ _ _ I Hs Ef) as [I1 G1].
      assert (I2 : inv A M cl (log ++ its ++ its1) c1) by (rewrite app_assoc; exact I1).
      assert (G2 : good A cl log (its ++ its1)) by (apply good_app; assumption).
      destruct (find_ready c1) as [c2 st2] eqn:Er. destruct (find_ready_spec _ _ _ Er) as [F1 F2].
      assert (I3 := same_inv _ _ _ _ _ _ F1 I2).
      assert (C3 : forall x, st2 = Some x -> chosen c2 x) by (intros x Hx; eapply same_chosen; [exact F1 | auto]).
      destruct st2 as [s2 |].
      * destruct (_ <=? 17).
        { intro H. injection H as <- _ <- _. auto. }
        apply IH; assumption.
      * apply IH; assumption.
    + intro H. injection H as <- _ <- _. rewrite (format_err _ _ _ _ _ _ _ _ _ _ _ I Ef). auto.
    + discriminate.
  - destruct (above_limit c (w_id s)); [apply Again | discriminate].
Qed.

Lemma fill_ok A M cl log c fuel room now prio app c' bytes its ok :
  inv A M cl log c -> fill fuel c room now prio app = LDone c' bytes its ok ->
  inv A M cl (log ++ its) c' /\ good A cl log its.
Proof.
  intros I. unfold fill. destruct (find_ready c) as [c1 st] eqn:Ef. destruct (find_ready_spec _ _ _ Ef) as [F1 F2].
  apply fill_loop_ok.
  - rewrite app_nil_r. eapply same_inv; eassumption.
  - apply good_nil.
  - intros x Hx. eapply same_chosen; [exact F1 | auto].
Qed.

(** One event. *)
Lemma step_ok A M cl log c e c' its :
  inv A M cl log c -> snd_step c e = Some (c', its) ->
  inv (fun id => N.max (A id) (stream_limit cl id e)) (N.max M (conn_limit e)) cl (log ++ its) c' /\
  good (fun id => N.max (A id) (stream_limit cl id e)) cl log its.
Proof.
  intros I0. set (A' := fun id => N.max (A id) (stream_limit cl id e)). set (M' := N.max M (conn_limit e)).
  assert (I : inv A' M' cl log c).
  { eapply inv_mono; [| | exact I0]; unfold A', M'; intros; lia. }
  assert (HA : forall id, stream_limit cl id e <= A' id) by (intro; unfold A'; lia).
  assert (HM : conn_limit e <= M') by (unfold M'; lia).
  clearbody A' M'. clear I0.
  assert (N0 : forall c', inv A' M' cl log c' -> inv A' M' cl (log ++ []) c' /\ good A' cl log [])
    by (intros c0 I0; rewrite app_nil_r; split; [exact I0 | apply good_nil]).
  destruct e; cbn [snd_step stream_limit conn_limit] in *; intro H.
  - inv_pair H. apply N0, inv_start; assumption.
  - inv_pair H. apply N0, inv_transport; [| exact I]. intros p Hp.
    assert (X := fold_max_le tp_conn l p Hp). split; [lia |]. intro id.
    assert (Y := fold_max_le (tp_stream cl id) l p Hp). specialize (HA id). lia.
  - inv_pair H. apply N0, inv_max_data; assumption.
  - inv_pair H. apply N0, inv_max_stream_data; [| exact I]. specialize (HA id). rewrite N.eqb_refl in HA. exact HA.
  - inv_pair H. apply N0, inv_max_streams, I.
  - inv_pair H. apply N0, inv_peer, I.
  - inv_pair H. apply N0. destruct (w_lookup c id) as [s |] eqn:Hl; [| exact I]. same_put I.
  - inv_pair H. apply N0. destruct (w_lookup c id) as [s |] eqn:Hl; [| exact I]. same_put I.
  - apply some_inj in H. split; [eapply inv_add; eassumption |].
    unfold add_to_stream in H. destruct (for_writing c id) as [c1 [s |]].
    + destruct (_ && _ && _); [apply pair_inj in H; destruct H as [_ <-]; apply good_nil |].
      cbv zeta in H. intros l1 x l2 E.
      assert (X : x = IFin id \/ x = IWrote id data).
      { assert (Hx : In x its) by (rewrite E; apply in_app_iff; right; left; reflexivity).
        destruct (w_rst_sent s || w_stop_rcvd s); apply pair_inj in H; destruct H as [_ <-];
          destruct (fin && negb (w_fin_req s)); cbn in Hx; intuition auto. }
      destruct X as [-> | ->]; exact Logic.I.
    + apply pair_inj in H. destruct H as [_ <-]. apply good_nil.
  - inv_pair H. apply N0, inv_active, I.
  - inv_pair H. apply N0, inv_prio, I.
  - inv_pair H. apply N0, inv_app_reset, I.
  - inv_pair H. apply N0, inv_app_stop, I.
  - inv_pair H. apply N0. destruct (w_lookup c id); [| exact I]. destruct (_ || _); [| exact I].
    apply inv_delete, I.
  - destruct (fill fuel c room now prio app) as [c1 b1 i1 ok1 | | |] eqn:Ef; try discriminate.
    inv_pair H. eapply fill_ok; eassumption.
Qed.

Lemma run_ok cl evs : forall A M log c c' its,
  inv A M cl log c -> snd_run c evs = Some (c', its) ->
  let A' := fun id => N.max (A id) (stream_announced cl id evs) in
  inv A' (N.max M (conn_announced evs)) cl (log ++ its) c' /\ good A' cl log its.
Proof.
  induction evs as [| e evs IH]; intros A M log c c' its I H; cbv zeta.
  - cbn [snd_run] in H. inv_pair H. rewrite app_nil_r. split; [| apply good_nil].
    eapply inv_mono; [| | exact I]; intros; cbn; lia.
  - cbn [snd_run] in H. destruct (snd_step c e) as [[c1 i1] |] eqn:Es; [| discriminate].
    destruct (snd_run c1 evs) as [[c2 i2] |] eqn:Er; [| discriminate]. inv_pair H.
    destruct (step_ok _ _ _ _ _ _ _ _ I Es) as [I1 G1].
    destruct (IH _ _ _ _ _ _ I1 Er) as [I2 G2]. cbv zeta in I2, G2. cbn [stream_announced conn_announced fold_right].
    rewrite <- app_assoc in I2. split.
    + eapply inv_mono; [| | exact I2]; intros; cbn; unfold stream_announced, conn_announced; lia.
    + apply good_app.
      * eapply good_mono; [| exact G1]. intro; cbn; lia.
      * eapply good_mono; [| exact G2]. intro; cbn; unfold stream_announced; lia.
Qed.

Lemma inv_init cl p : inv (fun _ => 0) 0 cl [] (snd0 cl p).
Proof.
  constructor; cbn [snd0 n_client n_streams n_next n_cr n_data_sent n_max total_sent map]; try reflexivity.
  - constructor.
  - constructor.
  - intros t Ht. apply N.mod_small. exact Ht.
  - intros id _. split; [intros [] |]. split; [reflexivity |]. split; [reflexivity |]. intros e f [].
  - intro id. unfold initial_max. cbn. destruct (is_local_id id cl), (is_bidir_id id); lia.
Qed.

Lemma history_ok cl p evs c log :
  snd_run (snd0 cl p) evs = Some (c, log) ->
  inv (fun id => stream_announced cl id evs) (conn_announced evs) cl log c /\
  good (fun id => stream_announced cl id evs) cl [] log.
Proof.
  intro H. destruct (run_ok cl evs _ _ _ _ _ _ (inv_init cl p) H) as [I G]. cbv zeta in I, G. cbn [app] in I.
  split.
  - eapply inv_mono; [| | exact I]; intros; cbn; lia.
  - eapply good_mono; [| exact G]. intro; cbn; lia.
Qed.

(** The consequences, in the vocabulary of the specification. *)
Lemma stream_limit_respected cl p evs c log l1 id off fin d l2 :
  snd_run (snd0 cl p) evs = Some (c, log) -> log = l1 ++ IStream id off fin d :: l2 ->
  off + blen d <= stream_announced cl id evs /\ off = blen (sent_bytes id l1).
Proof.
  intros H E. destruct (history_ok _ _ _ _ _ H) as [_ G]. specialize (G l1 _ l2 E). cbn in G. tauto.
Qed.

Lemma conn_limit_respected cl p evs c log :
  snd_run (snd0 cl p) evs = Some (c, log) -> total_sent log <= conn_announced evs.
Proof.
  intro H. destruct (history_ok _ _ _ _ _ H) as [I _]. rewrite <- (i_sum _ _ _ _ _ I). exact (i_sent _ _ _ _ _ I).
Qed.

Lemma sent_is_written cl p evs c log l1 id off fin d l2 :
  snd_run (snd0 cl p) evs = Some (c, log) -> log = l1 ++ IStream id off fin d :: l2 ->
  exists rest, wrote_bytes id l1 = sent_bytes id l1 ++ d ++ rest /\
    (fin = true -> rest = [] /\ (In (IFin id) l1 \/ (bidi id = false /\ mine cl id = false))).
Proof.
  intros H E. destruct (history_ok _ _ _ _ _ H) as [_ G]. specialize (G l1 _ l2 E). cbn in G.
  destruct G as (_ & _ & _ & rest & G1 & G2). exists rest. split; [exact G1 |]. intro X.
  destruct (G2 X) as [Y [Z | Z]]; [auto |]. split; [exact Y |]. right. unfold rx_only in Z.
  apply andb_true_iff in Z. rewrite !negb_true_iff in Z. exact Z.
Qed.

Lemma reset_is_final cl p evs c log l1 id e f l2 :
  snd_run (snd0 cl p) evs = Some (c, log) -> log = l1 ++ IReset id e f :: l2 ->
  f = blen (sent_bytes id l1) /\ (forall off fin d, ~ In (IStream id off fin d) l2) /\
  (forall e' f', ~ In (IReset id e' f') l2).
Proof.
  intros H E. destruct (history_ok _ _ _ _ _ H) as [_ G].
  assert (G0 := G l1 _ l2 E). cbn in G0. split; [tauto |].
  split.
  - intros off fin d X. apply in_split in X. destruct X as (a & b & X).
    specialize (G (l1 ++ IReset id e f :: a) (IStream id off fin d) b).
    rewrite E, X, <- app_assoc in G. specialize (G eq_refl). cbn in G.
    destruct G as (_ & _ & R & _). apply (R e f). apply in_app_iff. right. left. reflexivity.
  - intros e' f' X. apply in_split in X. destruct X as (a & b & X).
    specialize (G (l1 ++ IReset id e f :: a) (IReset id e' f') b).
    rewrite E, X, <- app_assoc in G. specialize (G eq_refl). cbn in G.
    destruct G as (_ & R). apply (R e f). apply in_app_iff. right. left. reflexivity.
Qed.
