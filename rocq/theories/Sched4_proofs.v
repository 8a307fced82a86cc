(** Stream scheduling: the time of the last service, and the turns taken by
    streams of the same even level. *)
From Coq Require Import Sorting.Sorted.
From Verif Require Import Base Tac Varint_model Stream_model Send_model Send_spec Sched_spec
  Send_proofs Send2_proofs Send3_proofs Send4_proofs Send5_proofs Send7_proofs Sched_proofs Sched2_proofs Sched3_proofs.

(** [T] gives the times of the last services. *)
Definition timed (T : N -> N) (c : snd_cnx) : Prop :=
  (forall i t, w_lookup c i = Some t -> w_fin_sent t = false -> w_last t = T i) /\
  (forall i, n_next c (i mod 4) <= i -> T i = 0).

Lemma timed_put T c s s' : w_lookup c (w_id s) = Some s -> w_id s' = w_id s ->
  w_last s' = w_last s -> w_fin_sent s' = w_fin_sent s -> timed T c -> timed T (w_put c s').
Proof.
  intros L E1 E2 E3 [T1 T2]. split; [| exact T2]. intros i t. rewrite lookup_put, E1.
  destruct (N.eqb_spec (w_id s) i) as [<- | Q]; [| apply T1]. rewrite L. intros H F. apply some_inj in H. subst t.
  rewrite E2. apply T1; [exact L | congruence].
Qed.
Lemma timed_same T c c' : n_streams c' = n_streams c -> (forall t, n_next c' t = n_next c t) -> timed T c -> timed T c'.
Proof.
  intros E1 E2 [T1 T2]. split.
  - intros i t. unfold w_lookup. rewrite E1. apply T1.
  - intro i. rewrite E2. apply T2.
Qed.

Lemma timed_prim T f c c' : prim true f c c' -> base c -> timed T c -> timed T c'.
Proof.
  intros P B S. destruct P as [c s s' L E1 E2 E3 _ _ | c s p L | c s err L | c s L | c s L X | c t Ht | c s _ L X |
    c c' M1 M2 M3 M4 M5 M6 | c | c m b u _].
  - destruct (E3 eq_refl). eapply timed_put; eassumption.
  - destruct (reorder_same (w_put c (w_set_prio s p)) (w_set_prio s p)) as (R1 & R2 & _).
    eapply timed_same; [exact R1 | rewrite R2; reflexivity |]. eapply timed_put; [exact L | reflexivity .. | exact S].
  - destruct (insert_same (w_put c (w_set_stop s true (w_stop_sent s) err)) (w_set_stop s true (w_stop_sent s) err)) as (R1 & R2 & _).
    eapply timed_same; [exact R1 | rewrite R2; reflexivity |]. eapply timed_put; [exact L | reflexivity .. | exact S].
  - destruct (insert_same c s) as (R1 & R2 & _). eapply timed_same; [exact R1 | rewrite R2; reflexivity | exact S].
  - exact S.
  - destruct (create_streams c (n_next c t)) as (R1 & R2 & _). pose proof (fresh_next c t B Ht) as Hf.
    destruct B as (_ & B2 & _). destruct S as [T1 T2]. split.
    + intros i x. unfold w_lookup. rewrite R1.
      change (w_lookup (n_set_streams c (n_streams c ++ [new_wstream c (n_next c t)]) (n_out c)) i = Some x -> w_fin_sent x = false -> w_last x = T i).
      rewrite lookup_new by exact Hf. cbn [w_id new_wstream]. destruct (N.eqb_spec (n_next c t) i) as [<- | Q]; [| apply T1].
      intros H _. apply some_inj in H. subst x. cbn. symmetry. apply T2. rewrite B2 by exact Ht. lia.
    + intros i. rewrite R2. unfold stream_type. rewrite B2 by exact Ht. destruct (N.eqb_spec (i mod 4) t) as [E | E]; [| apply T2].
      intro H. apply T2. rewrite E. lia.
  - destruct S as [T1 T2]. split; [| exact T2]. intros i x. unfold w_lookup. cbn [n_streams n_set_streams].
    destruct (N.eq_dec i (w_id s)) as [-> | Q]; [| rewrite delete_lookup by exact Q; apply T1].
    intros H. apply find_some in H. destruct H as [H E]. apply filter_In in H. rewrite E in H. destruct H; discriminate.
  - eapply timed_same; eassumption.
  - destruct S as [T1 T2]. split; [| exact T2]. intros i x. rewrite raise_lookup.
    destruct (w_lookup c i) as [y |] eqn:Ly; [| discriminate]. intro H. apply some_inj in H. subst x.
    intro F. rewrite <- (T1 i y Ly); destruct (_ || _); try (destruct (_ <? _)); try reflexivity; exact F.
  - exact S.
Qed.

Lemma carries_app i a b : carries i (a ++ b) = carries i a || carries i b.
Proof. apply existsb_app. Qed.
Lemma carries_other i s its : Forall (about s) its -> i <> s -> carries i its = false.
Proof.
  intros F H. unfold carries. induction F as [| x l A F IH]; [reflexivity |]. cbn [existsb]. rewrite IH, orb_false_r.
  unfold about in A. destruct x; try reflexivity. subst. destruct (N.eqb_spec s i); [congruence | reflexivity].
Qed.

Definition turned (c0 c : snd_cnx) (now : N) (its : list item) : Prop :=
  n_next c = n_next c0 /\
  (forall i t, w_lookup c i = Some t -> exists t0, w_lookup c0 i = Some t0 /\
    (w_fin_sent t = false -> w_fin_sent t0 = false /\ w_last t = if carries i its then now else w_last t0)) /\
  (forall i, carries i its = true -> exists t0, w_lookup c0 i = Some t0).

Lemma turned_out c0 c c' now its : same_but_out c c' -> turned c0 c now its -> turned c0 c' now its.
Proof. intros [out ->] H. exact H. Qed.

Lemma turned_format c0 c s room now r c' b its0 its asked :
  w_lookup c (w_id s) = Some s -> format_stream c s room now r = FOk c' b its asked ->
  turned c0 c now its0 -> turned c0 c' now (its0 ++ its).
Proof.
  intros L F (T0 & T1 & T2). destruct (format_effect _ _ _ _ _ _ _ _ _ L F) as [C1 C2 C3 C4 C5 C6 C7 C8 C9 C10].
  destruct C9 as (s' & Ls' & Ps' & Fs'). split; [congruence |]. split.
  - intros i t Lt. rewrite carries_app. destruct (N.eq_dec i (w_id s)) as [-> | Q].
    + rewrite Ls' in Lt. apply some_inj in Lt. subst t. destruct (T1 _ _ L) as (t0 & L0 & H0). exists t0. split; [exact L0 |].
      intro Z. destruct (Fs' Z) as [Z1 Z2]. destruct (H0 Z1) as [Z3 Z4]. split; [exact Z3 |].
      rewrite Z2, Z4. destruct (carries (w_id s) its), (carries (w_id s) its0); reflexivity.
    + rewrite C8 in Lt by exact Q. destruct (T1 _ _ Lt) as (t0 & L0 & H0). exists t0. split; [exact L0 |].
      intro Z. destruct (H0 Z) as [Z3 Z4]. split; [exact Z3 |]. rewrite (carries_other i _ _ C10 Q), orb_false_r. exact Z4.
  - intros i. rewrite carries_app, orb_true_iff. intros [H | H]; [auto |].
    destruct (N.eq_dec i (w_id s)) as [-> | Q].
    + destruct (T1 _ _ L) as (t0 & L0 & _). eauto.
    + rewrite (carries_other i _ _ C10 Q) in H. discriminate.
Qed.

Lemma fill_loop_turned c0 now prio app fuel : forall c st pos bytes its asks c' bytes' its' ok,
  (forall s, st = Some s -> w_lookup c (w_id s) = Some s) -> turned c0 c now its ->
  fill_loop fuel c st pos bytes its asks now prio app = LDone c' bytes' its' ok -> turned c0 c' now its'.
Proof.
  induction fuel as [| fuel IH]; intros c st pos bytes its asks c' bytes' its' ok Hc D; [discriminate |].
  destruct pos as [room |]; [| intro H; apply none_not_done in H; destruct H].
  cbn [fill_loop]. cbv zeta.
  assert (Fin : LDone c bytes its true = LDone c' bytes' its' ok -> turned c0 c' now its').
  { intro H. injection H as <- _ <- _. exact D. }
  destruct st as [s |]; [| exact Fin].
  destruct (_ && _); [| exact Fin].
  assert (L := Hc s eq_refl).
  destruct (format_stream c s room now (app asks)) as [| c1 b its1 asked | c1 asked |] eqn:Ef.
  - destruct (find_ready c). intro H. apply none_not_done in H. destruct H.
  - assert (D1 := turned_format _ _ _ _ _ _ _ _ _ _ _ L Ef D).
    destruct (find_ready c1) as [c2 st2] eqn:Er. destruct (find_ready_spec _ _ _ Er) as [F1 F2].
    assert (D2 := turned_out _ _ _ _ _ F1 D1).
    assert (C3 : forall x, st2 = Some x -> w_lookup c2 (w_id x) = Some x).
    { intros x Hx. destruct (same_chosen _ _ _ F1 (F2 x Hx)) as [Lx _]. exact Lx. }
    destruct st2 as [s2 |].
    + destruct (_ <=? 17).
      { intro H. injection H as <- _ <- _. exact D2. }
      apply IH; assumption.
    + apply IH; assumption.
  - intro H. injection H as <- _ <- _. apply format_err_same in Ef. subst c1. exact D.
  - discriminate.
Qed.

Lemma fill_turned c fuel room now prio app c' bytes its ok :
  fill fuel c room now prio app = LDone c' bytes its ok -> turned c c' now its.
Proof.
  unfold fill. destruct (find_ready c) as [c1 st] eqn:Ef. destruct (find_ready_spec _ _ _ Ef) as [F1 F2].
  apply fill_loop_turned.
  - intros x Hx. destruct (same_chosen _ _ _ F1 (F2 x Hx)) as [Lx _]. exact Lx.
  - eapply turned_out; [exact F1 |]. split; [reflexivity |]. split; [| intros i H; discriminate].
    intros i t Lt. exists t. auto.
Qed.

Lemma timed_step T c e c' its : base c -> timed T c -> snd_step c e = Some (c', its) ->
  timed (fun i => served_by i e its (T i)) c'.
Proof.
  intros B S E. destruct (not_fill e) eqn:Nf.
  - assert (Q : forall i, served_by i e its (T i) = T i) by (intro; destruct e; reflexivity || discriminate).
    assert (S' : timed T c').
    { apply ps_step in E. rewrite Nf in E. generalize (special e) E. clear - B S. intros f E.
      revert B S. clear - E. induction E as [| a b c P E IH]; intros B S; [exact S |].
      apply IH; [eapply base_prim; eassumption | eapply timed_prim; eassumption]. }
    destruct S' as [T1 T2]. split; [intros i t Lt Ft | intros i H]; rewrite Q; auto.
  - destruct e; try discriminate. cbn [snd_step] in E.
    destruct (fill fuel c room now prio app) as [c1 b1 i1 ok1 | | |] eqn:Ef; try discriminate. inv_pair E.
    apply fill_turned in Ef. destruct Ef as (E0 & E1 & E2). destruct S as [T1 T2]. split; cbn [served_by].
    + intros i t Lt Ft. destruct (E1 i t Lt) as (t0 & L0 & H0). destruct (H0 Ft) as [Z1 Z2].
      rewrite Z2, (T1 i t0 L0 Z1). reflexivity.
    + intros i H. rewrite E0 in H. destruct (carries i its) eqn:Ec; [| apply T2, H]. exfalso.
      destruct B as (_ & _ & B3). apply (B3 i H). apply lookup_some_iff. exact (E2 i Ec).
Qed.

Lemma timed_run evs : forall T c c' log, base c -> timed T c -> snd_run c evs = Some (c', log) ->
  timed (fun i => served i c evs (T i)) c'.
Proof.
  induction evs as [| e evs IH]; intros T c c' log B S; cbn [snd_run served].
  - intro E. inv_pair E. exact S.
  - destruct (snd_step c e) as [[c1 i1] |] eqn:Es; [| discriminate].
    destruct (snd_run c1 evs) as [[c2 i2] |] eqn:Er; [| discriminate]. intro E. inv_pair E.
    refine (IH (fun i => served_by i e i1 (T i)) c1 _ i2 _ (timed_step _ _ _ _ _ B S Es) Er).
    eapply (prims_ind2 base); [| eapply ps_step, Es | exact B]. intros x y. apply base_prim.
Qed.

Lemma last_served cl p evs c log i t : snd_run (snd0 cl p) evs = Some (c, log) -> w_lookup c i = Some t ->
  w_fin_sent t = false -> w_last t = served i (snd0 cl p) evs 0.
Proof.
  intros R L F. assert (S : timed (fun _ => 0) (snd0 cl p)) by (split; [intros ? ? H; discriminate | reflexivity]).
  destruct (timed_run _ _ _ _ _ (proj1 (good_init cl p)) S R) as [T1 _]. exact (T1 i t L F).
Qed.

Lemma round_robin cl p evs c log c' s i t :
  snd_run (snd0 cl p) evs = Some (c, log) -> find_ready c = (c', Some s) ->
  In i (n_out c) -> w_lookup c i = Some t -> sendable c t -> w_prio t = w_prio s -> N.odd (w_prio s) = false ->
  ~ control s -> w_fin_sent s = false -> w_fin_sent t = false ->
  let when id := served id (snd0 cl p) evs 0 in
  when (w_id s) < when i \/ (when (w_id s) = when i /\ w_id s <= i).
Proof.
  intros R F Hi Lt St Hp Ho Nc Fs Ft. cbv zeta. destruct (choice _ _ _ _ _ _ _ R F) as (_ & Ls & _ & A).
  rewrite <- (last_served _ _ _ _ _ _ _ R Ls Fs), <- (last_served _ _ _ _ _ _ _ R Lt Ft).
  destruct (A i t Hi Lt St) as [Q | (_ & _ & Q)]; [lia |].
  destruct (Q Ho) as [[Q1 _] | (_ & _ & Q1)]; [contradiction |].
  rewrite (lookup_id _ _ _ Lt) in Q1. exact Q1.
Qed.
