(** Proofs about the responses, the padding, the wake times and the end of the challenges of new
    addresses, and counterexamples. *)
From Coq Require Import Permutation.
From Verif Require Import Base Chal_model Chal_spec Chal_proofs.

Definition is_resp (e : cev) : bool := match e with EResp _ _ => true | _ => false end.
Definition is_frame (e : cev) : bool := match e with EResp _ _ | EChal _ _ _ _ _ => true | _ => false end.

Lemma send_chal_weak : forall now room wake p t e pad room' wake' t' mv,
  send_chal now room wake p t = Some (e, pad, room', wake', t', mv) ->
  ct_id t' = ct_id t /\ ct_resp t' = ct_resp t /\ existsb is_resp e = false /\
  pad = existsb is_frame e && may_pad p /\ wake' <= wake /\
  (ct_ver t' = false -> ct_fail t' = false -> wake' <= challenge_time (cp_rto p) t' now).
Proof.
  intros now room wake p t e pad room' wake' t' mv H. unfold send_chal in H.
  destruct (ct_ver t || ct_fail t) eqn:E.
  { inversion H; subst. repeat split; try lia. intros A B. rewrite A, B in E. discriminate. }
  cbv zeta in H.
  destruct (now <? challenge_time (cp_rto p) t now) eqn:F.
  { inversion H; subst. repeat split; try (destruct (challenge_time (cp_rto p) t' now <? wake) eqn:G; lia). }
  destruct (ct_count t <? 3).
  - destruct (nth_error (ct_chal t) (N.to_nat (ct_count t))) as [v|]; [|discriminate].
    destruct (9 <=? room); inversion H; subst; clear H.
    + repeat split;
        match goal with |- context [?a <? wake] => destruct (a <? wake) eqn:G; lia end.
    + repeat split;
        match goal with |- context [?a <? wake] => destruct (a <? wake) eqn:G; lia end.
  - inversion H; subst. repeat split; try lia. simpl. discriminate.
Qed.

(** The effect of a preparation, for any path. *)
Lemma prepare_weak : forall now room wake id p e pad w p', prepare now room wake id p = Some (e, pad, w, p') ->
  (e = [] /\ pad = false /\ p' = p /\ w = wake /\ forall x, In x (cp_tuples p) -> ct_id x <> id) \/
  (exists t t2 e1 e2, In t (cp_tuples p) /\ ct_id t = id /\ ct_id t2 = id /\ e = e1 ++ e2 /\ existsb is_resp e1 = false /\
     (forall x, In x (cp_tuples p') -> x = t2 \/ (In x (cp_tuples p) /\ ct_id x <> id)) /\
     ((e2 = [] /\ ct_resp t2 = ct_resp t) \/ (exists v, e2 = [EResp id v] /\ ct_resp t = Some v /\ ct_resp t2 = None)) /\
     pad = existsb is_frame e && may_pad p /\ w <= wake /\ cp_rto p' = cp_rto p /\
     (ct_ver t2 = false -> ct_fail t2 = false -> w <= challenge_time (cp_rto p) t2 now)).
Proof.
  intros now room wake id p e pad w p' P. unfold prepare in P.
  destruct (ct_find id (cp_tuples p)) as [t|] eqn:FD.
  2:{ left. inversion P; subst. repeat split. intros x Hx C. unfold ct_find in FD.
      pose proof (find_none _ _ FD x Hx) as Q. simpl in Q. apply N.eqb_neq in Q. contradiction. }
  right. apply find_in in FD. destruct FD as [TI TID].
  destruct (send_chal now room wake p t) as [[[[[[e1 pad1] room'] wake'] t1] mv]|] eqn:SC; [|discriminate].
  apply send_chal_weak in SC. destruct SC as [A1 [A2 [A3 [A4 [A5 A6]]]]].
  destruct (send_resp room' p t1) as [[e2 pad2] t2] eqn:SR. apply send_resp_cases in SR.
  inversion P; subst e pad w p'; clear P. exists t, t2, e1, e2.
  assert (Q : ct_id t2 = ct_id t1 /\ ct_ver t2 = ct_ver t1 /\ ct_fail t2 = ct_fail t1 /\
              challenge_time (cp_rto p) t2 now = challenge_time (cp_rto p) t1 now).
  { destruct SR as [[_ [A _]]|[v [_ [_ [_ [_ A]]]]]]; subst t2; repeat split. }
  destruct Q as [Q1 [Q2 [Q3 Q4]]].
  assert (ID2 : ct_id t2 = id) by congruence.
  split; [exact TI|]. split; [exact TID|]. split; [exact ID2|]. split; [reflexivity|]. split; [exact A3|].
  split; [|split; [|split; [|split; [exact A5|split; [reflexivity|]]]]].
  - intros x Hx. cbn [cp_set cp_tuples] in Hx. destruct mv.
    + apply in_app_iff in Hx. destruct Hx as [Hx|[Hx|[]]]; [|left; auto]. apply unlink_in in Hx. right; exact Hx.
    + apply put_in in Hx. rewrite ID2 in Hx. exact Hx.
  - destruct SR as [[B1 [B2 _]]|[v [B1 [B2 [_ [_ B3]]]]]].
    + left. subst. split; [reflexivity|exact A2].
    + right. exists v. subst t2. rewrite B2. simpl in ID2. rewrite ID2. repeat split; congruence.
  - rewrite existsb_app. subst pad1. destruct SR as [[B1 [_ [B2 _]]]|[v [_ [B1 [B2 _]]]]]; subst e2 pad2; simpl;
      destruct (existsb is_frame e1), (may_pad p); reflexivity.
  - rewrite Q2, Q3, Q4. exact A6.
Qed.

(** ** Padding *)
Theorem pad_thm : forall now room wake id p e pad w p', prepare now room wake id p = Some (e, pad, w, p') ->
  cp_sent p < two62 ->
  (pad = true <-> (exists x, In x e /\ match x with EChal _ _ _ _ _ | EResp _ _ => True | _ => False end) /\
                  (cp_client p = true \/ cp_sent p + 1200 <= cp_recv p)).
Proof.
  intros now room wake id p e pad w p' P B.
  assert (M : may_pad p = true <-> (cp_client p = true \/ cp_sent p + 1200 <= cp_recv p)).
  { unfold may_pad. rewrite u64_id by (unfold two62, two64 in *; lia). rewrite orb_true_iff, N.leb_le. tauto. }
  assert (F : existsb is_frame e = true <-> exists x, In x e /\ match x with EChal _ _ _ _ _ | EResp _ _ => True | _ => False end).
  { rewrite existsb_exists. split; intros [x [A C]]; exists x; (split; [exact A|]); destruct x; simpl in *; auto; try discriminate; try contradiction. }
  apply prepare_weak in P. destruct P as [[A [C _]]|[t [t2 [e1 [e2 [_ [_ [_ [_ [_ [_ [_ [C _]]]]]]]]]]]]].
  - subst. split; [discriminate|]. intros [[x [[] _]] _].
  - rewrite C, andb_true_iff, M, F. tauto.
Qed.

(** ** Responses *)
Definition rinv (evs : list cev) (ops : list cop) (p : cpath) : Prop :=
  (forall id, (responses id evs <= asks id ops)%nat) /\
  (forall id v, In (EResp id v) evs -> In (OAsk id v) ops) /\
  (forall t v, In t (cp_tuples p) -> ct_resp t = Some v ->
     In (OAsk (ct_id t) v) ops /\ (responses (ct_id t) evs + 1 <= asks (ct_id t) ops)%nat).

Lemma responses_app : forall id a b, responses id (a ++ b) = (responses id a + responses id b)%nat.
Proof. intros. unfold responses. rewrite filter_app, app_length. reflexivity. Qed.
Lemma asks_app : forall id a b, asks id (a ++ b) = (asks id a + asks id b)%nat.
Proof. intros. unfold asks. rewrite filter_app, app_length. reflexivity. Qed.
Lemma responses_none : forall id e, existsb is_resp e = false -> responses id e = 0%nat.
Proof.
  intros id e. unfold responses. induction e as [|x e IH]; simpl; intros H; [reflexivity|].
  apply orb_false_iff in H. destruct H as [H1 H2]. destruct x; simpl in *; try discriminate; auto.
Qed.
Lemma resp_in_none : forall id v e, existsb is_resp e = false -> ~ In (EResp id v) e.
Proof.
  intros id v e H C. assert (existsb is_resp e = true); [|congruence].
  apply existsb_exists. exists (EResp id v). split; [exact C|reflexivity].
Qed.

Lemma rinv_keep : forall evs ops o e p p', rinv evs ops p -> existsb is_resp e = false ->
  (forall t v, In t (cp_tuples p') -> ct_resp t = Some v ->
     exists t', In t' (cp_tuples p) /\ ct_id t' = ct_id t /\ ct_resp t' = Some v) ->
  rinv (evs ++ e) (ops ++ [o]) p'.
Proof.
  intros evs ops o e p p' [A [B C]] E K. split; [|split].
  - intros id. rewrite responses_app, asks_app, (responses_none _ e) by exact E. specialize (A id). lia.
  - intros id v H. apply in_app_iff in H. destruct H as [H|H]; [|destruct (resp_in_none _ _ _ E H)].
    apply in_app_iff. left. apply B. exact H.
  - intros t v T R. destruct (K t v T R) as [t' [K1 [K2 K3]]]. destruct (C t' v K1 K3) as [C1 C2]. rewrite K2 in *.
    split; [apply in_app_iff; left; exact C1|]. rewrite responses_app, asks_app, (responses_none _ e) by exact E. lia.
Qed.

Lemma rinv_step : forall evs ops o p e p', rinv evs ops p -> cstep o p = Some (e, p') -> rinv (evs ++ e) (ops ++ [o]) p'.
Proof.
  intros evs ops o p e p' R H. destruct o; simpl in H.
  - inversion H; subst. apply rinv_keep with (p := p); [exact R|reflexivity|]. intros t v T Q.
    simpl in T. apply in_app_iff in T. destruct T as [T|[T|[]]]; [eauto|subst; discriminate].
  - inversion H; subst. destruct R as [A [B C]]. split; [|split].
    + intros i. rewrite app_nil_r, asks_app. specialize (A i). lia.
    + intros i w Q. rewrite app_nil_r in Q. apply in_app_iff. left. apply B. exact Q.
    + intros t w T Q. rewrite app_nil_r. simpl in T. apply in_map_iff in T. destruct T as [x [T1 T2]].
      destruct (ct_id x =? id) eqn:E.
      * apply N.eqb_eq in E. subst t. simpl in *. inversion Q; subst.
        split; [apply in_app_iff; right; left; reflexivity|]. rewrite asks_app. unfold asks at 2. simpl.
        rewrite N.eqb_refl. simpl. specialize (A (ct_id x)). lia.
      * subst t. destruct (C x w T2 Q) as [C1 C2]. split; [apply in_app_iff; left; exact C1|]. rewrite asks_app. lia.
  - inversion H; subst. apply rinv_keep with (p := p); [exact R|reflexivity|]. intros t v T Q. unfold answer in T.
    destruct (ct_find id (cp_tuples p)) as [x|] eqn:FD; [|eauto]. destruct (ct_ver x); [eauto|].
    apply find_in in FD. simpl in T. destruct T as [T|T]; [subst t; simpl in *; exists x; tauto|].
    apply unlink_in in T. exists t. tauto.
  - unfold renew in H. destruct (cp_tuples p) as [|t0 r] eqn:TL.
    { inversion H; subst. apply rinv_keep with (p := p'); [exact R|reflexivity|]. eauto. }
    destruct (negb (ct_req t0) || ct_ver t0); inversion H; subst;
      (apply rinv_keep with (p := p) || apply rinv_keep with (p := p')); try exact R; try reflexivity; eauto.
    intros t v T Q. rewrite TL. simpl in T. destruct T as [T|T]; [subst t; simpl in *; exists t0; auto|exists t; simpl; auto].
  - inversion H; subst. apply rinv_keep with (p := p); [exact R|reflexivity|]. intros t v T Q. unfold fail_first in T.
    destruct (cp_tuples p) as [|t0 r] eqn:TL; [rewrite TL in T; destruct T|].
    simpl in T. destruct T as [T|T]; [subst t; simpl in *; exists t0; auto|exists t; simpl; auto].
  - destruct (prepare now room max64 id p) as [[[[e0 pad] w] p0]|] eqn:P; [|discriminate]. inversion H; subst e0 p0; clear H.
    apply prepare_weak in P. destruct P as [[A [_ [B _]]]|[t [t2 [e1 [e2 [T1 [T2 [T3 [T4 [T5 [T6 [T7 _]]]]]]]]]]]].
    { subst. apply rinv_keep with (p := p); [exact R|reflexivity|]. eauto. }
    destruct T7 as [[A B]|[v [A [B C]]]].
    + subst e e2. rewrite app_nil_r. apply rinv_keep with (p := p); [exact R|exact T5|].
      intros x u X Y. destruct (T6 x X) as [Z|[Z _]]; [|eauto]. subst x. exists t. rewrite T2, T3, <- B. auto.
    + subst e e2. destruct R as [R1 [R2 R3]]. destruct (R3 t v T1 B) as [R4 R5]. rewrite T2 in *.
      assert (RE : forall i, responses i (evs ++ e1 ++ [EResp id v]) = (responses i evs + if (id =? i)%N then 1 else 0)%nat).
      { intros i. rewrite !responses_app, (responses_none _ e1) by exact T5. unfold responses at 2. simpl. destruct (id =? i); simpl; lia. }
      split; [|split].
      * intros i. rewrite RE, asks_app. destruct (id =? i) eqn:E; [apply N.eqb_eq in E; subst i; lia|]. specialize (R1 i). lia.
      * intros i u Q. apply in_app_iff. left. apply in_app_iff in Q. destruct Q as [Q|Q]; [auto|].
        apply in_app_iff in Q. destruct Q as [Q|[Q|[]]]; [destruct (resp_in_none _ _ _ T5 Q)|]. inversion Q; subst. exact R4.
      * intros x u X Y. destruct (T6 x X) as [Z|[Z1 Z2]]; [subst x; congruence|].
        destruct (R3 x u Z1 Y) as [Y1 Y2]. split; [apply in_app_iff; left; exact Y1|]. rewrite RE, asks_app.
        destruct (id =? ct_id x) eqn:E; [apply N.eqb_eq in E; congruence|]. lia.
  - inversion H; subst. apply rinv_keep with (p := p); [exact R|reflexivity|]. intros t v T Q.
    destruct (cp_tuples p) as [|t0 r] eqn:TL.
    { unfold purge in T. rewrite TL in T. simpl in T. rewrite TL in T. destruct T. }
    rewrite (purge_thm now max64 p t0 r TL) in T. exists t. split; [|auto].
    destruct T as [T|T]; [left; exact T|right]. apply filter_In in T. tauto.
  - inversion H; subst. apply rinv_keep with (p := p); [exact R|reflexivity|]. eauto.
  - inversion H; subst. apply rinv_keep with (p := p); [exact R|reflexivity|]. eauto.
Qed.

Lemma rinv_run : forall l evs ops p e p', rinv evs ops p -> crun p l = Some (e, p') -> rinv (evs ++ e) (ops ++ l) p'.
Proof.
  induction l as [|o l IH]; intros evs ops p e p' R H; simpl in H.
  - inversion H; subst. rewrite !app_nil_r. exact R.
  - destruct (cstep o p) as [[e1 p1]|] eqn:C; [|discriminate]. destruct (crun p1 l) as [[e2 p2]|] eqn:D; [|discriminate].
    inversion H; subst. rewrite app_assoc. replace (ops ++ o :: l) with ((ops ++ [o]) ++ l) by (rewrite <- app_assoc; reflexivity).
    apply IH with (p := p1); [|exact D]. apply rinv_step with (p := p); assumption.
Qed.

Theorem response_thm : forall l p evs p', cp_tuples p = [] -> crun p l = Some (evs, p') ->
  (forall id, (responses id evs <= asks id l)%nat) /\ (forall id v, In (EResp id v) evs -> In (OAsk id v) l).
Proof.
  intros l p evs p' S H. assert (R : rinv [] [] p).
  { split; [intros; apply Nat.le_refl|]. split; [intros ? ? []|]. rewrite S. intros ? ? []. }
  pose proof (rinv_run l [] [] p evs p' R H) as [A [B _]]. simpl in *. auto.
Qed.

(** ** Wake times and selection *)
Lemma check_loop_none : forall rto now l first wake w d, check_loop first rto now wake l = (None, w, d) ->
  w <= wake /\ forall t, In t l -> ct_fail t = false ->
    ct_resp t = None /\ (waits t -> now < challenge_time rto t now /\ w <= challenge_time rto t now).
Proof.
  intros rto now l. induction l as [|t r IH]; intros first wake w d H; simpl in H.
  - inversion H; subst. split; [lia|]. intros ? [].
  - destruct (ct_fail t) eqn:F.
    + destruct (check_loop false rto now wake r) as [[s w'] d'] eqn:C. inversion H; subst.
      destruct (IH _ _ _ _ C) as [A B]. split; [exact A|]. intros x [X|X] Y; [congruence|]. apply B; assumption.
    + destruct (ct_resp t) eqn:R; [discriminate|]. destruct (ct_req t && negb (ct_ver t)) eqn:Q.
      * destruct (challenge_time rto t now <=? now) eqn:L; [discriminate|]. apply N.leb_gt in L.
        destruct (IH _ _ _ _ H) as [A B].
        split; [destruct (challenge_time rto t now <? wake) eqn:G; lia|].
        intros x [X|X] Y; [|apply B; assumption]. subst x. split; [exact R|]. intros _. split; [exact L|].
        destruct (challenge_time rto t now <? wake) eqn:G; lia.
      * destruct (IH _ _ _ _ H) as [A B]. split; [exact A|]. intros x [X|X] Y; [|apply B; assumption]. subst x.
        split; [exact R|]. intros [_ [W1 W2]]. rewrite W1, W2 in Q. discriminate.
Qed.

Lemma check_loop_some : forall rto now l first wake id w d, check_loop first rto now wake l = (Some id, w, d) ->
  exists t, In t l /\ ct_id t = id /\ ct_fail t = false /\
    (ct_resp t <> None \/ (waits t /\ challenge_time rto t now <= now)).
Proof.
  intros rto now l. induction l as [|t r IH]; intros first wake id w d H; simpl in H; [discriminate|].
  destruct (ct_fail t) eqn:F.
  - destruct (check_loop false rto now wake r) as [[s w'] d'] eqn:C. inversion H; subst.
    destruct (IH _ _ _ _ _ C) as [x [A B]]. exists x. split; [right; exact A|exact B].
  - destruct (ct_resp t) eqn:R.
    + inversion H; subst. exists t. repeat split; auto; [left; reflexivity|]. left. congruence.
    + destruct (ct_req t && negb (ct_ver t)) eqn:Q.
      * destruct (challenge_time rto t now <=? now) eqn:L.
        -- inversion H; subst. apply N.leb_le in L. apply andb_true_iff in Q. destruct Q as [Q1 Q2].
           apply negb_true_iff in Q2. exists t. repeat split; auto; [left; reflexivity|]. right. repeat split; auto.
        -- destruct (IH _ _ _ _ _ H) as [x [A B]]. exists x. split; [right; exact A|exact B].
      * destruct (IH _ _ _ _ _ H) as [x [A B]]. exists x. split; [right; exact A|exact B].
Qed.

Theorem wake_thm : forall l p evs p1 now wake w d, ch_start p -> Forall op_ok l -> crun p l = Some (evs, p1) ->
  check now wake p1 = (None, w, d) ->
  w <= wake /\ forall t, In t (cp_tuples p1) -> ct_fail t = false ->
    ct_resp t = None /\ (waits t -> now < due (cp_rto p1) t now /\ w <= due (cp_rto p1) t now).
Proof.
  intros l p evs p1 now wake w d S OK R C. pose proof (reach_inv _ _ _ _ S OK R) as [ND [RT [NX [SP LK]]]].
  destruct (check_loop_none _ _ _ _ _ _ _ C) as [A B]. split; [exact A|]. intros t T F.
  rewrite Forall_forall in LK. destruct (LK t T) as [L1 [L2 [L3 L4]]]. destruct (L4 F) as [_ [L5 _]].
  rewrite <- (due_thm (cp_rto p1) t now) by assumption. apply B; assumption.
Qed.

Theorem select_thm : forall l p evs p1 now wake id w d, ch_start p -> Forall op_ok l -> crun p l = Some (evs, p1) ->
  check now wake p1 = (Some id, w, d) ->
  exists t, In t (cp_tuples p1) /\ ct_id t = id /\ ct_fail t = false /\
    (ct_resp t <> None \/ (waits t /\ due (cp_rto p1) t now <= now)).
Proof.
  intros l p evs p1 now wake id w d S OK R C. pose proof (reach_inv _ _ _ _ S OK R) as [ND [RT [NX [SP LK]]]].
  destruct (check_loop_some _ _ _ _ _ _ _ _ C) as [t [A [B [F D]]]]. exists t.
  rewrite Forall_forall in LK. destruct (LK t A) as [L1 [L2 [L3 L4]]]. destruct (L4 F) as [_ [L5 _]].
  rewrite <- (due_thm (cp_rto p1) t now) by assumption. auto.
Qed.

(** After the preparation of a challenge, the endpoint wakes up for the next one. *)
Theorem again_thm : forall l p evs p1 now room wake id e pad w p2, ch_start p -> Forall op_ok l -> crun p l = Some (evs, p1) ->
  now < two62 -> prepare now room wake id p1 = Some (e, pad, w, p2) ->
  w <= wake /\ forall t, In t (cp_tuples p2) -> ct_id t = id -> ct_ver t = false -> ct_fail t = false ->
    w <= due (cp_rto p1) t now.
Proof.
  intros l p evs p1 now room wake id e pad w p2 S OK R NW P. pose proof (reach_inv _ _ _ _ S OK R) as I.
  destruct (prepare_inv evs p1 now room wake id I NW) as [e' [pad' [w' [p2' [P' [I2 _]]]]]].
  rewrite P in P'. inversion P'; subst e' pad' w' p2'. destruct I2 as [ND [RT [NX [SP LK]]]].
  apply prepare_weak in P. destruct P as [[A [_ [B [C D]]]]|[t [t2 [e1 [e2 [T1 [T2 [T3 [T4 [T5 [T6 [T7 [T8 [T9 [T10 T11]]]]]]]]]]]]]]].
  - subst. split; [lia|]. intros t T Q. destruct (D t T Q).
  - split; [exact T9|]. intros x X Y V F. destruct (T6 x X) as [Z|[_ Z]]; [|contradiction]. subst x.
    rewrite Forall_forall in LK. destruct (LK t2 X) as [L1 [L2 [L3 L4]]]. destruct (L4 F) as [_ [L5 _]].
    rewrite T10 in RT. rewrite <- due_thm by assumption. apply T11; assumption.
Qed.

(** ** The end *)
Lemma sum_unlink : forall t l, NoDup (map ct_id l) -> In t l ->
  list_sum (map todo1 l) = (todo1 t + list_sum (map todo1 (unlink (ct_id t) l)))%nat.
Proof.
  intros t l. induction l as [|a r IH]; intros D H; [destruct H|]. inversion D as [|x y A B]; subst.
  destruct H as [H|H].
  - subst a. simpl. rewrite N.eqb_refl. rewrite unlink_notin by exact A. reflexivity.
  - simpl. destruct (ct_id a =? ct_id t) eqn:E.
    + apply N.eqb_eq in E. destruct A. rewrite E. apply in_map. exact H.
    + simpl. rewrite (IH B H). lia.
Qed.

Lemma sum_put : forall t t' l, NoDup (map ct_id l) -> In t l -> ct_id t' = ct_id t ->
  list_sum (map todo1 (ct_put t' l)) = (todo1 t' + list_sum (map todo1 (unlink (ct_id t) l)))%nat.
Proof.
  intros t t' l. induction l as [|a r IH]; intros D H Q; [destruct H|]. inversion D as [|x y A B]; subst.
  destruct H as [H|H].
  - subst a. simpl. rewrite Q, !N.eqb_refl. simpl. f_equal. rewrite unlink_notin by exact A. f_equal. f_equal.
    clear - A Q. induction r as [|b r IH]; [reflexivity|]. simpl in *. rewrite Q.
    destruct (ct_id b =? ct_id t) eqn:E; [apply N.eqb_eq in E; tauto|]. f_equal. apply IH. tauto.
  - simpl. rewrite Q. destruct (ct_id a =? ct_id t) eqn:E.
    + apply N.eqb_eq in E. destruct A. rewrite E. apply in_map. exact H.
    + simpl. fold (ct_put t' r). rewrite <- Q. fold (ct_put t' r).
      pose proof (IH B H Q) as K. unfold ct_put in *. rewrite K. rewrite Q. lia.
Qed.

Theorem progress_thm : forall l p evs p1 now wake id w d room wake2 e pad w2 p2,
  ch_start p -> Forall op_ok l -> crun p l = Some (evs, p1) ->
  check now wake p1 = (Some id, w, d) -> 18 <= room ->
  prepare now room wake2 id p1 = Some (e, pad, w2, p2) -> (todo p2 < todo p1)%nat.
Proof.
  intros l p evs p1 now wake id w d room wake2 e pad w2 p2 S OK R C RM P.
  pose proof (reach_inv _ _ _ _ S OK R) as [ND [RT [NX [SP LK]]]].
  destruct (check_loop_some _ _ _ _ _ _ _ _ C) as [t0 [A0 [B0 [F0 D0]]]]. unfold prepare in P.
  destruct (ct_find id (cp_tuples p1)) as [t|] eqn:FD.
  2:{ unfold ct_find in FD. pose proof (find_none _ _ FD t0 A0) as Q. simpl in Q. apply N.eqb_neq in Q. contradiction. }
  apply find_in in FD. destruct FD as [TI TID].
  assert (t0 = t).
  { assert (EQ : ct_id t0 = ct_id t) by congruence. clear - ND A0 TI EQ. revert ND A0 TI. generalize (cp_tuples p1) as l. induction l as [|a r IH]; intros ND X Y; [destruct X|].
    inversion ND as [|q1 q2 N1 N2]; subst. destruct X as [X|X], Y as [Y|Y]; subst; auto.
    - destruct N1. rewrite EQ. apply in_map. exact Y.
    - destruct N1. rewrite <- EQ. apply in_map. exact X. }
  subst t0. rewrite Forall_forall in LK. destruct (LK t TI) as [L1 [L2 [L3 L4]]]. destruct (L4 F0) as [_ [L5 _]].
  destruct (send_chal_cases now room wake2 p1 t L1) as [e1 [pad1 [room' [wake' [t1 [mv [SC CS]]]]]]].
  rewrite SC in P. destruct (send_resp room' p1 t1) as [[e2 pad2] t2] eqn:SR. apply send_resp_cases in SR.
  inversion P; subst e pad w2 p2; clear P SC. unfold todo. cbn [cp_set cp_tuples].
  assert (ID2 : ct_id t2 = ct_id t /\ (todo1 t2 < todo1 t)%nat).
  { unfold todo1. destruct CS as [[E1 [E2 [E3 [E4 [E5 E6]]]]]|[[v [E1 [E2 [E3 [E4 [E5 [E6 [E7 [[O1 [O2 O3]] E8]]]]]]]]]|[E1 [E2 [E3 [E4 [E5 [[O1 [O2 O3]] E8]]]]]]]]; subst t1 room'.
    - destruct D0 as [D0|[[W1 [W2 W3]] D1]]; [|exfalso; apply E6; [lia|]; repeat split; assumption].
      destruct SR as [[_ [_ [_ [Q|Q]]]]|[v [Q1 [_ [_ [_ Q2]]]]]]; [contradiction|lia|]. subst t2. simpl. rewrite Q1.
      split; [reflexivity|]. lia.
    - assert (U : u8 (ct_count t + 1) = ct_count t + 1) by (unfold u8; apply N.mod_small; lia).
      destruct SR as [[_ [Q _]]|[v' [Q1 [_ [_ [_ Q2]]]]]]; subst t2; cbn [bump ct_id ct_ver ct_fail ct_count ct_resp] in *; rewrite O1, F0, U; cbn [orb];
        [|rewrite Q1]; (split; [reflexivity|]); destruct (ct_resp t); lia.
    - destruct SR as [[_ [Q _]]|[v' [Q1 [_ [_ [_ Q2]]]]]]; subst t2; cbn [drop ct_id ct_ver ct_fail ct_count ct_resp] in *; rewrite O1, ?F0; cbn [orb];
        [|rewrite Q1]; (split; [reflexivity|]); destruct (ct_resp t); lia. }
  destruct ID2 as [ID2 LT]. rewrite (sum_unlink t (cp_tuples p1) ND TI). destruct mv.
  - rewrite map_app, list_sum_app. rewrite <- TID. simpl. lia.
  - rewrite (sum_put t t2 (cp_tuples p1) ND TI ID2). lia.
Qed.

Theorem bound_thm : forall p, (todo p <= 5 * length (cp_tuples p))%nat.
Proof.
  intros p. unfold todo. induction (cp_tuples p) as [|t r IH]; simpl; [lia|].
  assert (todo1 t <= 5)%nat by (unfold todo1; destruct (ct_ver t || ct_fail t), (ct_resp t); lia). lia.
Qed.

(** ** What is sent *)
Theorem sends_thm : forall l p evs p1 now room wake id e pad w p2,
  ch_start p -> Forall op_ok l -> crun p l = Some (evs, p1) ->
  prepare now room wake id p1 = Some (e, pad, w, p2) ->
  frame_bytes e <= room /\
  (forall i k v t r, In (EChal i k v t r) e -> i = id /\ t = now /\ r = cp_rto p1 /\
     exists x, In x (cp_tuples p1) /\ ct_id x = id /\ ct_ver x = false /\ ct_fail x = false /\ ct_count x = k /\
       nth_error (ct_chal x) (N.to_nat k) = Some v /\ due (cp_rto p1) x now <= now) /\
  (forall x v, In x (cp_tuples p1) -> ct_id x = id -> ct_resp x = Some v -> 18 <= room -> In (EResp id v) e).
Proof.
  intros l p evs p1 now room wake id e pad w p2 S OK R P.
  pose proof (reach_inv _ _ _ _ S OK R) as [ND [RT [NX [SP LK]]]]. unfold prepare in P.
  destruct (ct_find id (cp_tuples p1)) as [t|] eqn:FD.
  2:{ inversion P; subst. split; [simpl; lia|]. split; [intros ? ? ? ? ? []|]. intros x v X Y. unfold ct_find in FD.
      pose proof (find_none _ _ FD x X) as Q. simpl in Q. apply N.eqb_neq in Q. contradiction. }
  apply find_in in FD. destruct FD as [TI TID].
  assert (UN : forall x, In x (cp_tuples p1) -> ct_id x = id -> x = t).
  { intros x X Y. assert (EQ : ct_id x = ct_id t) by congruence. clear - ND X TI EQ. revert ND X TI.
    generalize (cp_tuples p1) as l. induction l as [|a r IH]; intros ND X Y; [destruct X|].
    inversion ND as [|q1 q2 N1 N2]; subst. destruct X as [X|X], Y as [Y|Y]; subst; auto.
    - destruct N1. rewrite EQ. apply in_map. exact Y.
    - destruct N1. rewrite <- EQ. apply in_map. exact X. }
  rewrite Forall_forall in LK. destruct (LK t TI) as [L1 [L2 [L3 L4]]].
  destruct (send_chal_cases now room wake p1 t L1) as [e1 [pad1 [room' [wake' [t1 [mv [SC CS]]]]]]].
  rewrite SC in P. destruct (send_resp room' p1 t1) as [[e2 pad2] t2] eqn:SR. apply send_resp_cases in SR.
  inversion P; subst e pad w p2; clear P SC.
  assert (RS : ct_resp t1 = ct_resp t /\ ct_id t1 = ct_id t /\ room <= room' + 9).
  { destruct CS as [[_ [E2 [_ [_ [E5 _]]]]]|[[v [_ [E2 [_ [_ [E5 _]]]]]]|[_ [E2 [_ [_ [E5 _]]]]]]]; subst t1 room'; repeat split; lia. }
  destruct RS as [RS1 [RS2 RS3]].
  assert (F2 : frame_bytes e2 <= room' /\ forall i k v a b, ~ In (EChal i k v a b) e2).
  { destruct SR as [[A _]|[v [_ [A [_ [B _]]]]]]; subst e2; simpl; (split; [lia|]); intros i k u a b H;
      [exact H|]. destruct H as [H|[]]; discriminate. }
  destruct F2 as [F2 F3].
  assert (F4 : forall a b, frame_bytes (a ++ b) = frame_bytes a + frame_bytes b).
  { intros a b. unfold frame_bytes. induction a as [|x a IH]; simpl; [reflexivity|]. rewrite IH. lia. }
  split; [|split].
  - rewrite F4. destruct CS as [[E1 [_ [_ [_ [E5 _]]]]]|[[v [E1 [_ [_ [_ [E5 [E6 _]]]]]]]|[E1 [_ [_ [_ [E5 _]]]]]]]; subst e1 room';
      cbn [frame_bytes fold_right]; lia.
  - intros i k v a b H. apply in_app_iff in H. destruct H as [H|H]; [|destruct (F3 _ _ _ _ _ H)].
    destruct CS as [[E1 _]|[[v' [E1 [_ [_ [_ [_ [_ [E7 [[O1 [O2 O3]] E8]]]]]]]]]|[E1 _]]]; subst e1.
    + destruct H.
    + destruct H as [H|[]]. inversion H; subst. repeat split. exists t. repeat split; auto.
      destruct (L4 O2) as [_ [L5 _]]. rewrite due_thm in O3 by assumption. exact O3.
    + destruct H as [H|[]]; discriminate.
  - intros x v X Y Z RM. apply UN in X; [|exact Y]. subst x. apply in_app_iff. right.
    destruct SR as [[_ [_ [_ [A|A]]]]|[u [A [B _]]]]; [congruence|lia|].
    subst e2. rewrite RS2, TID. rewrite RS1, Z in A. inversion A; subst. left. reflexivity.
Qed.

(** ** Counterexamples *)
Definition w_p : cpath := mk_cp true 0 0 10000 0 [].
Definition w_c : list N := [11; 22; 33].
Definition w_l : list cop := [OAdd 0 w_c; OPrep 0 100 0; OPrep 250000 100 0; OPrep 270000 100 0].
Definition w_late : list cop := w_l ++ [OPrep 310000 100 0; OAnswer 0].
Definition w_two : list cop := [OAdd 0 w_c; OAnswer 0; OAdd 0 w_c; OPrep 0 100 1; OPrep 250000 100 1; OPrep 270000 100 1; OPrep 310000 100 1].

Lemma w_start : ch_start w_p.
Proof. split; reflexivity. Qed.
Ltac ops := repeat (constructor; [simpl; repeat split; reflexivity|]); constructor.
Lemma w_l_ok : Forall op_ok w_l.
Proof. unfold w_l. ops. Qed.
Lemma w_late_ok : Forall op_ok w_late.
Proof. unfold w_late, w_l. simpl app. repeat (constructor; [simpl; try exact I; repeat split; reflexivity|]). constructor. Qed.
Lemma w_renew_ok : Forall op_ok (w_late ++ [ORenew 400000 w_c]).
Proof. apply Forall_app. split; [exact w_late_ok|]. ops. Qed.
Lemma w_two_ok : Forall op_ok w_two.
Proof. unfold w_two. repeat (constructor; [simpl; try exact I; repeat split; reflexivity|]). constructor. Qed.

Theorem backoff_refuted : exists p l evs p' t1 t2 t3 r1 r2 r3, ch_start p /\ Forall op_ok l /\ crun p l = Some (evs, p') /\
  since 0 evs = [(Some 0, t1, r1); (Some 1, t2, r2); (Some 2, t3, r3)] /\ t3 - t2 < t2 - t1.
Proof.
  exists w_p, w_l. eexists _, _, _, _, _, _, _, _. split; [exact w_start|]. split; [exact w_l_ok|].
  split; [vm_compute; reflexivity|]. split; [vm_compute; reflexivity|]. vm_compute; reflexivity.
Qed.

Theorem verified_refuted : exists p l evs p' t, ch_start p /\ Forall op_ok l /\ crun p l = Some (evs, p') /\
  cp_tuples p' = [t] /\ ct_ver t = true /\ ct_fail t = true.
Proof.
  exists w_p, w_late. eexists _, _, _. split; [exact w_start|]. split; [exact w_late_ok|].
  split; [vm_compute; reflexivity|]. split; [reflexivity|]. split; reflexivity.
Qed.

Theorem renew_refuted : exists p l evs p' t, ch_start p /\ Forall op_ok l /\ crun p l = Some (evs, p') /\
  cp_tuples p' = [t] /\ ct_req t = true /\ ct_ver t = false /\ ct_count t = 0 /\
  forall now room wake, prepare now room wake (ct_id t) p' = Some ([], false, wake, p') /\
    fst (check now wake p') = (None, wake).
Proof.
  exists w_p, (w_late ++ [ORenew 400000 w_c]). eexists _, _, _. split; [exact w_start|]. split; [exact w_renew_ok|].
  split; [vm_compute; reflexivity|]. split; [reflexivity|]. split; [reflexivity|]. split; [reflexivity|]. split; [reflexivity|].
  intros. split; reflexivity.
Qed.

Theorem demote_refuted : exists p l evs p' t0 t, ch_start p /\ Forall op_ok l /\ crun p l = Some (evs, p') /\
  cp_tuples p' = [t0; t] /\ ct_fail t = true /\
  forall now wake, check now wake p' = (None, wake, ct_demote t <? now).
Proof.
  exists w_p, w_two. eexists _, _, _, _. split; [exact w_start|]. split; [exact w_two_ok|].
  split; [vm_compute; reflexivity|]. split; [reflexivity|]. split; [reflexivity|].
  intros. reflexivity.
Qed.
