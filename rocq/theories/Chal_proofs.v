(** Proofs about the challenges of new addresses. *)
From Coq Require Import Permutation.
From Verif Require Import Base Chal_model Chal_spec.

(** ** Lists of tuples *)
Lemma find_in : forall id l t, ct_find id l = Some t -> In t l /\ ct_id t = id.
Proof.
  intros id l t H. unfold ct_find in H. apply find_some in H. destruct H as [A B].
  apply N.eqb_eq in B. split; assumption.
Qed.

Lemma unlink_in : forall id l x, In x (unlink id l) <-> In x l /\ ct_id x <> id.
Proof.
  intros id l x. induction l as [|t r IH]; simpl; [tauto|].
  destruct (ct_id t =? id) eqn:E.
  - apply N.eqb_eq in E. rewrite IH. split; [tauto|]. intros [[A|A] B]; [subst; contradiction|tauto].
  - apply N.eqb_neq in E. simpl. rewrite IH. split; [intros [A|A]; [subst|]; tauto|tauto].
Qed.

Lemma unlink_filter : forall id l, unlink id l = filter (fun t => negb (ct_id t =? id)) l.
Proof.
  intros id l. induction l as [|t r IH]; simpl; [reflexivity|].
  destruct (ct_id t =? id); simpl; rewrite IH; reflexivity.
Qed.

Lemma unlink_notin : forall id l, ~ In id (map ct_id l) -> unlink id l = l.
Proof.
  intros id l. induction l as [|t r IH]; simpl; intros H; [reflexivity|].
  destruct (ct_id t =? id) eqn:E; [apply N.eqb_eq in E; tauto|]. rewrite IH; [reflexivity|tauto].
Qed.

Lemma unlink_perm : forall id l, NoDup (map ct_id l) -> In id (map ct_id l) ->
  Permutation (map ct_id l) (id :: map ct_id (unlink id l)).
Proof.
  intros id l. induction l as [|t r IH]; simpl; intros D H; [contradiction|].
  inversion D as [|a b A B]; subst. destruct (ct_id t =? id) eqn:E.
  - apply N.eqb_eq in E. subst id. rewrite unlink_notin by exact A. apply Permutation_refl.
  - apply N.eqb_neq in E. destruct H as [H|H]; [contradiction|]. simpl.
    eapply Permutation_trans; [apply perm_skip, IH; assumption|]. apply perm_swap.
Qed.

Lemma put_ids : forall t l, map ct_id (ct_put t l) = map ct_id l.
Proof.
  intros t l. unfold ct_put. induction l as [|a r IH]; simpl; [reflexivity|]. rewrite IH.
  destruct (ct_id a =? ct_id t) eqn:E; [apply N.eqb_eq in E; rewrite E|]; reflexivity.
Qed.

Lemma put_in : forall t l x, In x (ct_put t l) -> x = t \/ (In x l /\ ct_id x <> ct_id t).
Proof.
  intros t l x H. unfold ct_put in H. apply in_map_iff in H. destruct H as [a [A B]].
  destruct (ct_id a =? ct_id t) eqn:E; [left; auto|]. right. subst. apply N.eqb_neq in E. auto.
Qed.

(** ** What the preparation of a challenge does *)
Definition bump (now : N) (t : ctup) : ctup :=
  mk_ct (ct_id t) (ct_req t) (ct_ver t) (ct_fail t) (u8 (ct_count t + 1)) now (ct_demote t) (ct_resp t) (ct_chal t).
Definition drop (now rto : N) (t : ctup) : ctup :=
  mk_ct (ct_id t) (ct_req t) (ct_ver t) true (ct_count t) (ct_time t)
          (u64 (now + u64 (N.shiftl rto 3))) (ct_resp t) (ct_chal t).

Definition open_at (p : cpath) (t : ctup) (now : N) : Prop :=
  ct_ver t = false /\ ct_fail t = false /\ challenge_time (cp_rto p) t now <= now.

Lemma send_chal_cases : forall now room wake p t, length (ct_chal t) = 3%nat ->
  exists e pad room' wake' t' mv, send_chal now room wake p t = Some (e, pad, room', wake', t', mv) /\
  ((e = [] /\ t' = t /\ mv = false /\ pad = false /\ room' = room /\ (9 <= room -> ~ open_at p t now)) \/
   (exists v, e = [EChal (ct_id t) (ct_count t) v now (cp_rto p)] /\ t' = bump now t /\ mv = false /\
      pad = may_pad p /\ room' = room - 9 /\ 9 <= room /\
      nth_error (ct_chal t) (N.to_nat (ct_count t)) = Some v /\ open_at p t now /\ ct_count t < 3) \/
   (e = [EFail (ct_id t) now (cp_rto p)] /\ t' = drop now (cp_rto p) t /\ mv = true /\ pad = false /\
      room' = room /\ open_at p t now /\ 3 <= ct_count t)).
Proof.
  intros now room wake p t L. unfold send_chal, open_at.
  destruct (ct_ver t || ct_fail t) eqn:E.
  - repeat eexists. left. repeat split. intros _ [A [B _]]. rewrite A, B in E. discriminate.
  - apply orb_false_iff in E. destruct E as [E1 E2].
    destruct (now <? challenge_time (cp_rto p) t now) eqn:F.
    + repeat eexists. left. repeat split. intros _ [_ [_ A]]. apply N.ltb_lt in F. lia.
    + apply N.ltb_ge in F. destruct (ct_count t <? 3) eqn:G.
      * apply N.ltb_lt in G.
        destruct (nth_error (ct_chal t) (N.to_nat (ct_count t))) as [v|] eqn:V;
          [|apply nth_error_None in V; lia].
        cbv zeta. destruct (9 <=? room) eqn:R.
        -- apply N.leb_le in R. repeat eexists. right; left. exists v. repeat split; assumption.
        -- apply N.leb_gt in R. repeat eexists. left. repeat split. intros A. lia.
      * apply N.ltb_ge in G. repeat eexists. right; right. repeat split; assumption.
Qed.

Lemma send_resp_cases : forall room p t e pad t', send_resp room p t = (e, pad, t') ->
  (e = [] /\ t' = t /\ pad = false /\ (ct_resp t = None \/ room < 9)) \/
  (exists v, ct_resp t = Some v /\ e = [EResp (ct_id t) v] /\ pad = may_pad p /\ 9 <= room /\
    t' = mk_ct (ct_id t) (ct_req t) (ct_ver t) (ct_fail t) (ct_count t) (ct_time t) (ct_demote t) None (ct_chal t)).
Proof.
  intros room p t e pad t' H. unfold send_resp in H. destruct (ct_resp t) as [v|] eqn:R.
  - destruct (9 <=? room) eqn:Q; inversion H; subst; clear H.
    + apply N.leb_le in Q. right. exists v. repeat split; auto.
    + apply N.leb_gt in Q. left. repeat split; auto.
  - inversion H; subst. left. repeat split; auto.
Qed.

(** ** The invariant *)
Definition link (evs : list cev) (next : N) (t : ctup) : Prop :=
  length (ct_chal t) = 3%nat /\ ct_id t < next /\ ct_time t < two62 /\
  (ct_fail t = false ->
     N.of_nat (length (since (ct_id t) evs)) = ct_count t /\ ct_count t <= 3 /\
     (since (ct_id t) evs = [] \/ exists l k r, since (ct_id t) evs = l ++ [(k, ct_time t, r)])).

Definition inv (evs : list cev) (p : cpath) : Prop :=
  NoDup (map ct_id (cp_tuples p)) /\ cp_rto p < 1152921504606846976 /\
  (forall id, cp_next p <= id -> since id evs = []) /\
  (forall id, spaced (since id evs)) /\
  Forall (link evs (cp_next p)) (cp_tuples p).

Lemma since_app : forall id a b, since id (a ++ b) = fold_left (since_step id) b (since id a).
Proof. intros. unfold since. apply fold_left_app. Qed.

Lemma shift1 : forall r, r < 1152921504606846976 -> u64 (N.shiftl r 1) = 2 * r.
Proof. intros r H. rewrite N.shiftl_mul_pow2. change (2 ^ 1) with 2. unfold u64, two64. rewrite N.mod_small; lia. Qed.
Lemma shift2 : forall r, r < 1152921504606846976 -> u64 (N.shiftl r 2) = 4 * r.
Proof. intros r H. rewrite N.shiftl_mul_pow2. change (2 ^ 2) with 4. unfold u64, two64. rewrite N.mod_small; lia. Qed.
Lemma u64_id : forall n, n < two64 -> u64 n = n.
Proof. intros. unfold u64. apply N.mod_small. assumption. Qed.

(** The time of the model is that of the specification. *)
Lemma due_thm : forall rto t now, rto < 1152921504606846976 -> ct_time t < two62 -> ct_count t <= 3 ->
  challenge_time rto t now = due rto t now.
Proof.
  intros rto t now R T C. unfold challenge_time, due. unfold two62 in T.
  assert (K : ct_count t = 0 \/ ct_count t = 1 \/ ct_count t = 2 \/ ct_count t = 3) by lia.
  destruct K as [K|[K|[K|K]]]; rewrite K.
  - reflexivity.
  - change (1 =? 0) with false. change (2 <=? 1) with false. cbv iota. apply u64_id. unfold two64. lia.
  - change (2 =? 0) with false. change (2 <=? 2) with true. cbv iota. change (2 - 1) with 1.
    rewrite shift1 by exact R. apply u64_id. unfold two64. lia.
  - change (3 =? 0) with false. change (2 <=? 3) with true. cbv iota. change (3 - 1) with 2.
    rewrite shift2 by exact R. apply u64_id. unfold two64. lia.
Qed.

Lemma snoc_last : forall (A : Type) (l1 l2 : list A) a b, l1 ++ [a] = l2 ++ [b] -> a = b.
Proof. intros A l1 l2 a b H. apply app_inj_tail in H. tauto. Qed.

Lemma extend_chal : forall l (t : ctup) rto now, spaced l -> N.of_nat (length l) = ct_count t ->
  (l = [] \/ exists l0 k r, l = l0 ++ [(k, ct_time t, r)]) -> ct_count t < 3 -> due rto t now <= now ->
  spaced (l ++ [(Some (ct_count t), now, rto)]).
Proof.
  intros l t rto now SP LN LA C D. unfold due in D. rewrite <- LN in *.
  destruct l as [|[[k1 t1] r1] [|[[k2 t2] r2] [|x y]]].
  - reflexivity.
  - simpl in SP. destruct LA as [LA|[l0 [k [r LA]]]]; [discriminate|].
    change [(k1, t1, r1)] with ([] ++ [(k1, t1, r1)]) in LA. apply snoc_last in LA.
    inversion LA; subst. simpl in *. repeat split; auto.
  - simpl in SP. destruct LA as [LA|[l0 [k [r LA]]]]; [discriminate|].
    change [(k1, t1, r1); (k2, t2, r2)] with ([(k1, t1, r1)] ++ [(k2, t2, r2)]) in LA. apply snoc_last in LA.
    inversion LA; subst. destruct SP as [S1 [S2 S3]]. simpl in *. repeat split; auto.
  - simpl length in C. lia.
Qed.

Lemma extend_fail : forall l (t : ctup) rto now, spaced l -> N.of_nat (length l) = ct_count t ->
  (l = [] \/ exists l0 k r, l = l0 ++ [(k, ct_time t, r)]) -> ct_count t = 3 -> due rto t now <= now ->
  spaced (l ++ [(None, now, rto)]).
Proof.
  intros l t rto now SP LN LA C D. unfold due in D. rewrite C in *.
  destruct l as [|[[k1 t1] r1] [|[[k2 t2] r2] [|[[k3 t3] r3] [|x y]]]]; try (simpl in LN; lia).
  destruct LA as [LA|[l0 [k [r LA]]]]; [discriminate|].
  change [(k1, t1, r1); (k2, t2, r2); (k3, t3, r3)] with ([(k1, t1, r1); (k2, t2, r2)] ++ [(k3, t3, r3)]) in LA.
  apply snoc_last in LA. inversion LA; subst. simpl in SP. destruct SP as [S1 [S2 [S3 [S4 S5]]]].
  simpl. repeat split; auto.
Qed.

Lemma link_same : forall evs evs' next next' t, since (ct_id t) evs' = since (ct_id t) evs -> next <= next' ->
  link evs next t -> link evs' next' t.
Proof.
  intros evs evs' next next' t E L [A [B [C D]]]. split; [exact A|]. split; [lia|]. split; [exact C|].
  rewrite E. exact D.
Qed.

Lemma link_resp : forall evs next t v,
  link evs next t -> link evs next (mk_ct (ct_id t) (ct_req t) (ct_ver t) (ct_fail t) (ct_count t) (ct_time t) (ct_demote t) v (ct_chal t)).
Proof. intros evs next t v H. exact H. Qed.

Lemma since_resp : forall id a e, (e = [] \/ exists i v, e = [EResp i v]) -> since id (a ++ e) = since id a.
Proof. intros id a e [H|[i [v H]]]; subst; rewrite since_app; reflexivity. Qed.

(** The effect of a preparation on the path. *)
Lemma prepare_inv : forall evs p now room wake id, inv evs p -> now < two62 ->
  exists e pad w p', prepare now room wake id p = Some (e, pad, w, p') /\ inv (evs ++ e) p' /\
    cp_next p' = cp_next p.
Proof.
  intros evs p now room wake id I NW. pose proof I as [ND [RT [NX [SP LK]]]]. unfold prepare.
  destruct (ct_find id (cp_tuples p)) as [t|] eqn:FD.
  2:{ repeat eexists; rewrite ?app_nil_r; try assumption. }
  apply find_in in FD. destruct FD as [TI TID].
  rewrite Forall_forall in LK. pose proof (LK t TI) as [L1 [L2 [L3 L4]]].
  destruct (send_chal_cases now room wake p t L1) as [e1 [pad1 [room' [wake' [t1 [mv [SC CS]]]]]]].
  rewrite SC. destruct (send_resp room' p t1) as [[e2 pad2] t2] eqn:SR. apply send_resp_cases in SR.
  assert (E2 : e2 = [] \/ exists i v, e2 = [EResp i v]).
  { destruct SR as [[A _]|[v [_ [A _]]]]; [left; exact A|right; eauto]. }
  exists (e1 ++ e2), (pad1 || pad2), wake', (cp_set (if mv then unlink id (cp_tuples p) ++ [t2] else ct_put t2 (cp_tuples p)) p).
  split; [reflexivity|]. split; [|reflexivity].
  (* the events of other tuples *)
  assert (OT : forall i, i <> ct_id t -> since i ((evs ++ e1) ++ e2) = since i evs).
  { intros i NE. rewrite since_resp by exact E2. rewrite since_app.
    destruct CS as [[A _]|[[v [A _]]|[A _]]]; subst e1; simpl; try reflexivity;
      destruct (ct_id t =? i) eqn:Q; try reflexivity; apply N.eqb_eq in Q; congruence. }
  assert (SM : since (ct_id t) ((evs ++ e1) ++ e2) = since (ct_id t) (evs ++ e1)) by (apply since_resp; exact E2).
  assert (K1 : spaced (since (ct_id t) (evs ++ e1)) /\ link (evs ++ e1) (cp_next p) t1 /\ ct_id t1 = ct_id t).
  { rewrite since_app. destruct CS as [[A [B _]]|[[v [A [B [_ [_ [_ [_ [_ [[O1 [O2 O3]] C]]]]]]]]]|[A [B [_ [_ [_ [[O1 [O2 O3]] C]]]]]]]]; subst e1 t1.
    - simpl. split; [apply SP|]. split; [|reflexivity]. rewrite app_nil_r. exact (LK t TI).
    - simpl. rewrite N.eqb_refl. destruct (L4 O2) as [M1 [M2 M3]].
      rewrite due_thm in O3 by assumption.
      split; [apply extend_chal; auto|]. split; [|reflexivity].
      unfold link. cbn [ct_chal bump ct_id ct_time ct_fail ct_count]. split; [exact L1|]. split; [exact L2|].
      split; [exact NW|]. intros _. rewrite since_app. simpl. rewrite N.eqb_refl.
      rewrite app_length. simpl length. unfold u8. rewrite N.mod_small by lia.
      split; [lia|]. split; [lia|]. right. eauto.
    - simpl. rewrite N.eqb_refl. destruct (L4 O2) as [M1 [M2 M3]].
      rewrite due_thm in O3 by assumption.
      split; [apply extend_fail with (t := t); auto; lia|]. split; [|reflexivity].
      unfold link. cbn [ct_chal drop ct_id ct_time ct_fail ct_count]. split; [exact L1|]. split; [exact L2|].
      split; [exact L3|]. discriminate. }
  destruct K1 as [K1 [K2 K3]].
  assert (ID2 : ct_id t2 = ct_id t).
  { destruct SR as [[_ [A _]]|[v [_ [_ [_ [_ A]]]]]]; subst t2; exact K3. }
  assert (K4 : link ((evs ++ e1) ++ e2) (cp_next p) t2).
  { assert (Q : link ((evs ++ e1) ++ e2) (cp_next p) t1).
    { apply link_same with (evs := evs ++ e1) (next := cp_next p); [rewrite K3; exact SM|lia|exact K2]. }
    destruct SR as [[_ [A _]]|[v [_ [_ [_ [_ A]]]]]]; subst t2; [exact Q|apply link_resp; exact Q]. }
  rewrite app_assoc. unfold inv. cbn [cp_set cp_tuples cp_rto cp_next].
  split; [|split; [exact RT|split; [|split]]].
  - destruct mv; [|rewrite put_ids; exact ND].
    rewrite map_app. simpl. rewrite ID2, TID.
    apply Permutation_NoDup with (l := map ct_id (cp_tuples p)); [|exact ND].
    eapply Permutation_trans; [apply unlink_perm with (id := id); [exact ND|]|].
    + rewrite <- TID. apply in_map. exact TI.
    + apply Permutation_cons_append.
  - intros i Hi. rewrite OT by lia. apply NX. exact Hi.
  - intros i. destruct (N.eq_dec i (ct_id t)) as [Q|Q]; [subst i; rewrite SM; exact K1|rewrite OT by exact Q; apply SP].
  - apply Forall_forall. intros x Hx.
    assert (W : x = t2 \/ (In x (cp_tuples p) /\ ct_id x <> ct_id t)).
    { destruct mv.
      - apply in_app_iff in Hx. destruct Hx as [Hx|[Hx|[]]]; [|left; auto]. apply unlink_in in Hx. rewrite TID. right; exact Hx.
      - apply put_in in Hx. rewrite ID2 in Hx. exact Hx. }
    destruct W as [W|[W1 W2]]; [subst x; exact K4|].
    apply link_same with (evs := evs) (next := cp_next p); [apply OT; exact W2|lia|apply LK; exact W1].
Qed.

Lemma purge_loop_spec : forall now l wake,
  fst (purge_loop now wake l) = filter (fun t => negb (ct_fail t && (ct_demote t <? now))) l.
Proof.
  intros now l. induction l as [|t r IH]; intros wake; simpl; [reflexivity|].
  destruct (ct_fail t); simpl.
  - destruct (ct_demote t <? now); simpl; [apply IH|].
    destruct (purge_loop now (if ct_demote t <? wake then ct_demote t else wake) r) as [a b] eqn:E.
    simpl. f_equal. rewrite <- (IH (if ct_demote t <? wake then ct_demote t else wake)), E. reflexivity.
  - destruct (purge_loop now wake r) as [a b] eqn:E. simpl. f_equal. rewrite <- (IH wake), E. reflexivity.
Qed.

Theorem purge_thm : forall now wake p t r, cp_tuples p = t :: r ->
  cp_tuples (fst (purge now wake p)) = t :: filter (fun t => negb (ct_fail t && (ct_demote t <? now))) r.
Proof.
  intros now wake p t r H. unfold purge. rewrite H. destruct (purge_loop now wake r) as [a b] eqn:E.
  simpl. f_equal. rewrite <- purge_loop_spec with (wake := wake), E. reflexivity.
Qed.

Lemma filter_nodup : forall f l, NoDup (map ct_id l) -> NoDup (map ct_id (filter f l)).
Proof.
  intros f l. induction l as [|t r IH]; simpl; intros H; [constructor|]. inversion H; subst.
  destruct (f t); [|auto]. simpl. constructor; [|auto].
  intros C. apply in_map_iff in C. destruct C as [x [C1 C2]]. apply filter_In in C2. destruct C2 as [C2 _].
  match goal with K : ~ In _ _ |- _ => apply K end. rewrite <- C1. apply in_map. exact C2.
Qed.

(** Changes that keep what was sent. *)
Lemma inv_tuples : forall evs p l, inv evs p -> NoDup (map ct_id l) -> Forall (link evs (cp_next p)) l ->
  inv evs (cp_set l p).
Proof. intros evs p l [A [B [C [D E]]]] F G. unfold inv. simpl. auto. Qed.

Lemma step_inv : forall evs p o, inv evs p -> op_ok o ->
  exists e p', cstep o p = Some (e, p') /\ inv (evs ++ e) p'.
Proof.
  intros evs p o I OK. pose proof I as [ND [RT [NX [SP LK]]]]. destruct o; simpl in *.
  - (* add *) exists [], (add_tuple now chal p). split; [reflexivity|]. rewrite app_nil_r. destruct OK as [O1 O2].
    unfold inv, add_tuple. simpl. split; [|split; [exact RT|split; [|split; [exact SP|]]]].
    + rewrite map_app. simpl. apply NoDup_Add with (a := cp_next p) (l := map ct_id (cp_tuples p)).
      { rewrite <- (app_nil_r (map ct_id (cp_tuples p))) at 1. apply Add_app. }
      split; [exact ND|]. intros C. apply in_map_iff in C. destruct C as [x [C1 C2]].
      rewrite Forall_forall in LK. destruct (LK x C2) as [_ [Q _]]. lia.
    + intros i Hi. apply NX. lia.
    + apply Forall_app. split.
      * eapply Forall_impl; [|exact LK]. intros a Ha. apply link_same with (evs := evs) (next := cp_next p); [reflexivity|lia|exact Ha].
      * constructor; [|constructor]. unfold link. simpl. split; [exact O2|]. split; [lia|]. split; [exact O1|].
        intros _. rewrite NX by lia. simpl. split; [reflexivity|]. split; [lia|left; reflexivity].
  - (* ask *) exists [], (ask id v p). split; [reflexivity|]. rewrite app_nil_r. apply inv_tuples; [exact I| |].
    + rewrite map_map. erewrite map_ext; [exact ND|]. intros a. destruct (ct_id a =? id); reflexivity.
    + apply Forall_map. eapply Forall_impl; [|exact LK]. intros a Ha. destruct (ct_id a =? id); exact Ha.
  - (* answer *) exists [], (answer id p). split; [reflexivity|]. rewrite app_nil_r. unfold answer.
    destruct (ct_find id (cp_tuples p)) as [t|] eqn:FD; [|exact I]. destruct (ct_ver t); [exact I|].
    apply find_in in FD. destruct FD as [TI TID]. apply inv_tuples; [exact I| |].
    + simpl. rewrite TID. apply Permutation_NoDup with (l := map ct_id (cp_tuples p)); [|exact ND].
      apply unlink_perm; [exact ND|]. rewrite <- TID. apply in_map. exact TI.
    + rewrite Forall_forall in *. intros x [Hx|Hx]; [subst x; exact (LK t TI)|]. apply unlink_in in Hx. apply LK. tauto.
  - (* renew *) unfold renew. destruct (cp_tuples p) as [|t r] eqn:TL.
    { exists [], p. rewrite app_nil_r. auto. }
    destruct (negb (ct_req t) || ct_ver t).
    2:{ exists [], p. rewrite app_nil_r. auto. }
    destruct OK as [O1 O2]. eexists _, _. split; [reflexivity|].
    inversion LK as [|a b LT LR]; subst. inversion ND as [|a b NT NR]; subst. destruct LT as [L1 [L2 [L3 L4]]].
    assert (OT : forall i, i <> ct_id t -> since i (evs ++ [EReset (ct_id t)]) = since i evs).
    { intros i Hi. rewrite since_app. simpl. destruct (ct_id t =? i) eqn:Q; [apply N.eqb_eq in Q; congruence|reflexivity]. }
    assert (SM : since (ct_id t) (evs ++ [EReset (ct_id t)]) = []).
    { rewrite since_app. simpl. rewrite N.eqb_refl. reflexivity. }
    unfold inv. simpl. split; [exact ND|]. split; [exact RT|]. split; [|split].
    + intros i Hi. rewrite OT by lia. apply NX. exact Hi.
    + intros i. destruct (N.eq_dec i (ct_id t)) as [Q|Q]; [subst i; rewrite SM; exact Logic.I|rewrite OT by exact Q; apply SP].
    + constructor.
      * unfold link. simpl. split; [exact O2|]. split; [exact L2|]. split; [exact O1|]. intros _. rewrite SM.
        simpl. split; [reflexivity|]. split; [lia|left; reflexivity].
      * rewrite Forall_forall in *. intros x Hx. apply link_same with (evs := evs) (next := cp_next p); [|lia|apply LR; exact Hx].
        apply OT. intros C. apply NT. rewrite <- C. apply in_map. exact Hx.
  - (* fail_first *) exists [], (fail_first p). split; [reflexivity|]. rewrite app_nil_r. unfold fail_first.
    destruct (cp_tuples p) as [|t r] eqn:TL; [exact I|]. inversion LK as [|a b LT LR]; subst.
    apply inv_tuples; [exact I|exact ND|]. constructor; [|exact LR]. destruct LT as [L1 [L2 [L3 L4]]].
    unfold link. simpl. repeat split; auto; discriminate.
  - (* prepare *) destruct (prepare_inv evs p now room max64 id I OK) as [e [pad [w [p' [A [B _]]]]]].
    rewrite A. exists e, p'. auto.
  - (* purge *) eexists _, _. split; [reflexivity|]. rewrite app_nil_r.
    destruct (cp_tuples p) as [|t r] eqn:TL.
    { unfold purge. rewrite TL. exact I. }
    pose proof (purge_thm now max64 p t r TL) as Q.
    assert (E : fst (purge now max64 p) = cp_set (t :: filter (fun t => negb (ct_fail t && (ct_demote t <? now))) r) p).
    { rewrite <- Q. unfold purge. rewrite TL. destruct (purge_loop now max64 r). reflexivity. }
    rewrite E. inversion LK as [|a b LT LR]; subst. inversion ND as [|a b NT NR]; subst. apply inv_tuples; [exact I| |].
    + simpl. constructor; [|apply filter_nodup; exact NR]. intros C. apply NT. apply in_map_iff in C.
      destruct C as [x [C1 C2]]. apply filter_In in C2. rewrite <- C1. apply in_map. tauto.
    + constructor; [exact LT|]. rewrite Forall_forall in *. intros x Hx. apply filter_In in Hx. apply LR. tauto.
  - (* rto *) eexists _, _. split; [reflexivity|]. rewrite app_nil_r. unfold inv. simpl. auto.
  - (* bytes *) eexists _, _. split; [reflexivity|]. rewrite app_nil_r. unfold inv. simpl. auto.
Qed.

Lemma run_inv : forall l evs p, inv evs p -> Forall op_ok l ->
  exists e p', crun p l = Some (e, p') /\ inv (evs ++ e) p'.
Proof.
  induction l as [|o l IH]; intros evs p I OK; simpl.
  - exists [], p. rewrite app_nil_r. auto.
  - inversion OK; subst. destruct (step_inv evs p o I) as [e [p' [A B]]]; [assumption|]. rewrite A.
    destruct (IH (evs ++ e) p' B) as [e' [p'' [C D]]]; [assumption|]. rewrite C.
    exists (e ++ e'), p''. rewrite app_assoc. auto.
Qed.

Lemma start_inv : forall p, ch_start p -> inv [] p.
Proof.
  intros p [A B]. unfold inv. rewrite A. simpl. split; [constructor|]. split; [exact B|].
  split; [reflexivity|]. split; [intros; exact I|constructor].
Qed.

Theorem spaced_thm : forall l p, ch_start p -> Forall op_ok l ->
  exists evs p', crun p l = Some (evs, p') /\ forall id, spaced (since id evs).
Proof.
  intros l p S OK. destruct (run_inv l [] p (start_inv p S) OK) as [e [p' [A B]]].
  exists e, p'. split; [exact A|]. destruct B as [_ [_ [_ [B _]]]]. exact B.
Qed.

(** The tuples of a path after any history. *)
Lemma reach_inv : forall l p evs p', ch_start p -> Forall op_ok l -> crun p l = Some (evs, p') -> inv evs p'.
Proof.
  intros l p evs p' S OK R. destruct (run_inv l [] p (start_inv p S) OK) as [e [q [A B]]].
  rewrite R in A. inversion A; subst. exact B.
Qed.

(** ** The list of tuples *)
Theorem order_thm : forall l p evs p1 now room wake id e pad w p2,
  ch_start p -> Forall op_ok l -> crun p l = Some (evs, p1) ->
  prepare now room wake id p1 = Some (e, pad, w, p2) ->
  Permutation (map ct_id (cp_tuples p2)) (map ct_id (cp_tuples p1)) /\
  filter (fun t => negb (ct_id t =? id)) (cp_tuples p2) = filter (fun t => negb (ct_id t =? id)) (cp_tuples p1) /\
  (forall t r, In (EFail id t r) e -> exists l0 x, cp_tuples p2 = l0 ++ [x] /\ ct_id x = id /\ ct_fail x = true) /\
  ((forall t r, ~ In (EFail id t r) e) -> map ct_id (cp_tuples p2) = map ct_id (cp_tuples p1)).
Proof.
  intros l p evs p1 now room wake id e pad w p2 S OK R P.
  pose proof (reach_inv _ _ _ _ S OK R) as [ND [RT [NX [SP LK]]]]. unfold prepare in P.
  destruct (ct_find id (cp_tuples p1)) as [t|] eqn:FD.
  2:{ inversion P; subst. repeat split; auto. intros ? ? []. }
  apply find_in in FD. destruct FD as [TI TID]. rewrite Forall_forall in LK. pose proof (LK t TI) as [L1 _].
  destruct (send_chal_cases now room wake p1 t L1) as [e1 [pad1 [room' [wake' [t1 [mv [SC CS]]]]]]].
  rewrite SC in P. destruct (send_resp room' p1 t1) as [[e2 pad2] t2] eqn:SR. apply send_resp_cases in SR.
  inversion P; subst e pad w p2; clear P. cbn [cp_set cp_tuples].
  assert (E2 : forall t r, ~ In (EFail id t r) e2).
  { intros a b. destruct SR as [[A _]|[v [_ [A _]]]]; subst e2; simpl; [tauto|]. intros [C|[]]; discriminate. }
  assert (ID2 : ct_id t2 = id).
  { assert (Q : ct_id t1 = id) by (destruct CS as [[_ [B _]]|[[v [_ [B _]]]|[_ [B _]]]]; subst t1; exact TID).
    destruct SR as [[_ [A _]]|[v [_ [_ [_ [_ A]]]]]]; subst t2; exact Q. }
  assert (MV : mv = false /\ (forall t r, ~ In (EFail id t r) e1) \/
               mv = true /\ ct_fail t2 = true /\ exists t r, In (EFail id t r) e1).
  { destruct CS as [[A [B [C _]]]|[[v [A [B [C _]]]]|[A [B [C _]]]]]; subst e1 t1 mv.
    - left. split; [reflexivity|]. intros a b [].
    - left. split; [reflexivity|]. intros a b [Q|[]]; discriminate.
    - right. split; [reflexivity|]. split; [|exists now, (cp_rto p1); rewrite TID; left; reflexivity].
      destruct SR as [[_ [A _]]|[v [_ [_ [_ [_ A]]]]]]; subst t2; reflexivity. }
  destruct MV as [[M1 M2]|[M1 [M2 M3]]]; subst mv.
  - split; [rewrite put_ids; apply Permutation_refl|]. split; [|split].
    + unfold ct_put. rewrite ID2. clear - ID2. induction (cp_tuples p1) as [|a r IH]; [reflexivity|]. simpl.
      destruct (ct_id a =? id) eqn:Q.
      * rewrite ID2, N.eqb_refl. simpl. exact IH.
      * rewrite Q. simpl. rewrite IH. reflexivity.
    + intros a b C. apply in_app_iff in C. destruct C as [C|C]; [destruct (M2 _ _ C)|destruct (E2 _ _ C)].
    + intros _. apply put_ids.
  - split; [|split; [|split]].
    + rewrite map_app. simpl. rewrite ID2. apply Permutation_sym.
      eapply Permutation_trans; [apply unlink_perm with (id := id); [exact ND|rewrite <- TID; apply in_map; exact TI]|].
      apply Permutation_cons_append.
    + rewrite filter_app. simpl. rewrite ID2, N.eqb_refl. simpl. rewrite app_nil_r. rewrite unlink_filter.
      clear. induction (cp_tuples p1) as [|a r IH]; [reflexivity|]. simpl.
      destruct (ct_id a =? id) eqn:Q; simpl; [exact IH|]. rewrite Q. simpl. rewrite IH. reflexivity.
    + intros a b _. exists (unlink id (cp_tuples p1)), t2. auto.
    + intros C. destruct M3 as [a [b M3]]. destruct (C a b). apply in_app_iff. left. exact M3.
Qed.
