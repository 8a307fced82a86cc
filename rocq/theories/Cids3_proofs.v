(** Proofs about the stored connection ids: no id is used by two tuples. *)
From Verif Require Import Base Tac Mem Varint_model Cids_model Cids_spec Cids_proofs Cids2_proofs.
From Coq Require Import Lia Permutation.

Definition tused (l : list tuple) : list N := flat_map (fun t => match tu_cid t with Some a => [a] | None => [] end) l.
Definition pused (l : list path) : list N := flat_map (fun p => tused (pa_tuples p)) l.
Definition flat (cn : conn) : list rcid := flat_map sh_list (cn_stashes cn).

Lemma used_eq cn : used cn = pused (cn_paths cn).
Proof. reflexivity. Qed.

Lemma tused_app a b : tused (a ++ b) = tused a ++ tused b.
Proof. apply flat_map_app. Qed.

Lemma pused_app a b : pused (a ++ b) = pused a ++ pused b.
Proof. apply flat_map_app. Qed.

(* Replacing an element of a list. *)
Lemma nth_split_at {A} (l : list A) i x : nth_error l i = Some x -> l = firstn i l ++ x :: skipn (i + 1) l.
Proof.
  revert i. induction l as [| y l IH]; intros [| i] H; cbn in *; try discriminate.
  - injection H as ->. reflexivity.
  - f_equal. apply IH. exact H.
Qed.

Lemma perm_nth l i p : nth_error l i = Some p -> Permutation (pused l) (tused (pa_tuples p) ++ pused (firstn i l ++ skipn (i + 1) l)).
Proof.
  intros H. rewrite (nth_split_at _ _ _ H) at 1. rewrite !pused_app. cbn [pused flat_map]. fold (pused (skipn (i + 1) l)).
  rewrite !app_assoc. apply Permutation_app_tail. apply Permutation_app_comm.
Qed.

Lemma perm_set l i p : Permutation (pused (set_nth l i p)) (tused (pa_tuples p) ++ pused (firstn i l ++ skipn (i + 1) l)).
Proof.
  unfold set_nth. rewrite !pused_app. cbn [pused flat_map]. fold (pused (skipn (i + 1) l)).
  rewrite !app_assoc. apply Permutation_app_tail. apply Permutation_app_comm.
Qed.

Lemma nodup_app_l {A} (a b : list A) : NoDup (a ++ b) -> NoDup a.
Proof.
  induction a as [| x a IH]; cbn [app]; intros H; [constructor |]. inversion H as [| y m Hy Hm]; subst.
  constructor; [intros Hc; apply Hy; apply in_app_iff; left; exact Hc | exact (IH Hm)].
Qed.

(* The ids in use and the counts. *)
Definition uinv (cn : conn) : Prop :=
  NoDup (used cn) /\ (forall a, In a (used cn) -> a < cn_next cn) /\
  (forall e, In e (flat cn) -> In (rc_addr e) (used cn) -> 1 <= rc_refs e).

(* Operations that take no id. *)
Definition um (cn cn' : conn) : Prop :=
  (exists x, Permutation (used cn) (used cn' ++ x)) /\ cn_next cn <= cn_next cn' /\
  (forall e', In e' (flat cn') -> In (rc_addr e') (used cn') -> exists e, In e (flat cn) /\ rc_addr e = rc_addr e' /\ rc_refs e <= rc_refs e').

Lemma um_used cn cn' a : um cn cn' -> In a (used cn') -> In a (used cn).
Proof.
  intros ((x & P) & _) H. apply (Permutation_in _ (Permutation_sym P)). apply in_app_iff. left. exact H.
Qed.

Lemma um_refl cn : um cn cn.
Proof.
  split; [exists []; rewrite app_nil_r; apply Permutation_refl | split; [apply N.le_refl |]].
  intros e He _. exists e. split; [exact He | split; [reflexivity | apply N.le_refl]].
Qed.

Lemma um_trans a b c : um a b -> um b c -> um a c.
Proof.
  intros A B. pose proof A as ((x & P) & A2 & A3). pose proof B as ((y & Q) & B2 & B3). split; [| split].
  - exists (y ++ x). rewrite app_assoc. rewrite P. apply Permutation_app_tail. exact Q.
  - lia.
  - intros e He Hu. destruct (B3 e He Hu) as (e1 & H1 & H2 & H3).
    destruct (A3 e1 H1) as (e0 & G1 & G2 & G3); [rewrite H2; exact (um_used _ _ _ B Hu) |].
    exists e0. split; [exact G1 | split; [congruence | lia]].
Qed.

Lemma uinv_um cn cn' : uinv cn -> um cn cn' -> uinv cn'.
Proof.
  intros (U1 & U2 & U3) M. pose proof M as ((x & P) & M2 & M3). split; [| split].
  - apply (Permutation_NoDup P) in U1. exact (nodup_app_l _ _ U1).
  - intros a Ha. specialize (U2 a (um_used _ _ _ M Ha)). lia.
  - intros e He Hu. destruct (M3 e He Hu) as (e0 & G1 & G2 & G3).
    specialize (U3 e0 G1). rewrite G2 in U3. specialize (U3 (um_used _ _ _ M Hu)). lia.
Qed.

Lemma um_paths cn l x : Permutation (used cn) (pused l ++ x) -> um cn (set_paths cn l).
Proof.
  intros P. split; [exists x; exact P | split; [apply N.le_refl |]].
  intros e He _. exists e. split; [exact He | split; [reflexivity | apply N.le_refl]].
Qed.

Lemma um_alloc cn : um cn (alloc cn).
Proof.
  split; [exists []; rewrite app_nil_r; apply Permutation_refl | split; [cbn; lia |]].
  intros e He _. exists e. split; [exact He | split; [reflexivity | apply N.le_refl]].
Qed.

Lemma um_retire cn p q : um cn (add_retire cn p q).
Proof.
  split; [exists []; rewrite app_nil_r; apply Permutation_refl | split; [apply N.le_refl |]].
  intros e He _. exists e. split; [exact He | split; [reflexivity | apply N.le_refl]].
Qed.

Lemma um_retires q p : forall cn, um cn (fold_left (fun cn x => add_retire cn p x) q cn).
Proof.
  induction q as [| x q IH]; intros cn; cbn [fold_left]; [apply um_refl |].
  eapply um_trans; [apply um_retire | apply IH].
Qed.

Lemma um_stashes cn l :
  (forall e', In e' (flat_map sh_list l) -> In (rc_addr e') (used cn) -> exists e, In e (flat cn) /\ rc_addr e = rc_addr e' /\ rc_refs e <= rc_refs e') ->
  um cn (set_stashes cn l).
Proof.
  intros H. split; [exists []; rewrite app_nil_r; apply Permutation_refl | split; [apply N.le_refl |]]. exact H.
Qed.

Lemma flat_map_rcid cn a f : flat (map_rcid a f cn) = map (fun e => if rc_addr e =? a then f e else e) (flat cn).
Proof.
  unfold flat, map_rcid. cbn [set_stashes cn_stashes]. induction (cn_stashes cn) as [| s l IH]; [reflexivity |].
  cbn [map flat_map sh_list]. rewrite map_app, IH. reflexivity.
Qed.

Lemma um_map_rcid cn a f : (forall e, rc_addr (f e) = rc_addr e /\ rc_refs e <= rc_refs (f e)) -> um cn (map_rcid a f cn).
Proof.
  intros Hf. split; [exists []; rewrite app_nil_r; apply Permutation_refl | split; [apply N.le_refl |]].
  intros e' He _. rewrite flat_map_rcid in He. apply in_map_iff in He. destruct He as (e & <- & He). exists e.
  split; [exact He |]. destruct (rc_addr e =? a); [destruct (Hf e); split; [symmetry |]; assumption | split; [reflexivity | apply N.le_refl]].
Qed.

Lemma in_flat_map_stash cn p f e :
  In e (flat (map_stash p f cn)) -> exists s, In s (cn_stashes cn) /\ ((sh_path s = p /\ In e (sh_list (f s))) \/ (sh_path s <> p /\ In e (sh_list s))).
Proof.
  unfold flat, map_stash. cbn [set_stashes cn_stashes]. intros H. apply in_flat_map in H. destruct H as (x & Hx & He).
  apply in_map_iff in Hx. destruct Hx as (s & <- & Hs). exists s. split; [exact Hs |].
  destruct (N.eqb_spec (sh_path s) p) as [E | E]; [left | right]; auto.
Qed.

Lemma in_flat cn s e : In s (cn_stashes cn) -> In e (sh_list s) -> In e (flat cn).
Proof. intros Hs He. apply in_flat_map. exists s. auto. Qed.

Lemma um_remove cn p a : um cn (remove_rcid cn p a).
Proof.
  split; [exists []; rewrite app_nil_r; apply Permutation_refl | split; [apply N.le_refl |]].
  intros e He _. apply in_flat_map_stash in He. destruct He as (s & Hs & He). exists e. split; [| split; [reflexivity | apply N.le_refl]].
  apply (in_flat cn s e Hs). destruct He as [(_ & He) | (_ & He)]; [| exact He]. cbn [sh_list] in He. apply filter_In in He. exact (proj1 He).
Qed.

Lemma um_delete cn p : um cn (delete_stash cn p).
Proof.
  apply um_stashes. intros e He _. exists e. split; [| split; [reflexivity | apply N.le_refl]].
  apply in_flat_map in He. destruct He as (s & Hs & He). apply filter_In in Hs. exact (in_flat cn s e (proj1 Hs) He).
Qed.

Lemma retire_below_refs l b e' : In e' (fst (retire_below l b)) -> exists e, In e l /\ rc_addr e = rc_addr e' /\ rc_refs e <= rc_refs e'.
Proof.
  induction l as [| e l IH]; cbn [retire_below]; [intros [] |].
  destruct (retire_below l b) as [r' q]. cbn [fst] in IH. cbv zeta.
  set (e1 := if rc_seq e <? b then set_removal e else e).
  assert (K : rc_addr e1 = rc_addr e /\ rc_refs e1 = rc_refs e) by (unfold e1; destruct (rc_seq e <? b); split; reflexivity).
  destruct K as (K1 & K2).
  assert (Hl : In e' r' -> exists x, In x (e :: l) /\ rc_addr x = rc_addr e' /\ rc_refs x <= rc_refs e').
  { intros Hi. destruct (IH Hi) as (x & X1 & X2). exists x. split; [right; exact X1 | exact X2]. }
  destruct (rc_removal e1 && (rc_refs e1 =? 0)); cbn [fst].
  - destruct (rc_acked e1); cbn [fst]; [exact Hl |].
    intros [<- | Hi]; [| exact (Hl Hi)]. exists e. split; [left; reflexivity |]. cbn [set_sent rc_addr rc_refs]. split; [congruence | lia].
  - intros [<- | Hi]; [| exact (Hl Hi)]. exists e. split; [left; reflexivity |]. split; [congruence | lia].
Qed.

(* The first tuple of a path. *)
Lemma map_first_eq cn i f p t r : nth_error (cn_paths cn) i = Some p -> pa_tuples p = t :: r ->
  map_first cn i f = set_paths cn (set_nth (cn_paths cn) i (set_tuples p (f t :: r))).
Proof. intros H1 H2. unfold map_first. rewrite H1, H2. reflexivity. Qed.

Lemma um_first_same cn i f : (forall t, tu_cid (f t) = tu_cid t) -> um cn (map_first cn i f).
Proof.
  intros Hf. unfold map_first. destruct (nth_error (cn_paths cn) i) as [p |] eqn:E; [| apply um_refl].
  destruct (pa_tuples p) as [| t r] eqn:Et; [apply um_refl |]. apply (um_paths _ _ []). rewrite app_nil_r.
  rewrite used_eq, (perm_nth _ _ _ E), Et. symmetry. rewrite perm_set. cbn [set_tuples pa_tuples tused flat_map]. rewrite Hf. reflexivity.
Qed.

Lemma um_first_none cn i : um cn (map_first cn i (set_cid None)).
Proof.
  unfold map_first. destruct (nth_error (cn_paths cn) i) as [p |] eqn:E; [| apply um_refl].
  destruct (pa_tuples p) as [| t r] eqn:Et; [apply um_refl |].
  apply (um_paths _ _ (match tu_cid t with Some a => [a] | None => [] end)).
  rewrite used_eq, (perm_nth _ _ _ E), Et, perm_set. cbn [set_tuples pa_tuples tused flat_map set_cid tu_cid app].
  rewrite <- app_assoc. apply Permutation_app_comm.
Qed.

Lemma first_tuple_eq p t : first_tuple p = Some t -> exists r, pa_tuples p = t :: r.
Proof. unfold first_tuple. destruct (pa_tuples p) as [| x r]; cbn; [discriminate |]. intros [= ->]. exists r. reflexivity. Qed.

(* Giving an id back. *)
Lemma um_dereference cn i cn' : uinv cn -> dereference cn i = Some cn' -> um cn cn'.
Proof.
  intros U. unfold dereference. intros H. ob H p Ep. ob H t Et. ob H cn1 E1. apply some_inj in H. subst cn'.
  destruct (first_tuple_eq _ _ Et) as (r & Er).
  destruct (tu_cid t) as [a |] eqn:Ea; [| apply some_inj in E1; subst; apply um_first_none].
  ob E1 e Ee. destruct (rc_refs e <=? 1).
  - apply some_inj in E1. subst cn1. eapply um_trans; [| apply um_first_none].
    assert (Hx : um cn (if rc_sent e then cn else map_rcid a set_sent (add_retire cn (if cn_mp cn then pa_id p else 0) (rc_seq e)))).
    { destruct (rc_sent e); [apply um_refl |]. eapply um_trans; [apply um_retire |]. apply um_map_rcid. intros x. split; [reflexivity | apply N.le_refl]. }
    destruct (rc_acked e); [| exact Hx]. eapply um_trans; [exact Hx | apply um_remove].
  - apply some_inj in E1. subst cn1.
    assert (Hpaths : cn_paths (map_rcid a (set_refs (rc_refs e - 1)) cn) = cn_paths cn) by reflexivity.
    rewrite (map_first_eq _ _ _ p t r) by assumption.
    assert (P : Permutation (used cn) (a :: tused r ++ pused (firstn i (cn_paths cn) ++ skipn (i + 1) (cn_paths cn)))).
    { rewrite used_eq, (perm_nth _ _ _ Ep), Er. cbn [tused flat_map]. rewrite Ea. reflexivity. }
    assert (Q : Permutation (pused (set_nth (cn_paths cn) i (set_tuples p (set_cid None t :: r)))) (tused r ++ pused (firstn i (cn_paths cn) ++ skipn (i + 1) (cn_paths cn)))).
    { rewrite perm_set. reflexivity. }
    split; [| split; [apply N.le_refl |]].
    + exists [a]. rewrite used_eq. cbn [set_paths cn_paths]. rewrite Hpaths, Q, P. apply Permutation_cons_append.
    + intros e' He Hu. rewrite used_eq in Hu. cbn [set_paths cn_paths] in Hu. rewrite Hpaths in Hu.
      apply (Permutation_in _ Q) in Hu. destruct U as (U1 & _). apply (Permutation_NoDup P) in U1. inversion U1 as [| z m Hz Hm]; subst.
      change (flat (set_paths (map_rcid a (set_refs (rc_refs e - 1)) cn) _)) with (flat (map_rcid a (set_refs (rc_refs e - 1)) cn)) in He.
      rewrite flat_map_rcid in He. apply in_map_iff in He. destruct He as (x & <- & Hx).
      destruct (N.eqb_spec (rc_addr x) a) as [Exa | Exa].
      * exfalso. cbn [set_refs rc_addr] in Hu. rewrite Exa in Hu. contradiction.
      * exists x. split; [exact Hx | split; [reflexivity | apply N.le_refl]].
Qed.

(* After that the first tuple has no id. *)
Lemma dereference_first cn i cn' p :
  dereference cn i = Some cn' -> nth_error (cn_paths cn) i = Some p ->
  exists t r, pa_tuples p = t :: r /\ cn_paths cn' = set_nth (cn_paths cn) i (set_tuples p (set_cid None t :: r)).
Proof.
  unfold dereference. intros H Ep. rewrite Ep in H. cbn [obind] in H. ob H t Et. ob H c1 E1. apply some_inj in H. subst cn'.
  destruct (first_tuple_eq _ _ Et) as (r & Er). exists t, r. split; [exact Er |].
  assert (Hp : cn_paths c1 = cn_paths cn).
  { destruct (tu_cid t) as [a |]; [| apply some_inj in E1; subst; reflexivity]. ob E1 e Ee.
    destruct (rc_refs e <=? 1); apply some_inj in E1; subst c1; [| reflexivity].
    destruct (rc_acked e), (rc_sent e); reflexivity. }
  rewrite (map_first_eq _ _ _ p t r); [| rewrite Hp; exact Ep | exact Er]. cbn [set_paths cn_paths]. rewrite Hp. reflexivity.
Qed.

Lemma nth_set {A} (l : list A) i x y : nth_error l i = Some x -> nth_error (set_nth l i y) i = Some y.
Proof.
  intros H. unfold set_nth. rewrite nth_error_app2; rewrite firstn_length_le; try (apply nth_error_Some in H || idtac); auto.
  - rewrite Nat.sub_diag. reflexivity.
  - assert (nth_error l i <> None) by congruence. apply nth_error_Some in H0. lia.
  - assert (nth_error l i <> None) by congruence. apply nth_error_Some in H0. lia.
Qed.

Lemma set_set {A} (l : list A) i x y z : nth_error l i = Some x -> set_nth (set_nth l i y) i z = set_nth l i z.
Proof.
  intros H. unfold set_nth. assert (Hl : (i < length l)%nat) by (apply nth_error_Some; congruence).
  assert (Hf : length (firstn i l) = i) by (apply firstn_length_le; lia).
  f_equal.
  - rewrite firstn_app, Hf, Nat.sub_diag. cbn [firstn]. rewrite app_nil_r. rewrite firstn_firstn, Nat.min_id. reflexivity.
  - f_equal. rewrite skipn_app, Hf. rewrite skipn_all2 by lia. replace (i + 1 - i)%nat with 1%nat by lia. reflexivity.
Qed.

(* Taking an id that nobody uses. *)
Lemma uinv_take cn l a :
  uinv cn -> ~ In a (used cn) -> a < cn_next cn -> Permutation (pused l) (a :: used cn) ->
  uinv (map_rcid a (fun x => set_refs (rc_refs x + 1) x) (set_paths cn l)).
Proof.
  intros (U1 & U2 & U3) Ha Hn P. set (c := map_rcid _ _ _).
  assert (Hused : used c = pused l) by reflexivity. split; [| split].
  - rewrite Hused. symmetry in P. apply (Permutation_NoDup P). constructor; assumption.
  - intros x Hx. rewrite Hused in Hx. apply (Permutation_in _ P) in Hx. change (cn_next c) with (cn_next cn). destruct Hx as [<- | Hx]; auto.
  - intros e He Hu. unfold c in He. rewrite flat_map_rcid in He. apply in_map_iff in He. destruct He as (x & <- & Hx).
    destruct (N.eqb_spec (rc_addr x) a) as [E | E]; [cbn [set_refs rc_refs]; lia |].
    rewrite Hused in Hu. apply (Permutation_in _ P) in Hu. destruct Hu as [Hu | Hu]; [congruence |]. apply U3; assumption.
Qed.

Definition nonempty (cn : conn) : Prop := forall e, In e (flat cn) -> blen (rc_id e) <> 0.

Lemma get_cnxid_spec l e : get_cnxid l = Some e -> In e l /\ (blen (rc_id e) = 0 \/ (rc_refs e = 0 /\ rc_removal e = false)).
Proof.
  unfold get_cnxid. intros H. apply find_some in H. destruct H as (H1 & H2). split; [exact H1 |].
  apply Bool.orb_true_iff in H2. destruct H2 as [H2 | H2]; [left; apply N.eqb_eq; exact H2 | right].
  apply andb_prop in H2. destruct H2 as (H2 & H3). split; [apply N.eqb_eq; exact H2 | destruct (rc_removal e); [discriminate H3 | reflexivity]].
Qed.

Lemma obtained cn p e : nonempty cn -> uinv cn -> obtain_stashed cn p = Some e ->
  In e (flat cn) /\ rc_refs e = 0 /\ rc_removal e = false /\ ~ In (rc_addr e) (used cn).
Proof.
  intros Hne (_ & _ & U3) H. unfold obtain_stashed in H. destruct (find_stash cn p) as [s |] eqn:Ef; [| discriminate H].
  destruct (get_cnxid_spec _ _ H) as (H1 & H2). pose proof (in_flat cn s e (proj1 (find_stash_in _ _ _ Ef)) H1) as Hi.
  destruct H2 as [H2 | (H2 & H3)]; [exfalso; exact (Hne e Hi H2) |]. split; [exact Hi |]. split; [exact H2 |]. split; [exact H3 |].
  intros Hu. specialize (U3 e Hi Hu). lia.
Qed.

Definition below (cn : conn) : Prop := forall e, In e (flat cn) -> rc_addr e < cn_next cn.

Lemma uinv_renew cn i ok cn' : nonempty cn -> below cn -> uinv cn -> renew_path cn i = Some (ok, cn') -> uinv cn'.
Proof.
  intros Hne Hb U. unfold renew_path. intros H. ob H p Ep. ob H t Et. cbv zeta in H.
  destruct (find_stash cn (if cn_mp cn then pa_id p else 0)) as [s |] eqn:Ef; [| apply some_pair_inj in H; destruct H as (_ & <-); exact U].
  ob H cur Ec.
  destruct (_ || cn_mig_local cn); [apply some_pair_inj in H; destruct H as (_ & <-); exact U |].
  destruct (get_cnxid (sh_list s)) as [e |] eqn:Eg; [| apply some_pair_inj in H; destruct H as (_ & <-); exact U].
  destruct (match cur with Some c => rc_seq e =? rc_seq c | None => false end); [apply some_pair_inj in H; destruct H as (_ & <-); exact U |].
  ob H c1 E1. apply some_pair_inj in H. destruct H as (_ & <-).
  assert (Ho : obtain_stashed cn (if cn_mp cn then pa_id p else 0) = Some e) by (unfold obtain_stashed; rewrite Ef; exact Eg).
  destruct (obtained _ _ _ Hne U Ho) as (O1 & O2 & O3 & O4).
  pose proof (um_dereference _ _ _ U E1) as M. pose proof (uinv_um _ _ U M) as U1.
  destruct (dereference_first _ _ _ _ E1 Ep) as (t' & r & Er & Epaths).
  assert (En : nth_error (cn_paths c1) i = Some (set_tuples p (set_cid None t' :: r))) by (rewrite Epaths; exact (nth_set _ _ _ _ Ep)).
  rewrite (map_first_eq c1 i _ _ (set_cid None t') r En eq_refl).
  apply uinv_take.
  - exact U1.
  - intros Hc. apply O4. exact (um_used _ _ _ M Hc).
  - specialize (Hb e O1). destruct M as (_ & M2 & _). lia.
  - rewrite perm_set. cbn [set_tuples pa_tuples tused flat_map set_cid tu_cid app]. rewrite used_eq. rewrite (perm_nth _ _ _ En).
    cbn [set_tuples pa_tuples tused flat_map set_cid tu_cid app]. reflexivity.
Qed.

Lemma nonempty_ext cn cn' : nonempty cn -> ext cn cn' -> nonempty cn'.
Proof.
  intros H (E & _) e He. destruct (shrinks_in _ _ _ (sle_flat _ _ E) He) as (x & Hx & _ & _ & K & _). rewrite K. exact (H x Hx).
Qed.

Lemma below_ext cn cn' : below cn -> ext cn cn' -> below cn'.
Proof.
  intros H (E & _ & _ & _ & L) e He. destruct (shrinks_in _ _ _ (sle_flat _ _ E) He) as (x & Hx & K & _). rewrite K. specialize (H x Hx). lia.
Qed.

Lemma um_set_path cn i p q x :
  nth_error (cn_paths cn) i = Some p -> Permutation (tused (pa_tuples p)) (tused (pa_tuples q) ++ x) ->
  um cn (set_paths cn (set_nth (cn_paths cn) i q)).
Proof.
  intros E P. apply (um_paths _ _ x). rewrite used_eq, (perm_nth _ _ _ E), perm_set, P, <- !app_assoc.
  apply Permutation_app_head. apply Permutation_app_comm.
Qed.

Lemma um_set_same cn i p q : nth_error (cn_paths cn) i = Some p -> Permutation (tused (pa_tuples p)) (tused (pa_tuples q)) -> um cn (set_paths cn (set_nth (cn_paths cn) i q)).
Proof. intros E P. apply (um_set_path _ _ p q []); [exact E | rewrite app_nil_r; exact P]. Qed.

Lemma um_demote cn i cn' : demote_path cn i = Some cn' -> um cn cn'.
Proof.
  unfold demote_path. intros H. ob H p Ep. destruct (pa_demoted p); [apply some_inj in H; subst; apply um_refl |].
  cbv zeta in H. set (c1 := set_paths cn _) in H.
  assert (H1 : um cn c1) by (apply (um_set_same _ _ p); [exact Ep | reflexivity]).
  destruct (cn_mp c1); [| apply some_inj in H; subst; exact H1].
  ob H z Ez. destruct z as [k c2]. cbn match in H.
  assert (H2 : um c1 c2).
  { destruct i; [| apply some_pair_inj in Ez; destruct Ez as (_ & <-); apply um_refl].
    ob Ez t Et. destruct (tu_cid t); [| apply some_pair_inj in Ez; destruct Ez as (_ & <-); apply um_refl].
    destruct (cn_paths c1) as [| x [| y r]] eqn:Ec; apply some_pair_inj in Ez; destruct Ez as (_ & <-); try apply um_refl.
    apply (um_paths _ _ []). rewrite app_nil_r, used_eq, Ec. cbn [pused flat_map]. fold (pused r). rewrite !app_assoc.
    apply Permutation_app_tail, Permutation_app_comm. }
  apply (um_trans _ _ _ H1). apply (um_trans _ _ _ H2).
  destruct k as [| k]; [apply some_inj in H; subst; apply um_refl |].
  ob H q Eqq. destruct (pa_abandoned q); [apply some_inj in H; subst; apply um_refl |].
  ob H q2 Eq2. apply some_inj in H. subst cn'.
  eapply um_trans; [| apply (um_set_same _ _ q2); [exact Eq2 | reflexivity]].
  destruct (find_stash c2 (pa_id q)); [| apply um_refl]. eapply um_trans; [apply um_first_none | apply um_delete].
Qed.

Lemma uinv_renew_below cn i b err cn' :
  nonempty cn -> below cn -> uinv cn -> renew_below cn i b = Some (err, cn') -> uinv cn'.
Proof.
  intros Hne Hb U. unfold renew_below. intros H. ob H p Ep. ob H e Ee.
  destruct (_ && _ && _); [| apply some_pair_inj in H; destruct H as (_ & <-); exact U].
  ob H z Ez. destruct z as [ok c1]. pose proof (uinv_renew _ _ _ _ Hne Hb U Ez) as H1.
  destruct ok; [apply some_pair_inj in H; destruct H as (_ & <-); exact H1 |].
  destruct i; [apply some_pair_inj in H; destruct H as (_ & <-); exact H1 |].
  ob H c2 E2. apply some_pair_inj in H. destruct H as (_ & <-). exact (uinv_um _ _ H1 (um_demote _ _ _ E2)).
Qed.

Lemma uinv_renew_all n : forall cn i b err cn',
  nonempty cn -> below cn -> uinv cn -> renew_all n cn i b = Some (err, cn') -> uinv cn'.
Proof.
  induction n as [| n IH]; intros cn i b err cn' Hne Hb U; cbn [renew_all]; intros H.
  - apply some_pair_inj in H; destruct H as (_ & <-); exact U.
  - destruct (_ <=? i)%nat; [apply some_pair_inj in H; destruct H as (_ & <-); exact U |].
    ob H z Ez. destruct z as [e1 c1]. pose proof (uinv_renew_below _ _ _ _ _ Hne Hb U Ez) as H1. pose proof (ext_renew_below _ _ _ _ _ Ez) as X.
    destruct (e1 =? 0); [| apply some_pair_inj in H; destruct H as (_ & <-); exact H1].
    exact (IH _ _ _ _ _ (nonempty_ext _ _ Hne X) (below_ext _ _ Hb X) H1 H).
Qed.

Lemma uinv_remove_not_before cn p b err cn' :
  NoDup (map sh_path (cn_stashes cn)) -> nonempty cn -> below cn -> uinv cn -> remove_not_before cn p b = Some (err, cn') -> uinv cn'.
Proof.
  intros Hn Hne Hb U. unfold remove_not_before. intros H.
  destruct (find_stash cn p) as [s |] eqn:Ef; [| apply some_pair_inj in H; destruct H as (_ & <-); exact U].
  pose proof (retire_below_shrinks (sh_list s) b) as Hr. pose proof (fun e' => retire_below_refs (sh_list s) b e') as Hrr.
  destruct (retire_below (sh_list s) b) as [l q]. cbn [fst] in Hr, Hrr. cbv zeta in H.
  set (c1 := map_stash p _ cn) in H. set (c2 := fold_left _ q c1) in H.
  assert (H1 : ext cn c1).
  { apply ext_map_stash. intros s' Hi Hp. rewrite (find_stash_unique _ _ _ _ Hn Ef Hi Hp).
    split; [reflexivity | split; [apply N.le_refl | exact Hr]]. }
  assert (H2 : ext c1 c2) by apply ext_retires.
  pose proof (ext_trans _ _ _ H1 H2) as X.
  assert (U2 : uinv c2).
  { apply (uinv_um cn); [exact U |]. apply (um_trans _ c1); [| apply um_retires].
    split; [exists []; rewrite app_nil_r; apply Permutation_refl | split; [apply N.le_refl |]].
    intros e He _. apply in_flat_map_stash in He. destruct He as (x & Hx & [(Ex & He) | (Ex & He)]).
    - cbn [sh_list] in He. destruct (Hrr e He) as (y & Hy & Y). exists y. split; [| exact Y].
      exact (in_flat cn s y (proj1 (find_stash_in _ _ _ Ef)) Hy).
    - exists e. split; [exact (in_flat cn x e Hx He) | split; [reflexivity | apply N.le_refl]]. }
  pose proof (nonempty_ext _ _ Hne X) as Hne2. pose proof (below_ext _ _ Hb X) as Hb2.
  destruct (cn_mp c2).
  - destruct (path_index (cn_paths c2) p); [| apply some_pair_inj in H; destruct H as (_ & <-); exact U2].
    exact (uinv_renew_below _ _ _ _ _ Hne2 Hb2 U2 H).
  - exact (uinv_renew_all _ _ _ _ _ _ Hne2 Hb2 U2 H).
Qed.

Lemma um_create cn p : um cn (create_stash cn p).
Proof.
  destruct (create_rest cn p) as (R1 & R2 & R3 & R4 & R5).
  split; [exists []; rewrite app_nil_r, !used_eq, R1; apply Permutation_refl | split; [rewrite R3; apply N.le_refl |]].
  intros e He _. unfold flat in He. rewrite create_flat in He. exists e. split; [exact He | split; [reflexivity | apply N.le_refl]].
Qed.

Lemma um_map_stash_same cn p f : (forall s e, In e (sh_list (f s)) -> In e (sh_list s)) -> um cn (map_stash p f cn).
Proof.
  intros Hf. split; [exists []; rewrite app_nil_r; apply Permutation_refl | split; [apply N.le_refl |]].
  intros e He _. apply in_flat_map_stash in He. destruct He as (s & Hs & He). exists e. split; [| split; [reflexivity | apply N.le_refl]].
  apply (in_flat cn s e Hs). destruct He as [(_ & He) | (_ & He)]; [exact (Hf _ _ He) | exact He].
Qed.

Lemma um_added cn s before seq id secret : uinv cn -> um cn (added cn s before seq id secret).
Proof.
  intros (_ & U2 & _). split; [exists []; rewrite app_nil_r; apply Permutation_refl | split; [cbn; lia |]].
  intros e He Hu. unfold added in He. apply in_flat_map_stash in He. destruct He as (x & Hx & [(Ex & He) | (Ex & He)]).
  - cbn [sh_list] in He. apply in_app_iff in He. destruct He as [He | [<- | []]].
    + exists e. split; [exact (in_flat cn x e Hx He) | split; [reflexivity | apply N.le_refl]].
    + exfalso. specialize (U2 _ Hu). cbn [rc_addr] in U2. lia.
  - exists e. split; [exact (in_flat cn x e Hx He) | split; [reflexivity | apply N.le_refl]].
Qed.

(* The same for the stored ids: what is kept by an addition. *)
Lemma flat_added cn s before seq id secret e :
  In e (flat (added cn s before seq id secret)) -> In e (flat cn) \/ e = mk_rcid (cn_next cn) seq id secret 0 false false false.
Proof.
  unfold added. intros He. apply in_flat_map_stash in He. destruct He as (x & Hx & [(Ex & He) | (Ex & He)]).
  - cbn [sh_list] in He. apply in_app_iff in He. destruct He as [He | [<- | []]]; [left; exact (in_flat cn x e Hx He) | right; reflexivity].
  - left. exact (in_flat cn x e Hx He).
Qed.

Lemma uinv_new limit id0 secret0 h cn is_mp p seq before id secret err cn' :
  sinv limit id0 secret0 h cn -> nonempty cn -> uinv cn ->
  new_connection_id cn is_mp p seq before id secret = Some (err, cn') -> uinv cn'.
Proof.
  intros I Hne U. pose proof (si_paths _ _ _ _ _ I) as Hn. assert (Hb : below cn) by exact (si_next _ _ _ _ _ I).
  unfold new_connection_id. intros H.
  destruct (is_mp && negb (cn_mp cn)); [apply some_pair_inj in H; destruct H as (_ & <-); exact U |].
  destruct (seq <? before); [apply some_pair_inj in H; destruct H as (_ & <-); exact U |].
  destruct (N.ltb_spec 20 (blen id)) as [L2 | L2]; [apply some_pair_inj in H; destruct H as (_ & <-); exact U |].
  destruct ((cn_max_path cn <? p) && cn_mp cn); [apply some_pair_inj in H; destruct H as (_ & <-); exact U |].
  cbv zeta in H. pose proof (create_paths cn p Hn) as Hn1.
  assert (U0 : uinv (create_stash cn p)) by (apply (uinv_um cn); [exact U | apply um_create]).
  assert (Hne0 : nonempty (create_stash cn p)) by (intros e He; unfold flat in He; rewrite create_flat in He; exact (Hne e He)).
  assert (Hb0 : below (create_stash cn p)).
  { intros e He. unfold flat in He. rewrite create_flat in He. destruct (create_rest cn p) as (_ & _ & R3 & _). rewrite R3. exact (Hb e He). }
  set (c0 := create_stash cn p) in *. ob H s Es. ob H z Ez. destruct z as [e1 c1]. cbn match in H.
  pose proof (find_stash_in _ _ _ Es) as (_ & Hp).
  assert (Hcase : c1 = c0 \/ (1 <= blen id /\ c1 = map_stash p (fun s' => mk_stash (sh_path s') (sh_before s') (sh_list s' ++ [mk_rcid (cn_next c0) seq id secret 0 false false false])) (alloc c0))).
  { unfold add_remote_cnxid in Ez. cbv zeta in Ez. destruct (_ || _) eqn:Eo; [left; apply some_pair_inj in Ez; destruct Ez as (_ & <-); reflexivity |].
    ob Ez e0 E0. destruct (blen (rc_id e0) =? 0); [left; apply some_pair_inj in Ez; destruct Ez as (_ & <-); reflexivity |].
    destruct (scan_stash _ _ _ _ _ _ _) as [e2 | [[[|] nb] ret]]; try (left; apply some_pair_inj in Ez; destruct Ez as (_ & <-); reflexivity).
    destruct (_ || (2 * _ <=? _)); [left; apply some_pair_inj in Ez; destruct Ez as (_ & <-); reflexivity |].
    right. apply some_pair_inj in Ez. destruct Ez as (_ & <-). rewrite Hp. apply Bool.orb_false_iff in Eo. destruct Eo as (_ & Eo). apply N.eqb_neq in Eo.
    split; [lia | reflexivity]. }
  assert (Hc1 : uinv c1 /\ nonempty c1 /\ below c1 /\ NoDup (map sh_path (cn_stashes c1))).
  { destruct Hcase as [-> | (Li & ->)]; [auto |].
    set (c2 := map_stash p _ (alloc c0)).
    assert (Hin : forall e, In e (flat c2) -> In e (flat c0) \/ e = mk_rcid (cn_next c0) seq id secret 0 false false false).
    { unfold c2. intros e He. apply in_flat_map_stash in He. destruct He as (x & Hx & [(Ex & He) | (Ex & He)]).
      - cbn [sh_list] in He. apply in_app_iff in He. destruct He as [He | [<- | []]]; [left; exact (in_flat c0 x e Hx He) | right; reflexivity].
      - left. exact (in_flat c0 x e Hx He). }
    split; [| split; [| split]].
    - apply (uinv_um c0); [exact U0 |]. split; [exists []; rewrite app_nil_r; apply Permutation_refl | split; [cbn; lia |]].
      intros e He Hu. destruct (Hin e He) as [He0 | ->].
      + exists e. split; [exact He0 | split; [reflexivity | apply N.le_refl]].
      + exfalso. destruct U0 as (_ & U02 & _). specialize (U02 _ Hu). cbn [rc_addr] in U02. lia.
    - intros e He. destruct (Hin e He) as [He0 | ->]; [exact (Hne0 e He0) | cbn [rc_id]; lia].
    - intros e He. change (cn_next c2) with (cn_next c0 + 1). destruct (Hin e He) as [He0 | ->]; [specialize (Hb0 e He0); lia | cbn [rc_addr]; lia].
    - unfold c2. rewrite map_stash_paths; [exact Hn1 | reflexivity]. }
  destruct Hc1 as (U1 & Hne1 & Hb1 & Hn2).
  destruct ((e1 =? 0) && (sh_before s <? before)); [| apply some_pair_inj in H; destruct H as (_ & <-); exact U1].
  set (f := fun s => mk_stash (sh_path s) before (sh_list s)) in H.
  assert (Hin : forall e, In e (flat (map_stash p f c1)) -> In e (flat c1)).
  { intros e He. apply in_flat_map_stash in He. destruct He as (x & Hx & [(Ex & He) | (Ex & He)]); exact (in_flat c1 x e Hx He). }
  apply uinv_remove_not_before in H; [exact H | | | |].
  - rewrite map_stash_paths; [exact Hn2 | reflexivity].
  - intros e He. exact (Hne1 e (Hin e He)).
  - intros e He. exact (Hb1 e (Hin e He)).
  - apply (uinv_um c1); [exact U1 |]. apply um_map_stash_same. intros x e He. exact He.
Qed.

Lemma uinv_ack cn l : uinv cn -> uinv (ack_retire cn l).
Proof.
  intros U. unfold ack_retire. destruct (if cn_mp cn then _ else _) as [[p r] |]; [| exact U].
  destruct (frames_varint_decode r) as [[q r'] |]; [| exact U].
  destruct (find_stash cn p) as [s |]; [| exact U].
  destruct (find _ (sh_list s)) as [e |]; [| exact U]. apply (uinv_um cn); [exact U | apply um_remove].
Qed.

Lemma map_rcid_paths a f cn l : set_paths (alloc (map_rcid a f cn)) l = map_rcid a f (set_paths (alloc cn) l).
Proof. reflexivity. Qed.

Lemma uinv_new_tuple cn i ch cn' : nonempty cn -> below cn -> uinv cn -> new_tuple cn i ch = Some cn' -> uinv cn'.
Proof.
  intros Hne Hb U. unfold new_tuple. intros H. ob H p Ep. unfold assign_cid in H.
  destruct (obtain_stashed cn (pa_id p)) as [e |] eqn:Eo; [| apply some_inj in H; subst; exact U].
  apply some_inj in H. subst cn'. destruct (obtained _ _ _ Hne U Eo) as (O1 & O2 & O3 & O4).
  rewrite map_rcid_paths. apply uinv_take.
  - apply (uinv_um cn); [exact U | apply um_alloc].
  - exact O4.
  - specialize (Hb e O1). cbn. lia.
  - change (cn_paths (map_rcid _ _ cn)) with (cn_paths cn). rewrite perm_set. cbn [set_tuples pa_tuples]. rewrite tused_app. cbn [tused flat_map tu_cid app].
    change (used (alloc cn)) with (used cn). rewrite used_eq, (perm_nth _ _ _ Ep). rewrite <- app_assoc. cbn [app]. symmetry. apply Permutation_middle.
Qed.

Lemma uinv_new_path cn i ch : nonempty cn -> below cn -> uinv cn -> uinv (new_path cn i ch).
Proof.
  intros Hne Hb U. unfold new_path. destruct (path_index _ _); [exact U |]. unfold assign_cid.
  destruct (obtain_stashed cn _) as [e |] eqn:Eo.
  - destruct (obtained _ _ _ Hne U Eo) as (O1 & O2 & O3 & O4). rewrite map_rcid_paths. apply uinv_take.
    + apply (uinv_um cn); [exact U | apply um_alloc].
    + exact O4.
    + specialize (Hb e O1). cbn. lia.
    + change (cn_paths (map_rcid _ _ cn)) with (cn_paths cn). rewrite pused_app. cbn. symmetry. apply Permutation_cons_append.
  - apply (uinv_um (alloc cn)); [apply (uinv_um cn); [exact U | apply um_alloc] |]. apply (um_paths _ _ []).
    rewrite app_nil_r, pused_app. cbn. rewrite app_nil_r. reflexivity.
Qed.

Lemma split_challenge_eq l v a t b : split_challenge l v = Some (a, t, b) -> l = a ++ t :: b /\ In v (chal_list (tu_chal t)).
Proof.
  revert a t b. induction l as [| x l IH]; intros a t b; cbn [split_challenge]; [discriminate |].
  destruct (existsb (N.eqb v) (chal_list (tu_chal x))) eqn:E.
  - intros [= <- <- <-]. split; [reflexivity |]. apply existsb_exists in E. destruct E as (y & Hy & Ey). apply N.eqb_eq in Ey. subst y. exact Hy.
  - destruct (split_challenge l v) as [[[a' t'] b'] |]; [| discriminate]. intros [= <- <- <-].
    destruct (IH _ _ _ eq_refl) as (-> & H2). split; [reflexivity | exact H2].
Qed.

Lemma um_response cn i v cn' : path_response cn i v = Some cn' -> um cn cn'.
Proof.
  unfold path_response. intros H. ob H p Ep. destruct (split_challenge _ _) as [[[a t] b] |] eqn:Es; [| apply some_inj in H; subst; apply um_refl].
  destruct (tu_verified t); apply some_inj in H; subst; [apply um_refl |].
  apply (um_set_same _ _ p); [exact Ep |]. destruct (split_challenge_eq _ _ _ _ _ Es) as (-> & _). cbn [set_tuples pa_tuples].
  rewrite tused_app. cbn [tused flat_map tu_cid]. fold (tused b). fold (tused (a ++ b)). rewrite tused_app, !app_assoc.
  apply Permutation_app_tail, Permutation_app_comm.
Qed.

Lemma tused_nth l j t t' : nth_error l j = Some t -> tu_cid t' = tu_cid t -> tused (set_nth l j t') = tused l.
Proof.
  intros H E. unfold set_nth. rewrite (nth_split_at _ _ _ H) at 3. rewrite !tused_app. cbn [tused flat_map]. rewrite E. reflexivity.
Qed.

Lemma um_challenge cn i j v cn' : send_challenge cn i j = Some (v, cn') -> um cn cn'.
Proof.
  unfold send_challenge. intros H. ob H p Ep.
  destruct (nth_error (pa_tuples p) j) as [t |] eqn:Et; [| apply some_pair_inj in H; destruct H as (_ & <-); apply um_refl].
  destruct (_ || _); [apply some_pair_inj in H; destruct H as (_ & <-); apply um_refl |].
  destruct (tu_count t <? 3); [ob H w Ew |]; apply some_pair_inj in H; destruct H as (_ & <-); apply (um_set_same _ _ p); try exact Ep; cbn [set_tuples pa_tuples].
  - rewrite (tused_nth _ _ t); [reflexivity | exact Et | reflexivity].
  - rewrite (nth_split_at _ _ _ Et) at 1. rewrite !tused_app. apply Permutation_app_head. cbn [tused flat_map tu_cid]. rewrite app_nil_r. apply Permutation_app_comm.
Qed.

Lemma um_delete_tuple cn i j cn' : delete_tuple cn i j = Some cn' -> um cn cn'.
Proof.
  unfold delete_tuple. intros H. ob H p Ep. destruct j; [apply some_inj in H; subst; apply um_refl |].
  destruct (nth_error (pa_tuples p) (S j)) as [t |] eqn:Et; [| apply some_inj in H; subst; apply um_refl].
  destruct (_ && _); apply some_inj in H; subst; [| apply um_refl].
  apply (um_set_path _ _ p _ (tused [t])); [exact Ep |]. cbn [set_tuples pa_tuples].
  rewrite (nth_split_at _ _ _ Et) at 1. rewrite !tused_app, <- app_assoc. apply Permutation_app_head.
  change (t :: skipn (S j + 1) (pa_tuples p)) with ([t] ++ skipn (S j + 1) (pa_tuples p)). rewrite tused_app. apply Permutation_app_comm.
Qed.

Lemma um_delete_path cn i cn' : uinv cn -> delete_path cn i = Some cn' -> um cn cn'.
Proof.
  intros U. unfold delete_path. intros H. ob H p Ep. destruct (_ && _); [| apply some_inj in H; subst; apply um_refl].
  ob H c1 E1. apply some_inj in H. subst. apply (um_trans _ _ _ (um_dereference _ _ _ U E1)).
  destruct (dereference_first _ _ _ _ E1 Ep) as (t & r & Er & Epaths).
  assert (En : nth_error (cn_paths c1) i = Some (set_tuples p (set_cid None t :: r))) by (rewrite Epaths; exact (nth_set _ _ _ _ Ep)).
  apply (um_paths _ _ (tused (pa_tuples (set_tuples p (set_cid None t :: r))))). rewrite used_eq, (perm_nth _ _ _ En). apply Permutation_app_comm.
Qed.

Lemma sinv_nonempty limit id0 secret0 h cn : sinv limit id0 secret0 h cn -> 1 <= blen id0 -> nonempty cn.
Proof.
  intros I Hid e He. apply in_flat_map in He. destruct He as (s & Hs & He).
  destruct (si_from _ _ _ _ _ I s e Hs He) as [(_ & _ & -> & _) | (_ & L)]; lia.
Qed.

Lemma uinv_step limit id0 secret0 h cn e cn' o :
  sinv limit id0 secret0 h cn -> 1 <= blen id0 -> uinv cn -> step cn e = Some (cn', o) -> uinv cn'.
Proof.
  intros I Hid U H. pose proof (sinv_nonempty _ _ _ _ _ I Hid) as Hne. assert (Hb : below cn) by exact (si_next _ _ _ _ _ I).
  destruct e as [is_mp pp seq before id secret | p q | i | i c | id c | i v | i j | i c | i | i j | i | i | i j];
    cbn [step] in H.
  - destruct (_ && _); [apply some_pair_inj in H; destruct H as (<- & _); exact U |].
    ob H z Ez. destruct z as [err c1]. apply some_pair_inj in H. destruct H as (<- & _). exact (uinv_new _ _ _ _ _ _ _ _ _ _ _ _ _ I Hne U Ez).
  - destruct (existsb _ _); apply some_pair_inj in H; destruct H as (<- & _); [apply uinv_ack; exact U | exact U].
  - destruct (_ <? _)%nat; [| apply some_pair_inj in H; destruct H as (<- & _); exact U].
    ob H z Ez. destruct z as [ok c1]. apply some_pair_inj in H. destruct H as (<- & _). exact (uinv_renew _ _ _ _ Hne Hb U Ez).
  - destruct (_ <? _)%nat; [| apply some_pair_inj in H; destruct H as (<- & _); exact U].
    ob H z Ez. apply some_pair_inj in H. destruct H as (<- & _). exact (uinv_new_tuple _ _ _ _ Hne Hb U Ez).
  - destruct (cn_mp cn); apply some_pair_inj in H; destruct H as (<- & _); [apply uinv_new_path; assumption | exact U].
  - destruct (_ <? _)%nat; [| apply some_pair_inj in H; destruct H as (<- & _); exact U].
    ob H z Ez. apply some_pair_inj in H. destruct H as (<- & _). exact (uinv_um _ _ U (um_response _ _ _ _ Ez)).
  - destruct (_ <? _)%nat; [| apply some_pair_inj in H; destruct H as (<- & _); exact U].
    ob H t Et. ob H z Ez. destruct z as [w c1]. apply some_pair_inj in H. destruct H as (<- & _). exact (uinv_um _ _ U (um_challenge _ _ _ _ _ Ez)).
  - apply some_pair_inj in H. destruct H as (<- & _). apply (uinv_um _ _ U). apply um_first_same. intros t. destruct (_ || _); reflexivity.
  - apply some_pair_inj in H. destruct H as (<- & _). apply (uinv_um _ _ U). apply um_first_same. intros t. reflexivity.
  - destruct (_ <? _)%nat; [| apply some_pair_inj in H; destruct H as (<- & _); exact U].
    ob H z Ez. apply some_pair_inj in H. destruct H as (<- & _). exact (uinv_um _ _ U (um_delete_tuple _ _ _ _ Ez)).
  - destruct (_ <? _)%nat; [| apply some_pair_inj in H; destruct H as (<- & _); exact U].
    ob H z Ez. apply some_pair_inj in H. destruct H as (<- & _). exact (uinv_um _ _ U (um_demote _ _ _ Ez)).
  - destruct (_ <? _)%nat; [| apply some_pair_inj in H; destruct H as (<- & _); exact U].
    ob H z Ez. apply some_pair_inj in H. destruct H as (<- & _). exact (uinv_um _ _ U (um_delete_path _ _ _ U Ez)).
  - destruct (_ <? _)%nat; [| apply some_pair_inj in H; destruct H as (<- & _); exact U].
    ob H p Ep. destruct (_ <? _)%nat; [| apply some_pair_inj in H; destruct H as (<- & _); exact U].
    ob H d Ed. apply some_pair_inj in H. destruct H as (<- & _). exact U.
Qed.

Lemma uinv_init mp limit mx ml mr id secret chal : uinv (init_conn mp limit mx ml mr id secret chal).
Proof.
  split; [| split]; cbn.
  - constructor; [intros [] | constructor].
  - intros a [<- | []]. reflexivity.
  - intros e [<- | []] _. cbn. lia.
Qed.

Lemma reaches_uinv mp limit mx ml mr id secret chal evs cn out :
  1 <= limit -> 1 <= blen id -> reaches mp limit mx ml mr id secret chal evs cn out -> uinv cn.
Proof.
  intros Hl Hid H.
  destruct (run_inv (fun h c _ => sinv limit id secret h c /\ uinv c)
    (fun h c o e c' o' I S => conj (sinv_step _ _ _ _ _ _ _ _ (proj1 I) S) (uinv_step _ _ _ _ _ _ _ _ (proj1 I) Hid (proj2 I) S))
    evs [] _ [] cn out (conj (sinv_init mp limit mx ml mr id secret chal Hl) (uinv_init mp limit mx ml mr id secret chal)) H) as (h1 & h2 & E & I & U).
  exact U.
Qed.
