(** Proofs about the connection ids that an endpoint issues: frames and histories. *)
From Coq Require Import Sorted.
From Verif Require Import Base Tac Lcid_model Lcid_spec Lcid_proofs.

Definition same_others (k k' : lids) : Prop :=
  forall i o, o <> 0 -> (In (i, o) (k_table k') <-> In (i, o) (k_table k)).

Lemma usable_count : forall c t k, inv c t k -> Z.of_nat (length (usable k)) = (k_nb k - k_expired k)%Z.
Proof.
  intros c t k I. rewrite (i_nb _ _ _ I), (i_exp _ _ _ I). unfold usable, expired_of. clear I.
  induction (k_cids k) as [|m l IH]; [reflexivity|]. cbn [filter].
  destruct (N.leb_spec (k_before k) (l_seq m)), (N.ltb_spec (l_seq m) (k_before k)); cbn [length]; lia.
Qed.

Lemma undo_inv : forall c t k rnd now k1 l, inv c t k -> t <= now -> 0 < c_len c ->
  (forall i, N.of_nat (length (rnd i)) = c_len c) -> create_local c rnd now k = Some (k1, l) ->
  let k2 := delete_local l k1 in
  let k3 := mk_lids (k_cids k2) (k_next k2 - 1) (k_before k2) (k_oldest k2) (k_nb k2) (k_expired k2) (k_table k2) in
  inv c now k3 /\ k_cids k3 = k_cids k /\ k_next k3 = k_next k /\ k_before k3 = k_before k /\
  k_expired k3 = k_expired k /\ k_table k3 = k_table k.
Proof.
  intros c t k rnd now k1 l I T L R H. destruct (create_inv _ _ _ _ _ _ _ I T L R H) as (I1 & C1 & S1 & T1 & N1 & B1 & E1 & TB & NI & LL).
  destruct (delete_inv _ _ _ l I1) as [I2 _]; [rewrite C1; apply in_or_app; right; left; reflexivity|exact L|].
  cbn zeta.
  assert (Q1 : k_cids (delete_local l k1) = k_cids k).
  { unfold delete_local. cbn [k_cids]. rewrite C1, filter_app. cbn [filter]. rewrite N.eqb_refl. cbn [negb]. rewrite app_nil_r.
    apply (without_none (l_seq l)). intros m Hm. pose proof (i_next _ _ _ I m Hm). lia. }
  assert (Q2 : k_next (delete_local l k1) = k_next k + 1) by (unfold delete_local; cbn [k_next]; exact N1).
  assert (Q3 : k_before (delete_local l k1) = k_before k) by (unfold delete_local; cbn [k_before]; exact B1).
  assert (Q4 : k_expired (delete_local l k1) = k_expired k).
  { unfold delete_local. cbn [k_expired]. rewrite B1, E1, S1.
    replace (k_next k <? k_before k) with false by (symmetry; apply N.ltb_ge; exact (i_before _ _ _ I)). reflexivity. }
  assert (Q5 : k_table (delete_local l k1) = k_table k).
  { unfold delete_local. cbn [k_table]. rewrite TB. destruct (l_id l) as [|x r] eqn:E; [cbn in LL; lia|]. rewrite <- E in *. clear E x r.
    cbn [filter fst]. replace (same_cid (l_id l) (l_id l)) with true by (symmetry; apply same_cid_eq; reflexivity). cbn [negb].
    clear - NI. induction (k_table k) as [|e r IH]; [reflexivity|]. cbn [filter].
    replace (same_cid (fst e) (l_id l)) with false.
    - cbn [negb]. f_equal. apply IH. intros K. apply NI. right. exact K.
    - symmetry. apply same_cid_neq. intros K. apply NI. left. exact K. }
  destruct I2 as [A1 A2 A3 A4 A5 A6 A7 A8 A9 A10 A11 A12 A13].
  cbn [k_cids k_next k_before k_oldest k_nb k_expired k_table]. rewrite Q2.
  split; [|repeat split; auto; lia].
  constructor; cbn [k_cids k_next k_before k_oldest k_nb k_expired k_table]; auto.
  - intros m Hm. rewrite Q1 in Hm. pose proof (i_next _ _ _ I m Hm). lia.
  - rewrite Q3. pose proof (i_before _ _ _ I). lia.
Qed.

Lemma push_ok : forall fuel c rnd t now space k k' fs full, inv c t k -> t <= now -> 0 < c_len c ->
  (forall i j, N.of_nat (length (rnd i j)) = c_len c) ->
  push fuel c rnd now space k = inl (k', fs, full) ->
  inv c now k' /\ k_cids k' = k_cids k ++ map (fun f => mk_lcid (f_seq f) now (f_id f)) fs /\
  map f_seq fs = numbers (k_next k) (length fs) /\ k_next k' = k_next k + N.of_nat (length fs) /\
  k_before k' = k_before k /\ (forall f, In f fs -> f_before f = k_before k) /\ same_others k k' /\
  let u := Z.of_nat (length (usable k)) in
  let top := Z.max u (Z.min (int32 (c_limit c)) 9) in
  Z.of_nat (length (usable k')) = (u + Z.of_nat (length fs))%Z /\
  (Z.of_nat (length (usable k')) <= top)%Z /\ (full = false -> Z.of_nat (length (usable k')) = top).
Proof.
  induction fuel as [|f IH]; intros c rnd t now space k k' fs full I T L R H; [discriminate|]. cbn [push] in H.
  unfold int_add in H.
  destruct ((int32 (c_limit c) + k_expired k <? 2 ^ 31)%Z && (- 2 ^ 31 <=? int32 (c_limit c) + k_expired k)%Z); [|discriminate].
  destruct ((8 + k_expired k <? 2 ^ 31)%Z && (- 2 ^ 31 <=? 8 + k_expired k)%Z); [|discriminate].
  pose proof (usable_count _ _ _ I) as U.
  destruct ((k_nb k <? int32 (c_limit c) + k_expired k)%Z && (k_nb k <=? 8 + k_expired k)%Z) eqn:C.
  - apply andb_true_iff in C. destruct C as [C1 C2]. apply Z.ltb_lt in C1. apply Z.leb_le in C2.
    destruct (create_local c (rnd f) now k) as [[k1 l]|] eqn:E.
    + destruct ((N.of_nat (length (l_id l)) =? 0) || (space <? frame_size k1 l)).
      * destruct (undo_inv _ _ _ _ _ _ _ I T L (R f) E) as (J & Q1 & Q2 & Q3 & Q4 & Q5).
        cbn zeta in H, J, Q1, Q2, Q3, Q4, Q5. match type of J with inv c now ?K => set (k3 := K) in * end. clearbody k3.
        injection H as <- <- <-.
        split; [exact J|]. cbn [map length numbers]. rewrite app_nil_r.
        split; [exact Q1|]. split; [reflexivity|]. split; [cbn; lia|]. split; [exact Q3|]. split; [intros ? []|].
        split; [intros i o _; rewrite Q5; reflexivity|].
        pose proof (usable_count _ _ _ J) as U3. pose proof (i_nb _ _ _ J) as NB.
        rewrite Q1, <- (i_nb _ _ _ I) in NB. cbn zeta. cbn [length].
        split; [lia|]. split; [lia|discriminate].
      * destruct (push f c rnd now (space - frame_size k1 l) k1) as [[[k3 fs3] full3]|e] eqn:P; [|discriminate].
        injection H as <- <- <-.
        destruct (create_inv _ _ _ _ _ _ _ I T L (R f) E) as (I1 & D1 & S1 & T1 & N1 & B1 & E1 & TB & NI & LL).
        destruct (IH _ _ _ _ _ _ _ _ _ I1 (N.le_refl _) L R P) as (J & K1 & K2 & K3 & K4 & K5 & K6 & K7). cbn zeta in K7.
        split; [exact J|]. cbn [map length numbers].
        change (f_seq (l_seq l, k_before k1, l_id l)) with (l_seq l). change (f_id (l_seq l, k_before k1, l_id l)) with (l_id l).
        split. { rewrite K1, D1, <- app_assoc. cbn [app]. do 2 f_equal. destruct l; cbn in *; congruence. }
        split; [rewrite S1, K2, N1; reflexivity|]. split; [lia|]. split; [congruence|].
        split. { intros g [<-|Hg]; [exact B1|rewrite (K5 g Hg); exact B1]. }
        split. { intros i o Ho. rewrite (K6 i o Ho), TB. cbn [In]. split; [intros [K|K]; [congruence|exact K]|auto]. }
        pose proof (usable_count _ _ _ I1) as U1. rewrite E1 in U1.
        assert (NB : k_nb k1 = (k_nb k + 1)%Z).
        { rewrite (i_nb _ _ _ I1), (i_nb _ _ _ I), D1, app_length. cbn [length]. lia. }
        destruct K7 as (K7 & K8 & K9). split; [lia|]. split; [lia|]. intros F. specialize (K9 F). lia.
    + injection H as <- <- <-. cbn [map length numbers N.of_nat]. rewrite app_nil_r.
      split; [exact (inv_later _ _ _ _ I T)|]. repeat split; try reflexivity; try lia; try tauto; try (intros ? []); discriminate.
  - injection H as <- <- <-. cbn [map length numbers N.of_nat]. rewrite app_nil_r.
    split; [exact (inv_later _ _ _ _ I T)|]. repeat split; try reflexivity; try lia; try tauto; try (intros ? []).
Qed.

Lemma push_def : forall fuel c rnd t now space k, inv c t k -> t <= now -> 0 < c_len c ->
  (forall i j, N.of_nat (length (rnd i j)) = c_len c) ->
  (1 <= Z.of_nat fuel)%Z -> (10 <= Z.of_nat fuel + Z.of_nat (length (usable k)))%Z ->
  (- 2 ^ 31 <= int32 (c_limit c))%Z -> (int32 (c_limit c) + k_expired k < 2 ^ 31)%Z -> (8 + k_expired k < 2 ^ 31)%Z ->
  exists r, push fuel c rnd now space k = inl r.
Proof.
  induction fuel as [|f IH]; intros c rnd t now space k I T L R F1 F2 B1 B2 B3; [lia|]. cbn [push].
  pose proof (usable_count _ _ _ I) as U. pose proof (i_exp _ _ _ I) as X.
  unfold int_add at 1 2.
  replace ((int32 (c_limit c) + k_expired k <? 2 ^ 31)%Z && (- 2 ^ 31 <=? int32 (c_limit c) + k_expired k)%Z) with true
    by (symmetry; apply andb_true_iff; split; [apply Z.ltb_lt|apply Z.leb_le]; lia).
  replace ((8 + k_expired k <? 2 ^ 31)%Z && (- 2 ^ 31 <=? 8 + k_expired k)%Z) with true
    by (symmetry; apply andb_true_iff; split; [apply Z.ltb_lt|apply Z.leb_le]; lia).
  destruct ((k_nb k <? int32 (c_limit c) + k_expired k)%Z && (k_nb k <=? 8 + k_expired k)%Z) eqn:C; [|eauto].
  apply andb_true_iff in C. destruct C as [C1 C2]. apply Z.ltb_lt in C1. apply Z.leb_le in C2.
  destruct (create_local c (rnd f) now k) as [[k1 l]|] eqn:E; [|eauto].
  destruct ((N.of_nat (length (l_id l)) =? 0) || (space <? frame_size k1 l)); [eauto|].
  destruct (create_inv _ _ _ _ _ _ _ I T L (R f) E) as (I1 & D1 & S1 & T1 & N1 & Q1 & E1 & TB & NI & LL).
  pose proof (usable_count _ _ _ I1) as U1.
  assert (NB : k_nb k1 = (k_nb k + 1)%Z).
  { rewrite (i_nb _ _ _ I1), (i_nb _ _ _ I), D1, app_length. cbn [length]. lia. }
  destruct (IH c rnd now now (space - frame_size k1 l) k1 I1 (N.le_refl _) L R) as [[[k3 fs3] full3] ->]; try lia.
  eauto.
Qed.

Lemma on_retire_inv : forall c t k cur seq, inv c t k -> 0 < c_len c ->
  inv c t (fst (on_retire cur seq k)) /\ same_others k (fst (on_retire cur seq k)) /\ k_next (fst (on_retire cur seq k)) = k_next k.
Proof.
  intros c t k cur seq I L.
  assert (R : inv c t (retire_local seq k) /\ same_others k (retire_local seq k) /\ k_next (retire_local seq k) = k_next k).
  { unfold retire_local. destruct (find (fun l => l_seq l =? seq) (k_cids k)) as [l|] eqn:E.
    - apply find_some in E. destruct E as [E _]. destruct (delete_inv _ _ _ l I E L) as [J O]. split; [exact J|]. split; [exact O|reflexivity].
    - split; [exact I|]. split; [intros i o _; tauto|reflexivity]. }
  unfold on_retire. destruct cur as [s|]; [|exact R]. destruct (s =? seq); [|exact R].
  cbn [fst]. split; [exact I|]. split; [intros i o _; tauto|reflexivity].
Qed.

Lemma retire_exact : forall c t k cur seq, inv c t k -> 0 < c_len c -> cur <> Some seq ->
  snd (on_retire cur seq k) = true /\
  k_cids (fst (on_retire cur seq k)) = filter (fun l => negb (l_seq l =? seq)) (k_cids k) /\
  (forall i, cnx_by_id (k_table (fst (on_retire cur seq k))) i =
    if existsb (fun l => (l_seq l =? seq) && same_cid (l_id l) i) (k_cids k) then None else cnx_by_id (k_table k) i).
Proof.
  intros c t k cur seq I L NC.
  assert (on_retire cur seq k = (retire_local seq k, true)) as ->.
  { unfold on_retire. destruct cur as [s|]; [|reflexivity]. destruct (N.eqb_spec s seq) as [->|E]; [congruence|reflexivity]. }
  cbn [fst snd]. split; [reflexivity|]. unfold retire_local.
  destruct (find (fun l => l_seq l =? seq) (k_cids k)) as [l|] eqn:E.
  - apply find_some in E. destruct E as [Hl E]. apply N.eqb_eq in E. subst seq.
    split; [reflexivity|]. intros i. destruct (delete_inv _ _ _ l I Hl L) as [J O].
    assert (TB : k_table (delete_local l k) = filter (fun e => negb (same_cid (fst e) (l_id l))) (k_table k)).
    { unfold delete_local. cbn [k_table]. pose proof (i_len _ _ _ I l Hl) as K. destruct (l_id l); [cbn in K; lia|reflexivity]. }
    destruct (existsb (fun m => (l_seq m =? l_seq l) && same_cid (l_id m) i) (k_cids k)) eqn:X.
    + apply existsb_exists in X. destruct X as (m & Hm & X). apply andb_true_iff in X. destruct X as [X Y].
      apply N.eqb_eq in X. apply same_cid_eq in Y. apply (sorted_inj _ _ _ (i_sorted _ _ _ I) Hm Hl) in X. subst m i.
      apply by_id_none. rewrite TB. intros K. apply in_map_iff in K. destruct K as (q & Q & K). apply filter_In in K.
      destruct K as [_ K]. apply negb_true_iff, same_cid_neq in K. congruence.
    + assert (Ni : l_id l <> i).
      { intros Q. enough (existsb (fun m => (l_seq m =? l_seq l) && same_cid (l_id m) i) (k_cids k) = true) by congruence.
        apply existsb_exists. exists l. split; [exact Hl|]. rewrite N.eqb_refl. apply same_cid_eq in Q. rewrite Q. reflexivity. }
      unfold cnx_by_id. f_equal. rewrite TB. clear - Ni. induction (k_table k) as [|e r IH]; [reflexivity|]. cbn [filter find].
      destruct (same_cid (fst e) (l_id l)) eqn:A; cbn [negb find].
      * apply same_cid_eq in A. replace (same_cid (fst e) i) with false by (symmetry; apply same_cid_neq; congruence). exact IH.
      * destruct (same_cid (fst e) i); [reflexivity|exact IH].
  - assert (K : forall m, In m (k_cids k) -> l_seq m <> seq).
    { intros m Hm. pose proof (find_none _ _ E m Hm) as Q. cbn in Q. apply N.eqb_neq. exact Q. }
    split; [symmetry; apply (without_none seq); exact K|]. intros i.
    replace (existsb (fun l => (l_seq l =? seq) && same_cid (l_id l) i) (k_cids k)) with false; [reflexivity|].
    symmetry. apply not_true_iff_false. intros X. apply existsb_exists in X. destruct X as (m & Hm & X).
    apply andb_true_iff in X. destruct X as [X _]. apply N.eqb_eq in X. exact (K m Hm X).
Qed.

Lemma as_needed_ok : forall c t k rnd now wake space k' fs full wake', inv c t k -> t <= now < 2 ^ 64 -> 0 < c_len c ->
  (forall i j, N.of_nat (length (rnd i j)) = c_len c) -> as_needed c rnd now wake space k = inl (k', fs, full, wake') ->
  exists k1, check_ttl (c_ttl c) now wake k = (k1, wake') /\ push 10 c rnd now space k1 = inl (k', fs, full) /\ inv c now k1 /\ inv c now k'.
Proof.
  intros c t k rnd now wake space k' fs full wake' I T L R H. unfold as_needed in H.
  destruct (check_ttl (c_ttl c) now wake k) as [k1 w1] eqn:E.
  destruct (push 10 c rnd now space k1) as [[[k2 fs2] full2]|e] eqn:P; [|discriminate]. injection H as <- <- <- <-.
  destruct (ttl_inv _ _ _ _ _ _ _ I T E) as (J & _). exists k1. split; [reflexivity|]. split; [exact P|]. split; [exact J|].
  exact (proj1 (push_ok _ _ _ _ _ _ _ _ _ _ J (N.le_refl _) L R P)).
Qed.

Lemma as_needed_def : forall c t k rnd now wake space, inv c t k -> t <= now < 2 ^ 64 -> 0 < c_len c ->
  (forall i j, N.of_nat (length (rnd i j)) = c_len c) -> c_limit c < 2 ^ 32 ->
  (Z.max 8 (int32 (c_limit c)) + Z.of_nat (length (k_cids k)) < 2 ^ 31)%Z ->
  exists r, as_needed c rnd now wake space k = inl r.
Proof.
  intros c t k rnd now wake space I T L R B1 B2. unfold as_needed.
  destruct (check_ttl (c_ttl c) now wake k) as [k1 w1] eqn:E.
  destruct (ttl_inv _ _ _ _ _ _ _ I T E) as (J & C1 & _).
  assert (X : (k_expired k1 <= Z.of_nat (length (k_cids k)))%Z).
  { rewrite (i_exp _ _ _ J), C1. unfold expired_of. clear. induction (k_cids k) as [|m l IH]; [cbn; lia|].
    cbn [filter]. destruct (l_seq m <? k_before k1); cbn [length]; lia. }
  destruct (push_def 10 c rnd now now space k1 J (N.le_refl _) L R) as [[[k2 fs2] full2] ->]; try lia.
  - unfold int32. destruct (N.ltb_spec (c_limit c) (2 ^ 31)); lia.
  - eauto.
Qed.

(** The time of the last operation of a history that starts at [t]. *)
Fixpoint clock (t : N) (ops : list lop) : N :=
  match ops with
  | [] => t
  | LCreate _ now :: r => clock now r
  | LSend _ now _ _ :: r => clock now r
  | _ :: r => clock t r
  end.

Lemma lrun_inv : forall ops c t k k' fs, inv c t k -> 0 < c_len c -> occurs c t ops -> lrun c k ops = inl (k', fs) ->
  inv c (clock t ops) k'.
Proof.
  induction ops as [|o ops IH]; intros c t k k' fs I L O H; cbn [lrun] in H.
  - injection H as <- <-. exact I.
  - destruct (lstep c k o) as [[k1 fs1]|e] eqn:E; [|discriminate].
    destruct (lrun c k1 ops) as [[k2 fs2]|e] eqn:F; [|discriminate]. injection H as <- <-.
    destruct o as [rnd now|rnd now wake space|cur seq|i owner|i]; cbn [occurs] in O; cbn [lstep] in E.
    + destruct O as (T & R & O). destruct (create_local c rnd now k) as [[k3 l]|] eqn:G; injection E as <- <-.
      * destruct (create_inv _ _ _ _ _ _ _ I (proj1 T) L R G) as (J & _).
        exact (IH _ _ _ _ _ J L O F).
      * exact (IH _ _ _ _ _ (inv_later _ _ _ _ I (proj1 T)) L O F).
    + destruct O as (T & R & O). destruct (as_needed c rnd now wake space k) as [[[[k3 fs3] full3] w3]|e] eqn:G; [|discriminate].
      injection E as <- <-. destruct (as_needed_ok _ _ _ _ _ _ _ _ _ _ _ I T L R G) as (k0 & _ & _ & _ & J).
      exact (IH _ _ _ _ _ J L O F).
    + injection E as <- <-. destruct (on_retire_inv c t k cur seq I L) as (J & _). exact (IH _ _ _ _ _ J L O F).
    + injection E as <- <-. destruct O as [Ho O]. refine (IH _ _ _ _ _ _ L O F).
      destruct (cnx_by_id (k_table k) i) eqn:G; [exact I|]. apply by_id_none in G.
      destruct I as [A1 A2 A3 A4 A5 A6 A7 A8 A9 A10 A11 A12 A13].
      constructor; cbn [k_cids k_next k_before k_oldest k_nb k_expired k_table]; auto.
      * cbn [map fst]. constructor; assumption.
      * intros q. cbn [In]. rewrite <- A12. split; [intros [K|K]; [congruence|exact K]|auto].
    + injection E as <- <-. refine (IH _ _ _ _ _ _ L O F).
      destruct I as [A1 A2 A3 A4 A5 A6 A7 A8 A9 A10 A11 A12 A13].
      constructor; cbn [k_cids k_next k_before k_oldest k_nb k_expired k_table]; auto.
      * clear - A10. induction (k_table k) as [|e r IH]; [constructor|]. cbn [map] in A10. inversion A10 as [|y z D1 D2]; subst.
        cbn [filter]. destruct ((snd e =? 0) || negb (same_cid (fst e) i)); [|apply IH; exact D2].
        cbn [map]. constructor; [|apply IH; exact D2]. intros K. apply D1. apply in_map_iff in K. destruct K as (q & Q & K).
        apply filter_In in K. rewrite <- Q. apply in_map. tauto.
      * intros q. rewrite filter_In. cbn [snd fst]. rewrite N.eqb_refl. cbn [orb]. rewrite A12. tauto.
Qed.

(** States that can be reached. *)
Lemma reached_inv : forall c t tb ops k fs, others tb -> 0 < c_len c -> occurs c t ops -> lrun c (lids0 tb) ops = inl (k, fs) ->
  inv c (clock t ops) k.
Proof.
  intros c t tb ops k fs O L H E. exact (lrun_inv _ _ _ _ _ _ (inv_start c t tb O) L H E).
Qed.

Lemma state_right : forall c t tb ops k fs, others tb -> 0 < c_len c -> occurs c t ops -> lrun c (lids0 tb) ops = inl (k, fs) ->
  StronglySorted (fun l m => l_seq l < l_seq m /\ l_time l <= l_time m) (k_cids k) /\
  (forall l, In l (k_cids k) -> l_seq l < k_next k) /\ k_before k <= k_next k /\
  k_nb k = Z.of_nat (length (k_cids k)) /\
  k_expired k = (Z.of_nat (length (k_cids k)) - Z.of_nat (length (usable k)))%Z /\
  NoDup (map fst (k_table k)) /\ NoDup (map l_id (k_cids k)) /\
  forall i, cnx_by_id (k_table k) i = Some 0 <-> In i (map l_id (k_cids k)).
Proof.
  intros c t tb ops k fs O L H E. pose proof (reached_inv _ _ _ _ _ _ O L H E) as I.
  pose proof (usable_count _ _ _ I) as U. destruct I as [A1 A2 A3 A4 A5 A6 A7 A8 A9 A10 A11 A12 A13].
  repeat split; auto; try lia; rewrite <- A12; apply by_id_in; exact A10.
Qed.

Lemma lrun_app : forall a b c k, lrun c k (a ++ b) =
  match lrun c k a with
  | inr e => inr e
  | inl (k', fs) => match lrun c k' b with inr e => inr e | inl (k'', fs') => inl (k'', fs ++ fs') end
  end.
Proof.
  induction a as [|o a IH]; intros b c k; cbn [app lrun]; [destruct (lrun c k b) as [[k' fs]|e]; reflexivity|].
  destruct (lstep c k o) as [[k1 fs1]|e]; [|reflexivity]. rewrite IH.
  destruct (lrun c k1 a) as [[k2 fs2]|e]; [|reflexivity]. destruct (lrun c k2 b) as [[k3 fs3]|e]; [|reflexivity].
  rewrite app_assoc. reflexivity.
Qed.

Lemma occurs_app : forall a b c t, occurs c t (a ++ b) <-> occurs c t a /\ occurs c (clock t a) b.
Proof.
  induction a as [|o a IH]; intros b c t; cbn [app occurs clock]; [tauto|].
  destruct o; cbn [occurs clock]; rewrite IH; tauto.
Qed.

Lemma send_right : forall c t tb ops k fs0 rnd now wake space k' fs full wake', others tb -> 0 < c_len c ->
  occurs c t (ops ++ [LSend rnd now wake space]) -> lrun c (lids0 tb) ops = inl (k, fs0) ->
  as_needed c rnd now wake space k = inl (k', fs, full, wake') ->
  k_cids k' = k_cids k ++ map (fun f => mk_lcid (f_seq f) now (f_id f)) fs /\
  map f_seq fs = numbers (k_next k) (length fs) /\ k_next k' = k_next k + N.of_nat (length fs) /\
  (forall f, In f fs -> f_before f = k_before k' /\ f_before f <= f_seq f) /\
  (forall l, In l (k_cids k) -> (l_seq l < k_before k' <-> c_ttl c <= now - l_time l)) /\
  (forall i o, o <> 0 -> (cnx_by_id (k_table k') i = Some o <-> cnx_by_id (k_table k) i = Some o)) /\
  let young := Z.of_nat (length (filter (fun l => N.ltb (now - l_time l) (c_ttl c)) (k_cids k))) in
  let top := Z.max young (Z.min (int32 (c_limit c)) 9) in
  Z.of_nat (length (usable k')) = (young + Z.of_nat (length fs))%Z /\
  (Z.of_nat (length (usable k')) <= top)%Z /\ (full = false -> Z.of_nat (length (usable k')) = top).
Proof.
  intros c t tb ops k fs0 rnd now wake space k' fs full wake' O L H E A. apply occurs_app in H. destruct H as [H1 H2].
  cbn [occurs] in H2. destruct H2 as (T & R & _). pose proof (reached_inv _ _ _ _ _ _ O L H1 E) as I.
  destruct (as_needed_ok _ _ _ _ _ _ _ _ _ _ _ I T L R A) as (k1 & C & P & J1 & J2).
  destruct (ttl_inv _ _ _ _ _ _ _ I T C) as (_ & C1 & C2 & C3 & C4 & C5 & _).
  destruct (push_ok _ _ _ _ _ _ _ _ _ _ J1 (N.le_refl _) L R P) as (_ & K1 & K2 & K3 & K4 & K5 & K6 & K7). cbn zeta in K7 |- *.
  assert (Y : filter (fun l => N.ltb (now - l_time l) (c_ttl c)) (k_cids k) = usable k1).
  { unfold usable. rewrite C1. apply filter_ext_in'. intros m Hm. specialize (C5 m Hm).
    destruct (N.ltb_spec (now - l_time m) (c_ttl c)), (N.leb_spec (k_before k1) (l_seq m)); try reflexivity; lia. }
  rewrite Y. split; [rewrite K1, C1; reflexivity|]. split; [rewrite K2, C2; reflexivity|]. split; [rewrite K3, C2; reflexivity|].
  split.
  { intros f Hf. split; [rewrite K4; apply K5; exact Hf|]. rewrite (K5 f Hf).
    assert (Q : In (f_seq f) (numbers (k_next k1) (length fs))) by (rewrite <- K2; apply in_map; exact Hf).
    assert (G : forall n a x, In x (numbers a n) -> a <= x).
    { clear. induction n as [|n IH]; intros a x H; [destruct H|]. destruct H as [H|H]; [lia|]. apply IH in H. lia. }
    apply G in Q. pose proof (i_before _ _ _ J1). lia. }
  split; [intros l Hl; rewrite K4; apply C5; exact Hl|]. split; [|exact K7].
  intros i o Ho. rewrite (by_id_in _ _ _ (i_keys _ _ _ J2)), (by_id_in _ _ _ (i_keys _ _ _ I)). rewrite (K6 i o Ho), C3. tauto.
Qed.

Lemma wake_right : forall c t tb ops k fs0 rnd now wake space k' fs full wake', others tb -> 0 < c_len c ->
  occurs c t (ops ++ [LSend rnd now wake space]) -> lrun c (lids0 tb) ops = inl (k, fs0) ->
  as_needed c rnd now wake space k = inl (k', fs, full, wake') -> now <= wake < 2 ^ 64 ->
  wake' <= wake /\
  (c_ttl c <= now - k_oldest k \/ forall l, In l (usable k) -> wake' <= l_time l + c_ttl c).
Proof.
  intros c t tb ops k fs0 rnd now wake space k' fs full wake' O L H E A W. apply occurs_app in H. destruct H as [H1 H2].
  cbn [occurs] in H2. destruct H2 as (T & R & _). pose proof (reached_inv _ _ _ _ _ _ O L H1 E) as I.
  destruct (as_needed_ok _ _ _ _ _ _ _ _ _ _ _ I T L R A) as (k1 & C & P & J1 & J2).
  destruct (ttl_inv _ _ _ _ _ _ _ I T C) as (_ & _ & _ & _ & _ & _ & C6). specialize (C6 W).
  split; [destruct C6 as [[_ ->]|[_ ->]]; lia|].
  destruct C6 as [[C6 _]|[_ ->]]; [left; exact C6|right].
  intros l Hl. unfold usable in Hl. apply filter_In in Hl. destruct Hl as [Hl B]. apply N.leb_le in B.
  pose proof (i_young _ _ _ I l Hl B). lia.
Qed.

Lemma send_defined : forall c t tb ops k fs0 rnd now wake space, others tb -> 0 < c_len c ->
  occurs c t (ops ++ [LSend rnd now wake space]) -> lrun c (lids0 tb) ops = inl (k, fs0) -> c_limit c < 2 ^ 32 ->
  (Z.max 8 (int32 (c_limit c)) + Z.of_nat (length (k_cids k)) < 2 ^ 31)%Z ->
  exists r, as_needed c rnd now wake space k = inl r.
Proof.
  intros c t tb ops k fs0 rnd now wake space O L H E B1 B2. apply occurs_app in H. destruct H as [H1 H2].
  cbn [occurs] in H2. destruct H2 as (T & R & _). pose proof (reached_inv _ _ _ _ _ _ O L H1 E) as I.
  exact (as_needed_def _ _ _ _ _ _ _ I T L R B1 B2).
Qed.

Lemma retire_right : forall c t tb ops k fs0 cur seq, others tb -> 0 < c_len c ->
  occurs c t ops -> lrun c (lids0 tb) ops = inl (k, fs0) ->
  (cur = Some seq -> on_retire cur seq k = (k, false)) /\
  (cur <> Some seq -> snd (on_retire cur seq k) = true /\
    k_cids (fst (on_retire cur seq k)) = filter (fun l => negb (l_seq l =? seq)) (k_cids k) /\
    (forall i, cnx_by_id (k_table (fst (on_retire cur seq k))) i =
      if existsb (fun l => (l_seq l =? seq) && same_cid (l_id l) i) (k_cids k) then None else cnx_by_id (k_table k) i)).
Proof.
  intros c t tb ops k fs0 cur seq O L H E. split.
  - intros ->. unfold on_retire. rewrite N.eqb_refl. reflexivity.
  - apply (retire_exact c (clock t ops)); [|exact L]. exact (reached_inv _ _ _ _ _ _ O L H E).
Qed.

Lemma zero_push : forall fuel c rnd now space k k' fs full, c_len c = 0 -> push fuel c rnd now space k = inl (k', fs, full) -> fs = [].
Proof.
  intros [|f] c rnd now space k k' fs full L H; [discriminate|]. cbn [push] in H.
  destruct (int_add (int32 (c_limit c)) (k_expired k)); [|discriminate].
  destruct (int_add 8 (k_expired k)); [|discriminate].
  destruct ((k_nb k <? z)%Z && (k_nb k <=? z0)%Z); [|congruence].
  unfold create_local in H. rewrite L in H. cbn [N.eqb l_id length N.of_nat orb] in H. congruence.
Qed.

Lemma zero_none : forall ops c k k' fs, c_len c = 0 -> lrun c k ops = inl (k', fs) -> fs = [].
Proof.
  induction ops as [|o ops IH]; intros c k k' fs L H; cbn [lrun] in H; [congruence|].
  destruct (lstep c k o) as [[k1 fs1]|e] eqn:E; [|discriminate].
  destruct (lrun c k1 ops) as [[k2 fs2]|e] eqn:F; [|discriminate]. injection H as <- <-.
  rewrite (IH _ _ _ _ L F). rewrite app_nil_r.
  destruct o as [rnd now|rnd now wake space|cur seq|i owner|i]; cbn [lstep] in E.
  - destruct (create_local c rnd now k) as [[k3 l]|]; congruence.
  - unfold as_needed in E. destruct (check_ttl (c_ttl c) now wake k) as [k3 w3].
    destruct (push 10 c rnd now space k3) as [[[k4 fs4] full4]|e] eqn:G; [|discriminate].
    apply zero_push in G; [congruence|exact L].
  - congruence.
  - congruence.
  - congruence.
Qed.

Definition no_create (o : lop) : Prop := match o with LCreate _ _ => False | _ => True end.

Lemma filter_len_le : forall (f g : lcid -> bool) l, (forall m, In m l -> f m = true -> g m = true) ->
  (length (filter f l) <= length (filter g l))%nat.
Proof.
  intros f g. induction l as [|m l IH]; intros H; [cbn; lia|]. cbn [filter].
  assert (K := IH (fun q Hq => H q (or_intror Hq))). assert (Q := H m (or_introl eq_refl)).
  destruct (f m); [rewrite (Q eq_refl); cbn [length]; lia|]. destruct (g m); cbn [length]; lia.
Qed.

Lemma filter_filter_le : forall (f g : lcid -> bool) l, (length (filter f (filter g l)) <= length (filter f l))%nat.
Proof.
  intros f g. induction l as [|m l IH]; [cbn; lia|]. cbn [filter]. destruct (g m); cbn [filter]; destruct (f m); cbn [length]; lia.
Qed.

Lemma limit_run : forall ops c t k k' fs, inv c t k -> 0 < c_len c -> occurs c t ops -> Forall no_create ops ->
  lrun c k ops = inl (k', fs) ->
  (Z.of_nat (length (usable k')) <= Z.max (Z.of_nat (length (usable k))) (Z.min (int32 (c_limit c)) 9))%Z /\
  map f_seq fs = numbers (k_next k) (length fs) /\ k_next k' = k_next k + N.of_nat (length fs).
Proof.
  induction ops as [|o ops IH]; intros c t k k' fs I L O NC H; cbn [lrun] in H.
  - injection H as <- <-. cbn [length map numbers N.of_nat]. split; [lia|]. split; [reflexivity|lia].
  - destruct (lstep c k o) as [[k1 fs1]|e] eqn:E; [|discriminate].
    destruct (lrun c k1 ops) as [[k2 fs2]|e] eqn:F; [|discriminate]. injection H as <- <-.
    inversion NC as [|x y NC1 NC2]; subst.
    assert (I1 : inv c (clock t [o]) k1).
    { apply (lrun_inv [o] c t k k1 (fs1 ++ [])); try assumption.
      - destruct o; cbn [occurs] in *; tauto.
      - cbn [lrun]. rewrite E. reflexivity. }
    destruct o as [rnd now|rnd now wake space|cur seq|i owner|i]; cbn [occurs] in O; cbn [lstep] in E; [destruct NC1| | | |].
    + destruct O as (T & R & O). destruct (as_needed c rnd now wake space k) as [[[[k3 fs3] full3] w3]|e] eqn:G; [|discriminate].
      injection E as <- <-. destruct (as_needed_ok _ _ _ _ _ _ _ _ _ _ _ I T L R G) as (k0 & C & P & J1 & J2).
      destruct (ttl_inv _ _ _ _ _ _ _ I T C) as (_ & C1 & C2 & C3 & C4 & C5 & _).
      destruct (push_ok _ _ _ _ _ _ _ _ _ _ J1 (N.le_refl _) L R P) as (_ & K1 & K2 & K3 & K4 & K5 & K6 & K7). cbn zeta in K7.
      destruct (IH _ _ _ _ _ J2 L O NC2 F) as (Q1 & Q2 & Q3).
      assert (Y : (length (usable k0) <= length (usable k))%nat).
      { unfold usable. rewrite C1. apply filter_len_le. intros m Hm B. apply N.leb_le in B. apply N.leb_le. lia. }
      split; [lia|]. rewrite app_length, map_app, K2, Q2, K3, C2. split; [|rewrite Q3, K3, C2; lia].
      clear. revert k. intros k. generalize (k_next k). clear k. induction (length fs3) as [|n IHn]; intros a; cbn [numbers app Nat.add N.of_nat].
      * rewrite N.add_0_r. reflexivity.
      * f_equal. rewrite <- IHn. do 2 f_equal. lia.
    + injection E as <- <-. destruct (IH _ _ _ _ _ I1 L O NC2 F) as (Q1 & Q2 & Q3).
      destruct (on_retire_inv c t k cur seq I L) as (_ & _ & KN). rewrite KN in Q2, Q3. split; [|auto].
      assert (Y : (length (usable (fst (on_retire cur seq k))) <= length (usable k))%nat); [|lia].
      assert (Z : (length (usable (retire_local seq k)) <= length (usable k))%nat).
      { unfold retire_local. destruct (find (fun l => l_seq l =? seq) (k_cids k)); [|lia].
        unfold usable, delete_local. cbn [k_cids k_before]. apply filter_filter_le. }
      unfold on_retire. destruct cur as [s|]; [|exact Z]. destruct (s =? seq); [cbn [fst]; lia|exact Z].
    + injection E as <- <-. destruct (IH _ _ _ _ _ I1 L (proj2 O) NC2 F) as (Q1 & Q2 & Q3).
      cbn [app]. destruct (cnx_by_id (k_table k) i); auto.
    + injection E as <- <-. destruct (IH _ _ _ _ _ I1 L O NC2 F) as (Q1 & Q2 & Q3). cbn [app]. auto.
Qed.

Lemma limit_right : forall c t tb ops0 ops k0 fs0 k fs, others tb -> 0 < c_len c -> occurs c t (ops0 ++ ops) ->
  lrun c (lids0 tb) ops0 = inl (k0, fs0) -> lrun c k0 ops = inl (k, fs) ->
  Forall (fun o => match o with LCreate _ _ => False | _ => True end) ops ->
  (Z.of_nat (length (usable k)) <= Z.max (Z.of_nat (length (usable k0))) (Z.min (int32 (c_limit c)) 9))%Z /\
  map f_seq fs = numbers (k_next k0) (length fs).
Proof.
  intros c t tb ops0 ops k0 fs0 k fs O L H E F NC. apply occurs_app in H. destruct H as [H1 H2].
  pose proof (reached_inv _ _ _ _ _ _ O L H1 E) as I.
  destruct (limit_run ops c (clock t ops0) k0 k fs I L H2 NC F) as (Q1 & Q2 & _). auto.
Qed.
