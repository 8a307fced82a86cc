(** Proofs about the connection ids that an endpoint issues. *)
From Coq Require Import Sorted.
From Verif Require Import Base Tac Lcid_model Lcid_spec.

Lemma same_cid_eq : forall a b, same_cid a b = true <-> a = b.
Proof.
  induction a as [|x a IH]; intros [|y b]; cbn [same_cid]; split; intros H; try discriminate; try reflexivity.
  - apply andb_true_iff in H. destruct H as [H K]. apply N.eqb_eq in H. apply IH in K. congruence.
  - injection H as -> ->. rewrite N.eqb_refl. cbn [andb]. apply IH. reflexivity.
Qed.

Lemma same_cid_neq : forall a b, same_cid a b = false <-> a <> b.
Proof. intros a b. rewrite <- same_cid_eq. destruct (same_cid a b); split; congruence. Qed.

Lemma by_id_in : forall t i o, NoDup (map fst t) -> (cnx_by_id t i = Some o <-> In (i, o) t).
Proof.
  intros t i o. unfold cnx_by_id. induction t as [|[j q] t IH]; intros D; cbn [find option_map fst]; [split; [discriminate|intros []]|].
  cbn [map fst] in D. inversion D as [|x y D1 D2]; subst. destruct (same_cid j i) eqn:E.
  - apply same_cid_eq in E. subst j. cbn [option_map snd]. split.
    + intros H. injection H as ->. left. reflexivity.
    + intros [H|H]; [congruence|]. exfalso. apply D1. apply in_map_iff. exists (i, o). auto.
  - rewrite (IH D2). apply same_cid_neq in E. split; [intros H; right; exact H|intros [H|H]; [congruence|exact H]].
Qed.

Lemma by_id_none : forall t i, cnx_by_id t i = None <-> ~ In i (map fst t).
Proof.
  intros t i. unfold cnx_by_id. induction t as [|[j q] t IH]; cbn [find option_map fst map]; [split; [intros _ []|reflexivity]|].
  destruct (same_cid j i) eqn:E.
  - apply same_cid_eq in E. subst j. split; [discriminate|]. intros H. exfalso. apply H. left. reflexivity.
  - rewrite IH. apply same_cid_neq in E. split.
    + intros H [K|K]; congruence.
    + intros H K. apply H. right. exact K.
Qed.

Lemma pick_some : forall n rnd t i, pick n rnd t = Some i -> ~ In i (map fst t) /\ exists j, i = rnd j.
Proof.
  induction n as [|n IH]; intros rnd t i H; [discriminate|]. cbn [pick] in H. destruct (cnx_by_id t (rnd n)) eqn:E.
  - apply IH. exact H.
  - injection H as <-. split; [apply by_id_none; exact E|eauto].
Qed.

Definition before_of (m m' : lcid) : Prop := l_seq m < l_seq m' /\ l_time m <= l_time m'.
Definition expired_of (b : N) (l : list lcid) : list lcid := filter (fun m => l_seq m <? b) l.

Record inv (c : conf) (t : N) (k : lids) : Prop := {
  i_sorted : StronglySorted before_of (k_cids k);
  i_next : forall m, In m (k_cids k) -> l_seq m < k_next k;
  i_time : forall m, In m (k_cids k) -> l_time m <= t;
  i_nb : k_nb k = Z.of_nat (length (k_cids k));
  i_exp : k_expired k = Z.of_nat (length (expired_of (k_before k) (k_cids k)));
  i_before : k_before k <= k_next k;
  i_old : forall m, In m (k_cids k) -> l_seq m < k_before k -> c_ttl c <= t - l_time m;
  i_oldest : k_oldest k <= t;
  i_young : forall m, In m (k_cids k) -> k_before k <= l_seq m -> k_oldest k <= l_time m;
  i_keys : NoDup (map fst (k_table k));
  i_ids : NoDup (map l_id (k_cids k));
  i_table : forall i, In (i, 0) (k_table k) <-> In i (map l_id (k_cids k));
  i_len : forall m, In m (k_cids k) -> N.of_nat (length (l_id m)) = c_len c
}.

Lemma inv_later : forall c t t' k, inv c t k -> t <= t' -> inv c t' k.
Proof.
  intros c t t' k [A1 A2 A3 A4 A5 A6 A7 A8 A9 A10 A11 A12 A13] H. constructor; auto; try lia.
  - intros m Hm. specialize (A3 m Hm). lia.
  - intros m Hm Hb. specialize (A7 m Hm Hb). specialize (A3 m Hm). lia.
Qed.

Lemma inv_start : forall c t tb, others tb -> inv c t (lids0 tb).
Proof.
  intros c t tb [D O]. constructor; cbn; try constructor; try lia; try (intros m []); try exact D.
  intros H. apply O in H. congruence.
Qed.

Lemma sorted_snoc : forall l x, StronglySorted before_of l -> (forall m, In m l -> before_of m x) ->
  StronglySorted before_of (l ++ [x]).
Proof.
  induction l as [|m l IH]; intros x S H; cbn [app]; [repeat constructor|].
  inversion S as [|y z S1 S2]; subst. constructor.
  - apply IH; [exact S1|]. intros q Hq. apply H. right. exact Hq.
  - apply Forall_app. split; [exact S2|]. repeat constructor; apply H; left; reflexivity.
Qed.

Lemma sorted_filter : forall f l, StronglySorted before_of l -> StronglySorted before_of (filter f l).
Proof.
  intros f. induction l as [|m l IH]; intros S; [constructor|]. inversion S as [|y z S1 S2]; subst.
  cbn [filter]. destruct (f m); [|apply IH; exact S1]. constructor; [apply IH; exact S1|].
  rewrite Forall_forall in *. intros q Hq. apply filter_In in Hq. apply S2. tauto.
Qed.

Lemma sorted_le : forall l m n, StronglySorted before_of l -> In m l -> In n l -> l_seq m <= l_seq n -> l_time m <= l_time n.
Proof.
  induction l as [|x l IH]; intros m n S Hm Hn H; [destruct Hm|]. inversion S as [|y z S1 S2]; subst.
  rewrite Forall_forall in S2. destruct Hm as [<-|Hm], Hn as [<-|Hn].
  - lia.
  - apply S2. exact Hn.
  - specialize (S2 m Hm). destruct S2. lia.
  - apply IH; assumption.
Qed.

Lemma sorted_inj : forall l m n, StronglySorted before_of l -> In m l -> In n l -> l_seq m = l_seq n -> m = n.
Proof.
  induction l as [|x l IH]; intros m n S Hm Hn H; [destruct Hm|]. inversion S as [|y z S1 S2]; subst.
  rewrite Forall_forall in S2. destruct Hm as [<-|Hm], Hn as [<-|Hn]; [reflexivity| | |apply IH; assumption].
  - specialize (S2 n Hn). destruct S2. lia.
  - specialize (S2 m Hm). destruct S2. lia.
Qed.

Lemma nodup_map_snoc : forall (l : list lcid) x, NoDup (map l_id l) -> ~ In (l_id x) (map l_id l) -> NoDup (map l_id (l ++ [x])).
Proof.
  induction l as [|m l IH]; intros x D H; cbn [app map]; [repeat constructor; intros []|].
  cbn [map] in D. inversion D as [|y z D1 D2]; subst. constructor.
  - rewrite map_app. intros K. apply in_app_or in K. destruct K as [K|[K|[]]]; [tauto|].
    apply H. left. congruence.
  - apply IH; [exact D2|]. intros K. apply H. right. exact K.
Qed.

Lemma create_inv : forall c t k rnd now k1 l, inv c t k -> t <= now -> 0 < c_len c ->
  (forall i, N.of_nat (length (rnd i)) = c_len c) -> create_local c rnd now k = Some (k1, l) ->
  inv c now k1 /\ k_cids k1 = k_cids k ++ [l] /\ l_seq l = k_next k /\ l_time l = now /\ k_next k1 = k_next k + 1 /\
  k_before k1 = k_before k /\ k_expired k1 = k_expired k /\ k_table k1 = (l_id l, 0) :: k_table k /\
  ~ In (l_id l) (map fst (k_table k)) /\ N.of_nat (length (l_id l)) = c_len c.
Proof.
  intros c t k rnd now k1 l I T L R H. unfold create_local in H.
  replace (c_len c =? 0) with false in H by (symmetry; apply N.eqb_neq; lia).
  destruct (pick 32 rnd (k_table k)) as [i|] eqn:E; [|discriminate]. injection H as <- <-.
  cbn [k_cids k_next k_before k_oldest k_nb k_expired k_table l_seq l_time l_id].
  replace (0 <? c_len c) with true by (symmetry; apply N.ltb_lt; exact L).
  apply pick_some in E. destruct E as [E [j J]].
  assert (Li : N.of_nat (length i) = c_len c) by (subst i; apply R).
  destruct (inv_later _ _ now _ I T) as [A1 A2 A3 A4 A5 A6 A7 A8 A9 A10 A11 A12 A13].
  split; [|repeat split; auto].
  constructor; cbn [k_cids k_next k_before k_oldest k_nb k_expired k_table].
  - apply sorted_snoc; [exact A1|]. intros m Hm. split; cbn [l_seq l_time]; auto.
  - intros m Hm. apply in_app_or in Hm. destruct Hm as [Hm|[<-|[]]]; [specialize (A2 m Hm); lia|cbn; lia].
  - intros m Hm. apply in_app_or in Hm. destruct Hm as [Hm|[<-|[]]]; [auto|cbn; lia].
  - rewrite app_length, A4. cbn [length]. lia.
  - unfold expired_of. rewrite filter_app. cbn [filter l_seq].
    replace (k_next k <? k_before k) with false by (symmetry; apply N.ltb_ge; exact A6). rewrite app_nil_r. exact A5.
  - lia.
  - intros m Hm Hb. apply in_app_or in Hm. destruct Hm as [Hm|[<-|[]]]; [auto|]. cbn [l_seq] in Hb. lia.
  - destruct (k_next k =? 0); [lia|exact A8].
  - intros m Hm Hb. apply in_app_or in Hm. destruct Hm as [Hm|[<-|[]]].
    + destruct (N.eqb_spec (k_next k) 0) as [Z|Z]; [specialize (A2 m Hm); lia|auto].
    + cbn [l_time]. destruct (k_next k =? 0); [lia|exact A8].
  - cbn [map fst]. constructor; assumption.
  - apply nodup_map_snoc; [exact A11|]. cbn [l_id]. intros K. apply A12 in K. apply E. apply in_map_iff. exists (i, 0). auto.
  - intros q. cbn [In]. rewrite map_app, in_app_iff, A12. cbn [map l_id In]. split.
    + intros [H|H]; [injection H as ->; right; left; reflexivity|left; exact H].
    + intros [H|[H|[]]]; [right; exact H|left; congruence].
  - intros m Hm. apply in_app_or in Hm. destruct Hm as [Hm|[<-|[]]]; [auto|exact Li].
Qed.

Lemma filter_comm : forall (f g : lcid -> bool) l, filter f (filter g l) = filter g (filter f l).
Proof.
  intros f g. induction l as [|m l IH]; [reflexivity|]. cbn [filter].
  destruct (f m) eqn:F, (g m) eqn:G; cbn [filter]; rewrite ?F, ?G; congruence.
Qed.

Definition without (s : N) (l : list lcid) : list lcid := filter (fun m => negb (l_seq m =? s)) l.

Lemma without_none : forall s l, (forall m, In m l -> l_seq m <> s) -> without s l = l.
Proof.
  intros s. induction l as [|m l IH]; intros H; [reflexivity|]. cbn [without filter].
  destruct (N.eqb_spec (l_seq m) s) as [E|E]; [exfalso; exact (H m (or_introl eq_refl) E)|]. cbn [negb]. f_equal.
  apply IH. intros q Hq. apply H. right. exact Hq.
Qed.

Lemma without_length : forall l m, StronglySorted before_of l -> In m l -> length l = S (length (without (l_seq m) l)).
Proof.
  induction l as [|x l IH]; intros m S H; [destruct H|]. inversion S as [|y z S1 S2]; subst. rewrite Forall_forall in S2.
  cbn [without filter]. destruct H as [<-|H].
  - rewrite N.eqb_refl. cbn [negb length]. f_equal. f_equal. symmetry. apply (without_none (l_seq x) l).
    intros q Hq. apply S2 in Hq. destruct Hq. lia.
  - destruct (N.eqb_spec (l_seq x) (l_seq m)) as [E|E].
    + exfalso. apply S2 in H. destruct H. lia.
    + cbn [negb length]. f_equal. apply IH; assumption.
Qed.

Lemma delete_inv : forall c t k l, inv c t k -> In l (k_cids k) -> 0 < c_len c ->
  inv c t (delete_local l k) /\ (forall i o, o <> 0 -> (In (i, o) (k_table (delete_local l k)) <-> In (i, o) (k_table k))).
Proof.
  intros c t k l [A1 A2 A3 A4 A5 A6 A7 A8 A9 A10 A11 A12 A13] Hl L. unfold delete_local.
  assert (TB : match l_id l with
     | [] => k_table k
     | _ :: _ => filter (fun e => negb (same_cid (fst e) (l_id l))) (k_table k)
     end = filter (fun e => negb (same_cid (fst e) (l_id l))) (k_table k)).
  { specialize (A13 l Hl). destruct (l_id l); [cbn in A13; lia|reflexivity]. }
  rewrite TB. clear TB. cbn [k_table]. split.
  - constructor; cbn [k_cids k_next k_before k_oldest k_nb k_expired k_table].
    + apply sorted_filter. exact A1.
    + intros m Hm. apply filter_In in Hm. apply A2. tauto.
    + intros m Hm. apply filter_In in Hm. apply A3. tauto.
    + pose proof (without_length _ _ A1 Hl) as K. unfold without in K. lia.
    + unfold expired_of in *. rewrite filter_comm.
      destruct (N.ltb_spec (l_seq l) (k_before k)) as [B|B].
      * assert (K : length (filter (fun m => l_seq m <? k_before k) (k_cids k)) =
          S (length (without (l_seq l) (filter (fun m => l_seq m <? k_before k) (k_cids k))))).
        { apply without_length; [apply sorted_filter; exact A1|]. apply filter_In. split; [exact Hl|apply N.ltb_lt; exact B]. }
        unfold without in K.
        destruct (Z.ltb_spec 0 (k_expired k)) as [Q|Q]; cbn [andb]; lia.
      * cbn [andb]. rewrite A5. f_equal. f_equal. symmetry. apply (without_none (l_seq l)).
        intros m Hm. apply filter_In in Hm. destruct Hm as [_ Hm]. apply N.ltb_lt in Hm. lia.
    + exact A6.
    + intros m Hm. apply filter_In in Hm. apply A7. tauto.
    + exact A8.
    + intros m Hm. apply filter_In in Hm. apply A9. tauto.
    + clear - A10. induction (k_table k) as [|e r IH]; [constructor|]. cbn [map] in A10. inversion A10 as [|y z D1 D2]; subst.
      cbn [filter]. destruct (negb (same_cid (fst e) (l_id l))); [|apply IH; exact D2].
      cbn [map]. constructor; [|apply IH; exact D2]. intros K. apply D1. apply in_map_iff in K. destruct K as (q & Q & K).
      apply filter_In in K. rewrite <- Q. apply in_map. tauto.
    + clear - A11. induction (k_cids k) as [|e r IH]; [constructor|]. cbn [map] in A11. inversion A11 as [|y z D1 D2]; subst.
      cbn [filter]. destruct (negb (l_seq e =? l_seq l)); [|apply IH; exact D2].
      cbn [map]. constructor; [|apply IH; exact D2]. intros K. apply D1. apply in_map_iff in K. destruct K as (q & Q & K).
      apply filter_In in K. rewrite <- Q. apply in_map. tauto.
    + intros i. rewrite filter_In, A12. cbn [fst]. rewrite negb_true_iff, same_cid_neq. rewrite !in_map_iff. split.
      * intros [(m & Q & Hm) Hi]. exists m. split; [exact Q|]. apply filter_In. split; [exact Hm|].
        apply negb_true_iff, N.eqb_neq. intros K. apply Hi. rewrite <- Q. f_equal. apply (sorted_inj (k_cids k)); assumption.
      * intros (m & Q & Hm). apply filter_In in Hm. destruct Hm as [Hm Hs]. apply negb_true_iff, N.eqb_neq in Hs.
        split; [exists m; auto|]. intros K. apply Hs. f_equal.
        assert (U : forall r x y, NoDup (map l_id r) -> In x r -> In y r -> l_id x = l_id y -> x = y).
        { clear. induction r as [|z r IH]; intros x y D Hx Hy E; [destruct Hx|]. cbn [map] in D. inversion D as [|p q D1 D2]; subst.
          destruct Hx as [<-|Hx], Hy as [<-|Hy]; [reflexivity| | |apply IH; assumption].
          - exfalso. apply D1. rewrite E. apply in_map. exact Hy.
          - exfalso. apply D1. rewrite <- E. apply in_map. exact Hx. }
        apply (U (k_cids k)); try assumption. congruence.
    + intros m Hm. apply filter_In in Hm. apply A13. tauto.
  - intros i o Ho. rewrite filter_In. cbn [fst]. rewrite negb_true_iff, same_cid_neq. split; [tauto|]. intros H.
    split; [exact H|]. intros ->. assert (K : In (l_id l, 0) (k_table k)) by (apply A12; apply in_map; exact Hl).
    apply (by_id_in _ _ _ A10) in H. apply (by_id_in _ _ _ A10) in K. congruence.
Qed.

Lemma ago_sub : forall a b, b <= a -> a < 2 ^ 64 -> ago a b = a - b.
Proof.
  intros a b H K. unfold ago, u64. change (2 ^ 64) with two64 in K. replace (a + two64 - b) with (a - b + 1 * two64) by lia.
  rewrite N.mod_add by (unfold two64; discriminate). apply N.mod_small. lia.
Qed.

Lemma expire_spec : forall ttl now l e b o e' b' o', (forall m, In m l -> l_time m <= now) -> now < 2 ^ 64 ->
  expire ttl now l e b o = (e', b', o') ->
  e' = (e + Z.of_nat (length (filter (fun m => N.leb ttl (now - l_time m)) l)))%Z /\ b <= b' /\ o' <= o /\
  (forall m, In m l -> ttl <= now - l_time m -> l_seq m < b') /\
  (b' = b \/ exists m, In m l /\ ttl <= now - l_time m /\ b' = l_seq m + 1) /\
  (forall m, In m l -> now - l_time m < ttl -> o' <= l_time m).
Proof.
  intros ttl now. induction l as [|m l IH]; intros e b o e' b' o' T W H; cbn [expire] in H.
  - injection H as <- <- <-. cbn [filter length]. repeat split; try lia; try (intros m []); left; reflexivity.
  - rewrite ago_sub in H by (try exact W; apply T; left; reflexivity).
    assert (T' : forall q, In q l -> l_time q <= now) by (intros q Hq; apply T; right; exact Hq).
    cbn [filter]. destruct (N.leb_spec ttl (now - l_time m)) as [C|C].
    + destruct (IH _ _ _ _ _ _ T' W H) as (K1 & K2 & K3 & K4 & K5 & K6). clear IH.
      assert (KB : b <= b' /\ l_seq m < b') by (destruct (N.leb_spec b (l_seq m)); lia).
      split; [cbn [length]; lia|]. split; [lia|]. split; [exact K3|]. split.
      * intros q [<-|Hq] Hc; [lia|auto].
      * split.
        -- destruct K5 as [K5|(q & Hq & Q1 & Q2)].
           ++ destruct (N.leb_spec b (l_seq m)); [right; exists m; split; [left; reflexivity|auto]|left; exact K5].
           ++ right. exists q. split; [right; exact Hq|auto].
        -- intros q [<-|Hq] Hc; [lia|auto].
    + destruct (IH _ _ _ _ _ _ T' W H) as (K1 & K2 & K3 & K4 & K5 & K6). clear IH.
      assert (KO : o' <= o /\ o' <= l_time m) by (destruct (N.ltb_spec (l_time m) o); lia).
      split; [lia|]. split; [lia|]. split; [lia|]. split.
      * intros q [<-|Hq] Hc; [lia|auto].
      * split.
        -- destruct K5 as [K5|(q & Hq & Q1 & Q2)]; [left; exact K5|right; exists q; split; [right; exact Hq|auto]].
        -- intros q [<-|Hq] Hc; [lia|auto].
Qed.

Lemma filter_ext_in' : forall (f g : lcid -> bool) l, (forall m, In m l -> f m = g m) -> filter f l = filter g l.
Proof.
  intros f g. induction l as [|m l IH]; intros H; [reflexivity|]. cbn [filter]. rewrite (H m (or_introl eq_refl)).
  rewrite IH; [reflexivity|]. intros q Hq. apply H. right. exact Hq.
Qed.

Lemma ttl_inv : forall c t k now wake k' wake', inv c t k -> t <= now < 2 ^ 64 ->
  check_ttl (c_ttl c) now wake k = (k', wake') ->
  inv c now k' /\ k_cids k' = k_cids k /\ k_next k' = k_next k /\ k_table k' = k_table k /\ k_before k <= k_before k' /\
  (forall m, In m (k_cids k) -> (l_seq m < k_before k' <-> c_ttl c <= now - l_time m)) /\
  (now <= wake < 2 ^ 64 -> (c_ttl c <= now - k_oldest k /\ wake' = wake) \/ (now - k_oldest k < c_ttl c /\ wake' = N.min wake (k_oldest k + c_ttl c))).
Proof.
  intros c t k now wake k' wake' I [T W] H. apply (inv_later _ _ now) in I; [|exact T]. unfold check_ttl in H.
  rewrite ago_sub in H by (try exact W; exact (i_oldest _ _ _ I)).
  destruct (N.leb_spec (c_ttl c) (now - k_oldest k)) as [C|C].
  - destruct (expire (c_ttl c) now (k_cids k) 0 (k_before k) now) as [[e b] o] eqn:E. injection H as <- <-.
    cbn [k_cids k_next k_before k_table]. destruct I as [A1 A2 A3 A4 A5 A6 A7 A8 A9 A10 A11 A12 A13].
    destruct (expire_spec _ _ _ _ _ _ _ _ _ A3 W E) as (K1 & K2 & K3 & K4 & K5 & K6).
    assert (X : forall m, In m (k_cids k) -> (l_seq m < b <-> c_ttl c <= now - l_time m)).
    { intros m Hm. split; [|apply K4; exact Hm]. intros Hb. destruct K5 as [->|(q & Hq & Q1 & Q2)]; [auto|].
      assert (l_time m <= l_time q) by (apply (sorted_le (k_cids k)); try assumption; lia). specialize (A3 q Hq). lia. }
    split; [|repeat split; auto; try (apply X; assumption)].
    + constructor; cbn [k_cids k_next k_before k_oldest k_nb k_expired k_table]; auto.
      * rewrite K1. rewrite Z.add_0_l. f_equal. f_equal. apply filter_ext_in'. intros m Hm. specialize (X m Hm).
        destruct (N.leb_spec (c_ttl c) (now - l_time m)), (N.ltb_spec (l_seq m) b); try reflexivity; lia.
      * destruct K5 as [->|(q & Hq & Q1 & Q2)]; [exact A6|]. specialize (A2 q Hq). lia.
      * intros m Hm Hb. apply X; assumption.
      * intros m Hm Hb. apply K6; [exact Hm|]. destruct (N.lt_ge_cases (now - l_time m) (c_ttl c)); [assumption|].
        apply X in H; [lia|exact Hm].
  - injection H as <- <-. split; [exact I|]. repeat split; try reflexivity.
    + intros Hb. exact (i_old _ _ _ I m H Hb).
    + intros Ha. destruct (N.lt_ge_cases (l_seq m) (k_before k)) as [B|B]; [exact B|].
      pose proof (i_young _ _ _ I m H B). pose proof (i_time _ _ _ I m H). lia.
    + intros [W1 W2]. right. split; [exact C|]. pose proof (i_oldest _ _ _ I).
      rewrite ago_sub by lia. destruct (N.ltb_spec (c_ttl c) (wake - k_oldest k)) as [Q|Q]; [|lia].
      unfold u64. rewrite N.mod_small by (change two64 with (2 ^ 64); lia). lia.
Qed.
