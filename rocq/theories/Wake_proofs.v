(** Proofs about wake times. *)
From Coq Require Import Permutation.
From Verif Require Import Base Tac Splay_model Splay_spec Splay_proofs Wake_model Wake_spec.

Lemma by_wake_comparator : comparator by_wake.
Proof.
  destruct wake_compare_comparator as [A B]. split.
  - intros a b. apply A.
  - intros a b c. apply B.
Qed.

Lemma by_wake_le : forall a b, (by_wake a b <= 0)%Z <-> snd a <= snd b.
Proof. intros a b. unfold by_wake, wake_compare. destruct (N.ltb_spec (snd a) (snd b)), (N.ltb_spec (snd b) (snd a)); lia. Qed.

Lemma by_wake_lt : forall a b, (by_wake a b < 0)%Z <-> snd a < snd b.
Proof. intros a b. unfold by_wake, wake_compare. destruct (N.ltb_spec (snd a) (snd b)), (N.ltb_spec (snd b) (snd a)); lia. Qed.

Lemma node_of_spec : forall c t up,
  match node_of c t up with
  | Some x => exists a b, inorder t = a ++ lc_v x :: b /\ fst (lc_v x) = c /\
                loc_before x = before up ++ a /\ loc_after x = b ++ after up
  | None => forall n, In n (inorder t) -> fst n <> c
  end.
Proof.
  intros c. induction t as [|l IHl v r IHr]; intros up; cbn [node_of inorder]; [intros n []|].
  destruct (N.eqb_spec (fst v) c) as [E|E].
  - exists (inorder l), (inorder r). unfold loc_before, loc_after. cbn [lc_l lc_r lc_v lc_up]. auto.
  - specialize (IHl (mk_frame true v r :: up)).
    destruct (node_of c l (mk_frame true v r :: up)) as [x|].
    + destruct IHl as (a & b & H1 & H2 & H3 & H4). exists a, (b ++ v :: inorder r).
      rewrite H1, H3, H4. cbn [before after f_left f_value f_other].
      rewrite <- !app_assoc. cbn [app]. rewrite <- ?app_assoc. cbn [app]. auto.
    + specialize (IHr (mk_frame false v l :: up)).
      destruct (node_of c r (mk_frame false v l :: up)) as [x|].
      * destruct IHr as (a & b & H1 & H2 & H3 & H4). exists (inorder l ++ v :: a), b.
        rewrite H1, H3, H4. cbn [before after f_left f_value f_other].
        rewrite <- !app_assoc. cbn [app]. rewrite <- ?app_assoc. cbn [app]. auto.
      * intros n Hn. apply in_app_or in Hn. destruct Hn as [Hn|[<-|Hn]]; auto.
Qed.

Lemma forget_none : forall c l, (forall n, In n l -> fst n <> c) -> forget c l = l.
Proof.
  intros c. induction l as [|m l IH]; intros H; [reflexivity|]. cbn [forget filter].
  destruct (N.eqb_spec (fst m) c) as [E|E]; [exfalso; apply (H m); [left; reflexivity|exact E]|].
  cbn [negb]. f_equal. apply IH. intros n Hn. apply H. right. exact Hn.
Qed.

Lemma forget_app : forall c a b, forget c (a ++ b) = forget c a ++ forget c b.
Proof. intros c a b. apply filter_app. Qed.

Lemma forget_mid : forall a b (n : N * N), NoDup (map fst (a ++ n :: b)) -> forget (fst n) (a ++ n :: b) = a ++ b.
Proof.
  intros a b n H. rewrite map_app in H. cbn [map] in H. pose proof (NoDup_remove_2 _ _ _ H) as K.
  rewrite forget_app. cbn [forget filter]. rewrite N.eqb_refl. cbn [negb].
  rewrite <- (forget_none (fst n) a) at 2.
  - f_equal. apply forget_none. intros m Hm E. apply K. apply in_or_app. right. rewrite <- E. apply in_map. exact Hm.
  - intros m Hm E. apply K. apply in_or_app. left. rewrite <- E. apply in_map. exact Hm.
Qed.

Lemma remove_wake_spec : forall c t, NoDup (map fst (inorder t)) -> is_alive c (inorder t) ->
  exists t', remove_wake c t = Some t' /\ inorder t' = forget c (inorder t).
Proof.
  intros c t D [w A]. unfold remove_wake. pose proof (node_of_spec c t []) as K.
  destruct (node_of c t []) as [x|].
  - destruct K as (a & b & H1 & H2 & H3 & H4). cbn [before after app] in H3, H4. rewrite app_nil_r in H4.
    destruct (delete_hint_spec x) as (t' & E & I). exists t'. split; [exact E|].
    rewrite I, H3, H4, H1, <- H2. symmetry. apply forget_mid. rewrite <- H1. exact D.
  - exfalso. exact (K _ A eq_refl).
Qed.

Lemma insert_wake_spec : forall c w t, ordered by_wake (inorder t) ->
  exists t' a b, insert_wake c w t = Some t' /\ inorder t = a ++ b /\ inorder t' = a ++ (c, w) :: b /\
    (forall m, In m a -> snd m <= w) /\ (forall m, In m b -> w < snd m).
Proof.
  intros c w t O. unfold insert_wake.
  destruct (insert_spec by_wake by_wake_comparator (c, w) t O) as (t' & E & K).
  inversion K; subst. exists t', a, b. repeat split; auto.
  - intros m Hm. apply (by_wake_le m (c, w)). auto.
  - intros m Hm. apply (by_wake_lt (c, w) m). auto.
Qed.

Lemma ordered_forget : forall c l, ordered by_wake l -> ordered by_wake (forget c l).
Proof.
  intros c. induction l as [|n l IH]; intros O; [exact I|]. cbn [ordered] in O. destruct O as [O1 O2].
  cbn [forget filter]. destruct (negb (fst n =? c)).
  - split; [|apply IH; exact O2]. intros y Hy. apply O1. apply filter_In in Hy. tauto.
  - apply IH. exact O2.
Qed.

Lemma ordered_insert : forall a b c w, ordered by_wake (a ++ b) -> (forall m, In m a -> snd m <= w) ->
  (forall m, In m b -> w < snd m) -> ordered by_wake (a ++ (c, w) :: b).
Proof.
  intros a b c w O A B. apply (spec_step_ordered by_wake (a ++ b) (OpInsert (c, w))); [|exact O].
  constructor.
  - intros x Hx. apply (by_wake_le x (c, w)). auto.
  - intros x Hx. apply (by_wake_lt (c, w) x). auto.
Qed.

Lemma nodup_forget : forall c l, NoDup (map fst l) -> NoDup (map fst (forget c l)).
Proof.
  intros c. induction l as [|n l IH]; intros D; [constructor|]. cbn [map] in D. inversion D as [|x y D1 D2]; subst.
  cbn [forget filter]. destruct (negb (fst n =? c)); [|apply IH; exact D2].
  cbn [map]. constructor; [|apply IH; exact D2]. intros K. apply D1. apply in_map_iff in K.
  destruct K as (m & E & K). apply filter_In in K. rewrite <- E. apply in_map. tauto.
Qed.

Lemma not_forget : forall c l, ~ is_alive c (forget c l).
Proof.
  intros c l [t H]. apply filter_In in H. destruct H as [_ H]. cbn [fst] in H. rewrite N.eqb_refl in H. discriminate.
Qed.

Lemma perm_forget : forall c a b, Permutation a b -> Permutation (forget c a) (forget c b).
Proof.
  intros c a b H. induction H; cbn [forget filter].
  - constructor.
  - destruct (negb (fst x =? c)); [constructor|]; exact IHPermutation.
  - destruct (negb (fst x =? c)), (negb (fst y =? c)); try constructor; apply Permutation_refl.
  - eapply Permutation_trans; eassumption.
Qed.

Definition at_time (t : N) (l : list (N * N)) : list (N * N) := filter (fun n => snd n =? t) l.

Lemma at_forget : forall t c l, at_time t (forget c l) = forget c (at_time t l).
Proof.
  intros t c. induction l as [|n l IH]; [reflexivity|]. cbn [forget at_time filter].
  destruct (fst n =? c) eqn:E, (snd n =? t) eqn:F; cbn [negb filter]; rewrite ?E, ?F; cbn [negb];
    try exact IH; f_equal; exact IH.
Qed.

Lemma at_insert : forall t a b c w, (forall m, In m b -> w < snd m) ->
  at_time t (a ++ (c, w) :: b) = at_time t ((a ++ b) ++ [(c, w)]).
Proof.
  intros t a b c w B. unfold at_time. rewrite !filter_app. cbn [filter snd].
  destruct (N.eqb_spec w t) as [E|E]; [|rewrite app_nil_r; reflexivity].
  rewrite <- app_assoc. f_equal.
  assert (K : filter (fun n => snd n =? t) b = []).
  { clear - B E. induction b as [|m b IH]; [reflexivity|]. cbn [filter].
    assert (K := B m (or_introl eq_refl)). destruct (N.eqb_spec (snd m) t) as [F|F]; [lia|].
    apply IH. intros n Hn. apply B. right. exact Hn. }
  rewrite K. reflexivity.
Qed.

Record good (l : list (N * N)) (x : ctx) : Prop := {
  g_order : ordered by_wake (inorder (x_tree x));
  g_fifo : forall t, at_time t (inorder (x_tree x)) = at_time t l;
  g_perm : Permutation (inorder (x_tree x)) l;
  g_dup : NoDup (map fst l);
  g_list : Permutation (x_list x) (map fst l);
  g_count : x_count x = N.of_nat (length l) mod 2 ^ 32;
  g_sl : x_stateless x = false
}.

Lemma good_nil : good [] ctx0.
Proof. constructor; try reflexivity; try constructor. Qed.

Lemma good_tree_dup : forall l x, good l x -> NoDup (map fst (inorder (x_tree x))).
Proof.
  intros l x G. apply (Permutation_NoDup (l := map fst l)); [|exact (g_dup _ _ G)].
  apply Permutation_map. apply Permutation_sym. exact (g_perm _ _ G).
Qed.

Lemma perm_alive : forall a b c, Permutation a b -> is_alive c b -> is_alive c a.
Proof. intros a b c P [t H]. exists t. apply (Permutation_in _ (Permutation_sym P)). exact H. Qed.

Lemma alive_map : forall c l, is_alive c l <-> In c (map fst l).
Proof.
  intros c l. split.
  - intros [t H]. apply in_map_iff. exists (c, t). auto.
  - intros H. apply in_map_iff in H. destruct H as ([d t] & E & H). cbn [fst] in E. subst. exists t. exact H.
Qed.

Lemma insert_good : forall l t c w, ordered by_wake (inorder t) -> (forall t0, at_time t0 (inorder t) = at_time t0 l) ->
  Permutation (inorder t) l ->
  exists t', insert_wake c w t = Some t' /\ ordered by_wake (inorder t') /\
    (forall t0, at_time t0 (inorder t') = at_time t0 (l ++ [(c, w)])) /\ Permutation (inorder t') (l ++ [(c, w)]).
Proof.
  intros l t c w O F P. destruct (insert_wake_spec c w t O) as (t' & a & b & E & I & I' & A & B).
  exists t'. split; [exact E|]. rewrite I in O, P. split; [rewrite I'; apply ordered_insert; assumption|]. split.
  - intros t0. rewrite I', at_insert by exact B. unfold at_time at 1 2. rewrite (filter_app _ (a ++ b)), (filter_app _ l).
    fold (at_time t0 (a ++ b)). fold (at_time t0 l). rewrite <- I, F. reflexivity.
  - rewrite I'. eapply Permutation_trans; [apply Permutation_sym, Permutation_middle|].
    eapply Permutation_trans; [apply Permutation_cons_append|]. apply Permutation_app_tail. exact P.
Qed.

Lemma nodup_snoc : forall c w l, NoDup (map fst l) -> ~ is_alive c l -> NoDup (map fst (l ++ [(c, w)])).
Proof.
  intros c w l D A. apply (Permutation_NoDup (l := c :: map fst l)).
  - rewrite map_app. cbn [map fst]. apply Permutation_cons_append.
  - constructor; [|exact D]. rewrite <- alive_map. exact A.
Qed.

Lemma create_good : forall l x c w, good l x -> ~ is_alive c l ->
  exists x', create_cnx c w true x = Some x' /\ good (l ++ [(c, w)]) x'.
Proof.
  intros l x c w [O F P D L C SL] A. unfold create_cnx, list_insert. cbn [x_tree x_list x_count x_stateless].
  destruct (insert_good l (x_tree x) c w O F P) as (t' & E & O' & F' & P'). rewrite E. cbn [option_map].
  eexists. split; [reflexivity|]. constructor; cbn [x_tree x_list x_count x_stateless]; auto.
  - apply nodup_snoc; assumption.
  - rewrite map_app. cbn [map fst]. eapply Permutation_trans; [apply perm_skip; exact L|apply Permutation_cons_append].
  - rewrite C, app_length. cbn [length]. rewrite Nat2N.inj_add. rewrite N.add_mod_idemp_l by discriminate. reflexivity.
Qed.

Lemma set_good : forall l x c w, good l x -> is_alive c l ->
  exists x', reinsert c w x = Some x' /\ good (forget c l ++ [(c, w)]) x'.
Proof.
  intros l x c w G A. pose proof (good_tree_dup _ _ G) as D'. destruct G as [O F P D L C SL]. unfold reinsert.
  destruct (remove_wake_spec c (x_tree x) D' (perm_alive _ _ _ P A)) as (t1 & E1 & I1). rewrite E1.
  destruct (insert_good (forget c l) t1 c w) as (t' & E & O' & F' & P').
  - rewrite I1. apply ordered_forget. exact O.
  - intros t0. rewrite I1, !at_forget, F. reflexivity.
  - rewrite I1. apply perm_forget. exact P.
  - rewrite E. cbn [option_map]. eexists. split; [reflexivity|]. constructor; cbn [x_tree x_list x_count x_stateless]; auto.
    + apply nodup_snoc; [apply nodup_forget; exact D|apply not_forget].
    + destruct A as [t0 A]. apply in_split in A. destruct A as (a & b & ->).
      pose proof (forget_mid a b (c, t0) D) as K. cbn [fst] in K. rewrite K.
      eapply Permutation_trans; [exact L|]. rewrite !map_app. cbn [map fst].
      eapply Permutation_trans; [apply Permutation_sym, Permutation_middle|apply Permutation_cons_append].
    + rewrite C. f_equal. f_equal. destruct A as [t0 A]. apply in_split in A. destruct A as (a & b & ->).
      pose proof (forget_mid a b (c, t0) D) as K. cbn [fst] in K. rewrite K. rewrite !app_length. cbn [length]. lia.
Qed.

Lemma filter_remove : forall c a b, NoDup (a ++ c :: b) -> filter (fun d => negb (d =? c)) (a ++ c :: b) = a ++ b.
Proof.
  intros c a b D. apply NoDup_remove_2 in D. rewrite filter_app. cbn [filter]. rewrite N.eqb_refl. cbn [negb].
  assert (K : forall l, ~ In c l -> filter (fun d => negb (d =? c)) l = l).
  { induction l as [|d l IH]; intros H; [reflexivity|]. cbn [filter].
    destruct (N.eqb_spec d c) as [E|E]; [exfalso; apply H; left; exact E|]. cbn [negb]. f_equal. apply IH.
    intros Hl. apply H. right. exact Hl. }
  rewrite !K; [reflexivity| |]; intros H; apply D; apply in_or_app; auto.
Qed.

Lemma delete_good : forall l x c, good l x -> is_alive c l ->
  exists x', delete_cnx c x = Some x' /\ good (forget c l) x'.
Proof.
  intros l x c G A. pose proof (good_tree_dup _ _ G) as D'. destruct G as [O F P D L C SL].
  unfold delete_cnx, list_remove. cbn [x_tree x_list x_count x_stateless].
  destruct (remove_wake_spec c (x_tree x) D' (perm_alive _ _ _ P A)) as (t1 & E1 & I1). rewrite E1. cbn [option_map].
  eexists. split; [reflexivity|]. constructor; cbn [x_tree x_list x_count x_stateless]; auto.
  - rewrite I1. apply ordered_forget. exact O.
  - intros t0. rewrite I1, !at_forget, F. reflexivity.
  - rewrite I1. apply perm_forget. exact P.
  - apply nodup_forget. exact D.
  - assert (In c (x_list x)) as H by (apply (Permutation_in _ (Permutation_sym L)); apply alive_map; exact A).
    replace (existsb (N.eqb c) (x_list x)) with true
      by (symmetry; apply existsb_exists; exists c; split; [exact H|apply N.eqb_refl]).
    destruct A as [t0 A]. apply in_split in A. destruct A as (a & b & ->).
    pose proof (forget_mid a b (c, t0) D) as K. cbn [fst] in K. rewrite K.
    assert (NoDup (x_list x)) as ND by (apply (Permutation_NoDup (Permutation_sym L)); exact D).
    apply in_split in H. destruct H as (p & q & H). rewrite H in *. rewrite filter_remove by exact ND.
    rewrite map_app in *. cbn [map fst] in *. apply Permutation_app_inv with (a := c). exact L.
  - destruct A as [t0 A]. apply in_split in A. destruct A as (a & b & ->).
    pose proof (forget_mid a b (c, t0) D) as K. cbn [fst] in K. rewrite K.
    rewrite C. rewrite !app_length. cbn [length].
    replace (N.of_nat (length a + S (length b)) mod 2 ^ 32 + 2 ^ 32 - 1)
      with (N.of_nat (length a + S (length b)) mod 2 ^ 32 + (2 ^ 32 - 1)) by lia.
    rewrite N.add_mod_idemp_l by discriminate.
    replace (N.of_nat (length a + S (length b)) + (2 ^ 32 - 1)) with (N.of_nat (length a + length b) + 1 * 2 ^ 32) by lia.
    apply N.mod_add. discriminate.
Qed.

Lemma wrun_app : forall a b x, wrun (a ++ b) x = match wrun a x with None => None | Some x' => wrun b x' end.
Proof. induction a as [|o a IH]; intros b x; [reflexivity|]. cbn [app wrun]. destruct (wstep x o); [apply IH|reflexivity]. Qed.

Lemma alive_good : forall ops l, alive ops l -> exists x, wrun ops ctx0 = Some x /\ good l x.
Proof.
  intros ops l H. induction H as [|ops l c t H (x & E & G) A|ops l c t H (x & E & G) A|ops l c H (x & E & G) A].
  - exists ctx0. split; [reflexivity|exact good_nil].
  - destruct (create_good l x c t G A) as (x' & E' & G'). exists x'. rewrite wrun_app, E. cbn [wrun wstep]. rewrite E'. auto.
  - destruct (set_good l x c t G A) as (x' & E' & G'). exists x'. rewrite wrun_app, E. cbn [wrun wstep]. rewrite E'. auto.
  - destruct (delete_good l x c G A) as (x' & E' & G'). exists x'. rewrite wrun_app, E. cbn [wrun wstep]. rewrite E'. auto.
Qed.

Lemma alive_run : forall ops l x, alive ops l -> wrun ops ctx0 = Some x -> good l x.
Proof. intros ops l x A E. destruct (alive_good _ _ A) as (y & E' & G). rewrite E in E'. injection E' as <-. exact G. Qed.

Lemma first_hd : forall (t : tree node), first t = hd_error (inorder t).
Proof. exact leftmost_hd. Qed.

Lemma filter_first : forall (f : N * N -> bool) l n r, filter f l = n :: r ->
  exists a b, l = a ++ n :: b /\ forall m, In m a -> f m = false.
Proof.
  intros f. induction l as [|m l IH]; intros n r H; [discriminate|]. cbn [filter] in H. destruct (f m) eqn:E.
  - injection H as <- _. exists [], l. split; [reflexivity|intros ? []].
  - destruct (IH _ _ H) as (a & b & -> & K). exists (m :: a), b. split; [reflexivity|].
    intros q [<-|Hq]; [exact E|apply K; exact Hq].
Qed.

Lemma first_good : forall l x, good l x ->
  match first (x_tree x) with Some n => soonest l n | None => l = [] end.
Proof.
  intros l x [O F P D L C SL]. rewrite first_hd. destruct (inorder (x_tree x)) as [|n r]; cbn [hd_error].
  - apply Permutation_nil. exact P.
  - cbn [ordered] in O. destruct O as [O _].
    assert (M : forall m, In m l -> snd n <= snd m).
    { intros m Hm. apply (Permutation_in _ (Permutation_sym P)) in Hm. destruct Hm as [<-|Hm]; [lia|].
      apply by_wake_le. apply O. exact Hm. }
    specialize (F (snd n)). unfold at_time in F at 1. cbn [filter] in F. rewrite N.eqb_refl in F. symmetry in F.
    destruct (filter_first _ _ _ _ F) as (a & b & -> & K). exists a, b. split; [reflexivity|]. split.
    + intros m Hm. specialize (K m Hm). apply N.eqb_neq in K.
      assert (snd n <= snd m) by (apply M; apply in_or_app; left; exact Hm). lia.
    + intros m Hm. apply M. apply in_or_app. right. right. exact Hm.
Qed.

Lemma lists_right : forall ops l, alive ops l -> exists x, wrun ops ctx0 = Some x /\
  Permutation (x_list x) (map fst l) /\ NoDup (x_list x) /\ x_count x = N.of_nat (length l) mod 2 ^ 32 /\
  Permutation (inorder (x_tree x)) l /\ ordered (fun n m => (Z.of_N (snd n) - Z.of_N (snd m))%Z) (inorder (x_tree x)) /\
  forall t, filter (fun n => snd n =? t) (inorder (x_tree x)) = filter (fun n => snd n =? t) l.
Proof.
  intros ops l A. destruct (alive_good _ _ A) as (x & E & [O F P D L C SL]). exists x. split; [exact E|].
  split; [exact L|]. split; [apply (Permutation_NoDup (Permutation_sym L)); exact D|]. split; [exact C|].
  split; [exact P|]. split; [|exact F]. clear - O. induction (inorder (x_tree x)) as [|n r IH]; [exact I|].
  cbn [ordered] in *. destruct O as [O1 O2]. split; [|apply IH; exact O2].
  intros y Hy. apply O1 in Hy. apply by_wake_le in Hy. lia.
Qed.

Lemma earliest_right : forall ops l x max, alive ops l -> wrun ops ctx0 = Some x ->
  match earliest x max with
  | Some n => soonest l n /\ (max = 0 \/ snd n <= max)
  | None => forall n, In n l -> max < snd n
  end.
Proof.
  intros ops l x max A E. pose proof (first_good _ _ (alive_run _ _ _ A E)) as K. unfold earliest.
  destruct (first (x_tree x)) as [n|]; [|subst l; intros n []].
  destruct (negb (max =? 0) && (max <? snd n)) eqn:B.
  - apply andb_true_iff in B. destruct B as [_ B]. apply N.ltb_lt in B. destruct K as (a & b & -> & K1 & K2).
    intros m Hm. apply in_app_or in Hm. destruct Hm as [Hm|[<-|Hm]]; [apply K1 in Hm; lia|exact B|apply K2 in Hm; lia].
  - split; [exact K|]. apply andb_false_iff in B. destruct B as [B|B].
    + left. apply negb_false_iff in B. apply N.eqb_eq in B. exact B.
    + right. apply N.ltb_ge in B. exact B.
Qed.

Lemma u64_sum : forall now max, now < 2 ^ 62 -> (0 <= max < 2 ^ 63)%Z ->
  u64 (Z.to_N ((Z.of_N now + max) mod 2 ^ 64)) = now + Z.to_N max.
Proof.
  intros now max A B. rewrite Z.mod_small by lia.
  replace (Z.to_N (Z.of_N now + max)) with (now + Z.to_N max) by lia.
  unfold u64. apply N.mod_small. unfold two64. change (2 ^ 62) with 4611686018427387904 in A.
  change (2 ^ 63)%Z with 9223372036854775808%Z in B. lia.
Qed.

Lemma delay_to_spec : forall wake now max, now < 2 ^ 62 -> (0 <= max < 2 ^ 63)%Z ->
  delay_to wake now max = Z.min max (Z.max 0 (Z.of_N wake - Z.of_N now)).
Proof.
  intros wake now max A B. unfold delay_to. cbn zeta. rewrite u64_sum by assumption.
  destruct (N.ltb_spec now wake) as [C|C]; [|lia].
  destruct (N.leb_spec (now + Z.to_N max) wake) as [D|D]; [lia|].
  assert (E : wake - now < 2 ^ 63) by lia.
  unfold to_int64. destruct (N.ltb_spec (wake - now) (2 ^ 63)) as [F|F]; lia.
Qed.

Lemma delay_right : forall ops l x now max, alive ops l -> wrun ops ctx0 = Some x ->
  now < 2 ^ 62 -> (0 <= max < 2 ^ 63)%Z ->
  (l = [] -> next_wake_delay x now max = max) /\
  forall n, soonest l n ->
    next_wake_delay x now max = Z.min max (Z.max 0 (Z.of_N (snd n) - Z.of_N now)) /\
    next_wake_time x now = snd n.
Proof.
  intros ops l x now max A E Hn Hm. pose proof (alive_run _ _ _ A E) as G. pose proof (first_good _ _ G) as K.
  unfold next_wake_delay. rewrite delay_to_spec by assumption. unfold next_wake_time. rewrite (g_sl _ _ G).
  destruct (first (x_tree x)) as [n|].
  - split.
    + intros ->. destruct K as ([|? ?] & b & K & _); discriminate.
    + intros m M. assert (snd m = snd n); [|split; [congruence|congruence]].
      destruct K as (a & b & -> & K1 & K2), M as (a' & b' & Q & M1 & M2).
      assert (In m (a ++ n :: b)) as I1 by (rewrite Q; apply in_or_app; right; left; reflexivity).
      assert (In n (a' ++ m :: b')) as I2 by (rewrite <- Q; apply in_or_app; right; left; reflexivity).
      apply N.le_antisymm.
      * apply in_app_or in I2. destruct I2 as [I2|[<-|I2]]; [apply M1 in I2; lia|lia|apply M2 in I2; lia].
      * apply in_app_or in I1. destruct I1 as [I1|[<-|I1]]; [apply K1 in I1; lia|lia|apply K2 in I1; lia].
  - subst l. split; [intros _; unfold max64; lia|]. intros n ([|? ?] & b & M & _); discriminate.
Qed.

Lemma stateless_now : forall x now max, x_stateless x = true -> next_wake_delay x now max = 0%Z.
Proof.
  intros x now max H. unfold next_wake_delay, next_wake_time, delay_to. rewrite H, N.ltb_irrefl. reflexivity.
Qed.

Lemma split_behind : forall (a b p q : list (N * N)) n, a ++ n :: b = p ++ q -> ~ In n q ->
  exists m, p = a ++ n :: m /\ b = m ++ q.
Proof.
  induction a as [|y a IH]; intros b p q n E H.
  - destruct p as [|z p]; cbn [app] in E.
    + exfalso. apply H. rewrite <- E. left. reflexivity.
    + injection E as -> ->. exists p. auto.
  - destruct p as [|z p]; cbn [app] in E.
    + exfalso. apply H. rewrite <- E. right. apply in_or_app. right. left. reflexivity.
    + injection E as -> E. destruct (IH _ _ _ _ E H) as (m & -> & ->). exists m. auto.
Qed.

Definition sound (x : ctx) : Prop := ordered by_wake (inorder (x_tree x)) /\ NoDup (map fst (inorder (x_tree x))).

Lemma first_step : forall x c s r next, sound x -> inorder (x_tree x) = (c, s) :: r ->
  exists x', match next with Some w => reinsert c w x | None => delete_cnx c x end = Some x' /\ sound x' /\
    match next with
    | Some w => exists p q, r = p ++ q /\ inorder (x_tree x') = p ++ (c, w) :: q /\ forall m, In m q -> w < snd m
    | None => inorder (x_tree x') = r
    end.
Proof.
  intros x c s r next [O D] E.
  assert (A : is_alive c (inorder (x_tree x))) by (exists s; rewrite E; left; reflexivity).
  destruct (remove_wake_spec c (x_tree x) D A) as (t1 & E1 & I1).
  assert (F : forget c (inorder (x_tree x)) = r).
  { rewrite E in D |- *. exact (forget_mid [] r (c, s) D). }
  pose proof (ordered_forget c _ O) as O1. pose proof (nodup_forget c _ D) as D1.
  pose proof (not_forget c (inorder (x_tree x))) as NA. rewrite F in *.
  destruct next as [w|].
  - unfold reinsert. rewrite E1. destruct (insert_wake_spec c w t1) as (t' & p & q & E2 & I2 & I3 & A2 & B2); [rewrite I1; exact O1|].
    rewrite E2. cbn [option_map]. eexists. split; [reflexivity|]. unfold sound. cbn [x_tree]. rewrite I1 in I2. split.
    + split.
      * rewrite I3. apply ordered_insert; [rewrite <- I2; exact O1|exact A2|exact B2].
      * rewrite I3. apply (Permutation_NoDup (l := map fst ((c, w) :: r))).
        -- rewrite I2. apply Permutation_map. apply Permutation_middle.
        -- cbn [map fst]. constructor; [rewrite <- alive_map; exact NA|exact D1].
    + exists p, q. auto.
  - unfold delete_cnx, list_remove. cbn [x_tree x_list x_count x_stateless]. rewrite E1. cbn [option_map].
    eexists. split; [reflexivity|]. unfold sound. cbn [x_tree]. rewrite I1. auto.
Qed.

Lemma poll_sound : forall x now next, sound x -> exists r x', poll now next x = Some (r, x') /\ sound x'.
Proof.
  intros x now next S. unfold poll, earliest. rewrite first_hd.
  destruct (inorder (x_tree x)) as [|[c s] r] eqn:E; cbn [hd_error]; [eauto|].
  destruct (negb (now =? 0) && (now <? snd (c, s))); [eauto|].
  destruct (first_step x c s r next S E) as (x' & E' & S' & _). rewrite E'. eauto.
Qed.

Lemma polls_sound : forall ps x, sound x -> exists cs x', polls ps x = Some (cs, x').
Proof.
  induction ps as [|[now next] ps IH]; intros x S; cbn [polls]; [eauto|].
  destruct (poll_sound x now next S) as (r & x' & E & S'). rewrite E. destruct (IH x' S') as (cs & x'' & ->). eauto.
Qed.

Lemma polls_reach : forall ps x c t a b, sound x ->
  inorder (x_tree x) = a ++ (c, t) :: b -> (length a < length ps)%nat ->
  (forall now next, In (now, next) ps -> t <= now /\ forall w, next = Some w -> now <= w) ->
  exists cs x', polls ps x = Some (cs, x') /\ In c cs.
Proof.
  induction ps as [|[now next] ps IH]; intros x c t a b S E L H; [cbn in L; lia|].
  destruct (H now next (or_introl eq_refl)) as [Hn Hw]. cbn [polls]. unfold poll, earliest. rewrite first_hd, E.
  destruct a as [|[d s] a]; cbn [app hd_error].
  - cbn [snd]. replace (now <? t) with false by (symmetry; apply N.ltb_ge; exact Hn). rewrite andb_false_r.
    cbn [app] in E. destruct (first_step x c t b next S E) as (x1 & E1 & S1 & _). rewrite E1.
    destruct (polls_sound ps x1 S1) as (cs & x2 & ->). do 2 eexists. split; [reflexivity|left; reflexivity].
  - cbn [snd app] in *.
    assert (Hs : s <= t).
    { destruct S as [O _]. rewrite E in O. cbn [ordered] in O. destruct O as [O _].
      apply (by_wake_le (d, s) (c, t)). apply O. apply in_or_app. right. left. reflexivity. }
    replace (now <? s) with false by (symmetry; apply N.ltb_ge; lia). rewrite andb_false_r.
    destruct (first_step x d s (a ++ (c, t) :: b) next S E) as (x1 & E1 & S1 & K). rewrite E1.
    assert (K' : exists b', inorder (x_tree x1) = a ++ (c, t) :: b').
    { destruct next as [w|]; [|exists b; exact K]. destruct K as (p & q & Q & I & B).
      destruct (split_behind _ _ _ _ _ Q) as (m & -> & ->).
      - intros Hq. apply B in Hq. cbn [snd] in Hq. specialize (Hw w eq_refl). lia.
      - rewrite I. rewrite <- app_assoc. cbn [app]. eauto. }
    destruct K' as (b' & K'). destruct (IH x1 c t a b' S1 K') as (cs & x2 & -> & Hc).
    + cbn [length] in L. lia.
    + intros n1 n2 Hi. apply H. right. exact Hi.
    + do 2 eexists. split; [reflexivity|right; exact Hc].
Qed.

Lemma perm_filter_len : forall (f : N * N -> bool) a b, Permutation a b -> length (filter f a) = length (filter f b).
Proof.
  intros f a b H. induction H; cbn [filter]; [reflexivity| | |congruence].
  - destruct (f x); cbn [length]; congruence.
  - destruct (f x), (f y); reflexivity.
Qed.

Lemma filter_all : forall (f : N * N -> bool) l, (forall n, In n l -> f n = true) -> filter f l = l.
Proof.
  intros f. induction l as [|n l IH]; intros H; [reflexivity|]. cbn [filter]. rewrite (H n (or_introl eq_refl)).
  f_equal. apply IH. intros m Hm. apply H. right. exact Hm.
Qed.

Lemma served : forall ops l x ps c t, alive ops l -> wrun ops ctx0 = Some x -> In (c, t) l ->
  (length (filter (fun n => N.leb (snd n) t) l) <= length ps)%nat ->
  (forall now next, In (now, next) ps -> t <= now /\ forall w, next = Some w -> now <= w) ->
  exists cs x', polls ps x = Some (cs, x') /\ In c cs.
Proof.
  intros ops l x ps c t A E I L H. pose proof (alive_run _ _ _ A E) as G. pose proof (good_tree_dup _ _ G) as D.
  destruct G as [O F P _ _ _ _]. apply (Permutation_in _ (Permutation_sym P)) in I. apply in_split in I.
  destruct I as (a & b & I). apply (polls_reach ps x c t a b); [split; assumption|exact I| |exact H].
  rewrite <- (perm_filter_len _ _ _ P), I, filter_app, app_length in L. cbn [filter snd] in L. rewrite N.leb_refl in L.
  rewrite filter_all in L; [cbn [length] in L; lia|].
  intros m Hm. apply N.leb_le. rewrite I in O. apply ordered_app in O. destruct O as (_ & _ & O).
  apply (by_wake_le m (c, t)). apply O; [exact Hm|left; reflexivity].
Qed.

(** A creation that fails. *)
Lemma failed_forgets : forall ops l x c, alive ops l -> ~ is_alive c l -> wrun ops ctx0 = Some x ->
  exists x', wstep x (WFail c) = Some x' /\ x_tree x' = Leaf /\ x_list x' = [] /\
    x_count x' = (N.of_nat (length l) + 2 ^ 32 - 1) mod 2 ^ 32.
Proof.
  intros ops l x c A NA E. destruct (alive_run _ _ _ A E) as [O F P D L C SL].
  cbn [wstep]. unfold create_cnx, delete_cnx, list_remove, remove_wake. cbn [x_tree x_list x_count x_stateless].
  pose proof (node_of_spec c (x_tree x) []) as K. destruct (node_of c (x_tree x) []) as [y|].
  - exfalso. destruct K as (a & b & I & Q & _). apply NA. exists (snd (lc_v y)). apply (Permutation_in _ P).
    rewrite I, <- Q. apply in_or_app. right. left. destruct (lc_v y). reflexivity.
  - cbn [option_map]. eexists. split; [reflexivity|]. cbn [x_tree x_list x_count]. split; [reflexivity|]. split.
    + destruct (existsb (N.eqb c) (x_list x)) eqn:Q; [|reflexivity]. exfalso. apply existsb_exists in Q.
      destruct Q as (d & Hd & Q). apply N.eqb_eq in Q. subst d. apply NA. apply alive_map.
      apply (Permutation_in _ L). exact Hd.
    + rewrite C. replace (N.of_nat (length l) mod 2 ^ 32 + 2 ^ 32 - 1) with (N.of_nat (length l) mod 2 ^ 32 + (2 ^ 32 - 1)) by lia.
      rewrite N.add_mod_idemp_l by discriminate. f_equal. lia.
Qed.
