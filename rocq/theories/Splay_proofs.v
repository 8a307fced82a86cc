(** Lemmas about splay trees. *)
From Verif Require Import Base Splay_model Splay_spec.

Section Splay.
Context {A : Type}.
Implicit Types (t : tree A) (up : list (frame A)).

(** Items before and after a location in the ancestors. *)
Fixpoint before up : list A :=
  match up with
  | [] => []
  | f :: up' => if f_left f then before up' else before up' ++ inorder (f_other f) ++ [f_value f]
  end.
Fixpoint after up : list A :=
  match up with
  | [] => []
  | f :: up' => if f_left f then f_value f :: inorder (f_other f) ++ after up' else after up'
  end.

(** The whole sequence seen from a location. *)
Definition loc_before (x : loc A) := before (lc_up x) ++ inorder (lc_l x).
Definition loc_after (x : loc A) := inorder (lc_r x) ++ after (lc_up x).
Definition whole (x : loc A) : list A := loc_before x ++ lc_v x :: loc_after x.

Definition same_place (x y : loc A) : Prop :=
  lc_v x = lc_v y /\ loc_before x = loc_before y /\ loc_after x = loc_after y.

Lemma same_place_refl : forall x, same_place x x.
Proof. intros x. repeat split. Qed.

Lemma same_place_trans : forall x y z, same_place x y -> same_place y z -> same_place x z.
Proof. intros x y z (A1 & A2 & A3) (B1 & B2 & B3). repeat split; congruence. Qed.

Lemma rotate_spec : forall x f up, lc_up x = f :: up ->
  exists y, rotate x = Some y /\ lc_up y = up /\ same_place x y.
Proof.
  intros [l v r u] f up H. cbn [lc_up] in H. subst u. unfold rotate. cbn [lc_up].
  destruct f as [left fv fo]. cbn [f_left f_value f_other]. destruct left.
  - eexists. split; [reflexivity|]. split; [reflexivity|].
    unfold same_place, loc_before, loc_after. cbn [lc_l lc_v lc_r lc_up before after f_left f_value f_other inorder].
    repeat split. rewrite <- app_assoc. reflexivity.
  - eexists. split; [reflexivity|]. split; [reflexivity|].
    unfold same_place, loc_before, loc_after. cbn [lc_l lc_v lc_r lc_up before after f_left f_value f_other inorder].
    repeat split. rewrite <- !app_assoc. reflexivity.
Qed.

Lemma zigzig_spec : forall x f g up, lc_up x = f :: g :: up -> f_left f = f_left g ->
  exists y, zigzig (f_left f) x = Some y /\ lc_up y = up /\ same_place x y.
Proof.
  intros [l v r u] f g up H Hs. cbn [lc_up] in H. subst u.
  destruct f as [left fv fo]; destruct g as [left' gv go]. cbn [f_left] in Hs. subst left'.
  unfold zigzig, parent_loc. cbn [lc_up f_left]. destruct left.
  - cbn [rotate lc_up f_left f_value f_other lc_l lc_v lc_r child_loc].
    eexists. split; [reflexivity|]. split; [reflexivity|].
    unfold same_place, loc_before, loc_after. cbn [lc_l lc_v lc_r lc_up before after f_left f_value f_other inorder].
    repeat split. rewrite <- !app_assoc. cbn [app]. rewrite <- !app_assoc. reflexivity.
  - cbn [rotate lc_up f_left f_value f_other lc_l lc_v lc_r child_loc].
    eexists. split; [reflexivity|]. split; [reflexivity|].
    unfold same_place, loc_before, loc_after. cbn [lc_l lc_v lc_r lc_up before after f_left f_value f_other inorder].
    repeat split. repeat (cbn [app]; rewrite <- ?app_assoc). reflexivity.
Qed.

Lemma zigzag_spec : forall x f g up, lc_up x = f :: g :: up ->
  exists y, zigzag x = Some y /\ lc_up y = up /\ same_place x y.
Proof.
  intros x f g up H. unfold zigzag.
  destruct (rotate_spec x f (g :: up) H) as (y & -> & Hy & Sy).
  destruct (rotate_spec y g up Hy) as (z & -> & Hz & Sz).
  exists z. split; [reflexivity|]. split; [exact Hz|]. eapply same_place_trans; eassumption.
Qed.

Lemma splay_loop_spec : forall fuel x, (length (lc_up x) < fuel)%nat ->
  exists y, splay_loop fuel x = Some y /\ lc_up y = [] /\ same_place x y.
Proof.
  induction fuel as [|n IH]; intros x H; [lia|]. cbn [splay_loop].
  destruct (lc_up x) as [|f [|g up]] eqn:E.
  - exists x. split; [reflexivity|]. split; [first [exact E|reflexivity]|apply same_place_refl].
  - destruct (rotate_spec x f [] E) as (y & Hy & Uy & Sy). unfold zig. rewrite Hy.
    destruct (IH y) as (z & Hz & Uz & Sz); [rewrite Uy; cbn in *; lia|].
    exists z. split; [exact Hz|]. split; [exact Uz|]. eapply same_place_trans; eassumption.
  - assert (Hstep : exists y, (if Bool.eqb (f_left f) (f_left g) then zigzig (f_left f) x else zigzag x) = Some y /\
              lc_up y = up /\ same_place x y).
    { destruct (Bool.eqb (f_left f) (f_left g)) eqn:Eb.
      - apply (zigzig_spec x f g up E). apply eqb_prop. exact Eb.
      - apply (zigzag_spec x f g up E). }
    destruct Hstep as (y & -> & Uy & Sy).
    destruct (IH y) as (z & Hz & Uz & Sz); [rewrite Uy; cbn [length] in H; lia|].
    exists z. split; [exact Hz|]. split; [exact Uz|]. eapply same_place_trans; eassumption.
Qed.

(** Splaying brings the node to the root and keeps the sequence. *)
Lemma splay_spec : forall x, exists l r, splay x = Some (Node l (lc_v x) r) /\
  inorder l = loc_before x /\ inorder r = loc_after x.
Proof.
  intros x. unfold splay.
  destruct (splay_loop_spec (S (length (lc_up x))) x) as (y & -> & Uy & (S1 & S2 & S3)); [lia|].
  exists (lc_l y), (lc_r y). rewrite S1. split; [reflexivity|].
  unfold loc_before, loc_after in *. rewrite Uy in *. cbn [before after app] in *. rewrite app_nil_r in S3.
  split; congruence.
Qed.

Lemma ordered_app : forall cmp (a b : list A), ordered cmp (a ++ b) <->
  ordered cmp a /\ ordered cmp b /\ (forall x y : A, In x a -> In y b -> (cmp x y <= 0)%Z).
Proof.
  induction a as [|x a IH]; intros b; cbn [app ordered].
  - intuition. contradiction.
  - rewrite IH. split.
    + intros (H1 & H2 & H3 & H4). repeat split; try assumption.
      * intros y Hy. apply H1. apply in_or_app. auto.
      * intros z y [<-|Hz] Hy; [apply H1; apply in_or_app; auto|auto].
    + intros ((H1 & H2) & H3 & H4). repeat split; try assumption.
      * intros y Hy. apply in_app_or in Hy. destruct Hy; [auto|apply H4; [left; reflexivity|assumption]].
      * intros z y Hz Hy. apply H4; [right; assumption|assumption].
Qed.

Section Cmp.
Variable cmp : A -> A -> Z.
Hypothesis Hcmp : comparator cmp.

Lemma cmp_anti : forall a b, (cmp a b < 0 <-> 0 < cmp b a)%Z.
Proof. apply Hcmp. Qed.
Lemma cmp_le_trans : forall a b c, (cmp a b <= 0 -> cmp b c <= 0 -> cmp a c <= 0)%Z.
Proof. apply Hcmp. Qed.
Lemma cmp_lt_le : forall a b c, (cmp a b < 0 -> cmp b c <= 0 -> cmp a c < 0)%Z.
Proof.
  intros a b c H1 H2. apply cmp_anti. apply Z.lt_nge. intros H3.
  apply cmp_anti in H1. pose proof (cmp_le_trans b c a H2 H3). lia.
Qed.
Lemma cmp_zero_sym : forall a b, (cmp a b = 0 -> cmp b a = 0)%Z.
Proof.
  intros a b H. pose proof (cmp_anti a b). pose proof (cmp_anti b a). lia.
Qed.
Lemma cmp_ge_le : forall a b, (0 <= cmp a b -> cmp b a <= 0)%Z.
Proof. intros a b H. pose proof (cmp_anti a b). lia. Qed.
Lemma cmp_le_ge : forall a b, (cmp a b <= 0 -> 0 <= cmp b a)%Z.
Proof. intros a b H. pose proof (cmp_anti b a). lia. Qed.

Lemma insert_loc_order : forall v t up, ordered cmp (inorder t) ->
  let x := insert_loc cmp v t up in
  exists a b, inorder t = a ++ b /\ loc_before x = before up ++ a /\ loc_after x = b ++ after up /\
    lc_v x = v /\ lc_l x = Leaf /\ lc_r x = Leaf /\
    (forall y, In y a -> (cmp y v <= 0)%Z) /\ (forall y, In y b -> (cmp v y < 0)%Z).
Proof.
  intros v t. induction t as [|l IHl c r IHr]; intros up Ho; cbn [insert_loc]; cbn zeta.
  - exists [], []. unfold loc_before, loc_after. cbn. intuition.
  - cbn [inorder] in Ho. apply ordered_app in Ho. destruct Ho as (O1 & O2 & O3).
    cbn [ordered] in O2. destruct O2 as (O2 & O4).
    destruct (cmp v c <? 0)%Z eqn:E.
    + destruct (IHl (mk_frame true c r :: up) O1) as (a & b & H4 & H5 & H6 & V & L & R & Ha & Hb).
      cbn zeta in *. exists a, (b ++ c :: inorder r).
      cbn [before after f_left f_value f_other inorder] in *.
      rewrite H4, <- !app_assoc. cbn [app]. rewrite H6.
      assert (Hlt : (cmp v c < 0)%Z) by lia.
      refine (conj eq_refl (conj H5 (conj eq_refl (conj V (conj L (conj R (conj Ha _))))))).
      intros y Hy. apply in_app_or in Hy. destruct Hy as [Hy|[<-|Hy]]; [apply Hb; exact Hy|exact Hlt|].
      apply (cmp_lt_le v c y); [exact Hlt|apply O2; exact Hy].
    + destruct (IHr (mk_frame false c l :: up) O4) as (a & b & H4 & H5 & H6 & V & L & R & Ha & Hb).
      cbn zeta in *. exists (inorder l ++ c :: a), b.
      cbn [before after f_left f_value f_other inorder] in *.
      assert (Hge : (cmp c v <= 0)%Z) by (apply cmp_ge_le; lia).
      rewrite H4, H5, <- !app_assoc. cbn [app].
      refine (conj eq_refl (conj eq_refl (conj H6 (conj V (conj L (conj R (conj _ Hb))))))).
      intros y Hy. apply in_app_or in Hy. destruct Hy as [Hy|[<-|Hy]]; [|exact Hge|apply Ha; exact Hy].
      apply (cmp_le_trans y c v); [|exact Hge]. apply O3; [exact Hy|left; reflexivity].
Qed.

Lemma insert_spec : forall v t, ordered cmp (inorder t) ->
  exists t', insert cmp v t = Some t' /\ spec_step cmp (inorder t) (OpInsert v) (inorder t').
Proof.
  intros v t Ho. unfold insert.
  destruct (insert_loc_order v t [] Ho) as (a & b & H4 & H5 & H6 & V & L & R & Ha & Hb).
  cbn zeta in *. destruct (splay_spec (insert_loc cmp v t [])) as (l & r & Hs & Hl & Hr).
  rewrite Hs. eexists. split; [reflexivity|]. cbn [inorder]. rewrite Hl, Hr, H4, H5, H6, V.
  cbn [before after app]. rewrite app_nil_r. constructor; assumption.
Qed.

Lemma find_loc_some : forall v t up x, find_loc cmp v t up = Some x ->
  (cmp v (lc_v x) = 0)%Z /\ exists a b, inorder t = a ++ lc_v x :: b /\
    loc_before x = before up ++ a /\ loc_after x = b ++ after up.
Proof.
  intros v t. induction t as [|l IHl c r IHr]; intros up x H; cbn [find_loc] in H; [discriminate|].
  destruct (cmp v c =? 0)%Z eqn:E1.
  - inversion H; subst. cbn [lc_v]. split; [lia|]. exists (inorder l), (inorder r). auto.
  - destruct (cmp v c <? 0)%Z eqn:E2.
    + apply IHl in H. destruct H as (Hc & a & b & H1 & H2 & H3). split; [exact Hc|].
      exists a, (b ++ c :: inorder r). cbn [before after f_left f_value f_other inorder] in *.
      rewrite H1, H2, H3, <- !app_assoc. auto.
    + apply IHr in H. destruct H as (Hc & a & b & H1 & H2 & H3). split; [exact Hc|].
      exists (inorder l ++ c :: a), b. cbn [before after f_left f_value f_other inorder] in *.
      rewrite H1, H2, H3, <- !app_assoc. auto.
Qed.

Lemma find_loc_none : forall v t up, ordered cmp (inorder t) -> find_loc cmp v t up = None ->
  forall y, In y (inorder t) -> (cmp v y <> 0)%Z.
Proof.
  intros v t. induction t as [|l IHl c r IHr]; intros up Ho H y Hy; cbn [find_loc inorder] in *; [contradiction|].
  apply ordered_app in Ho. destruct Ho as (O1 & O2 & O3).
  cbn [ordered] in O2. destruct O2 as (O2 & O4).
  destruct (cmp v c =? 0)%Z eqn:E1; [discriminate|].
  apply in_app_or in Hy. destruct (cmp v c <? 0)%Z eqn:E2.
  - destruct Hy as [Hy|[<-|Hy]]; [eapply IHl; eassumption|lia|].
    pose proof (cmp_lt_le v c y ltac:(lia) (O2 y Hy)). lia.
  - destruct Hy as [Hy|[<-|Hy]]; [|lia|eapply IHr; eassumption].
    pose proof (O3 y c Hy (or_introl eq_refl)) as Hyc.
    intros Hz. apply cmp_zero_sym in Hz.
    pose proof (cmp_le_trans v y c) as Ht. pose proof (cmp_zero_sym _ _ Hz) as Hz2. lia.
Qed.

Lemma find_spec : forall v t, ordered cmp (inorder t) ->
  exists res t', find cmp v t = Some (res, t') /\ inorder t' = inorder t /\
    match res with
    | Some x => In x (inorder t) /\ (cmp v x = 0)%Z
    | None => forall y, In y (inorder t) -> (cmp v y <> 0)%Z
    end.
Proof.
  intros v t Ho. unfold find. destruct (find_loc cmp v t []) as [x|] eqn:E.
  - apply find_loc_some in E. destruct E as (Hc & a & b & H1 & H2 & H3).
    destruct (splay_spec x) as (l & r & Hs & Hl & Hr). rewrite Hs.
    eexists _, _. split; [reflexivity|]. cbn [inorder]. rewrite Hl, Hr, H2, H3, H1. cbn [before after app].
    rewrite app_nil_r. split; [reflexivity|]. split; [|exact Hc]. apply in_or_app. right. left. reflexivity.
  - exists None, t. split; [reflexivity|]. split; [reflexivity|]. eapply find_loc_none; eassumption.
Qed.

Lemma remove_leftmost_spec : forall (l : tree A) v r m t', remove_leftmost l v r = (m, t') ->
  inorder l ++ v :: inorder r = m :: inorder t'.
Proof.
  induction l as [|ll IHl lv lr IHr]; intros v r m t' H; cbn [remove_leftmost] in H.
  - inversion H; subst. reflexivity.
  - destruct (remove_leftmost ll lv lr) as [m' l'] eqn:E. inversion H; subst. apply IHl in E.
    cbn [inorder]. rewrite E. reflexivity.
Qed.

Lemma delete_root_spec : forall (l : tree A) v r, inorder (delete_root (Node l v r)) = inorder l ++ inorder r.
Proof.
  intros l v r. cbn [delete_root]. destruct l as [|ll lv lr]; [reflexivity|].
  destruct r as [|rl rv rr]; [cbn [inorder]; rewrite app_nil_r; reflexivity|].
  destruct (remove_leftmost rl rv rr) as [m r'] eqn:E. apply remove_leftmost_spec in E.
  cbn [inorder] in *. rewrite E. reflexivity.
Qed.

Lemma delete_hint_spec : forall x : loc A, exists t, delete_hint x = Some t /\ inorder t = loc_before x ++ loc_after x.
Proof.
  intros x. unfold delete_hint. destruct (splay_spec x) as (l & r & Hs & Hl & Hr). rewrite Hs.
  eexists. split; [reflexivity|]. rewrite delete_root_spec, Hl, Hr. reflexivity.
Qed.

Lemma delete_spec : forall v t, ordered cmp (inorder t) ->
  exists t', delete cmp v t = Some t' /\ spec_step cmp (inorder t) (OpDelete v) (inorder t') /\
    (find_loc cmp v t [] = None -> inorder t' = inorder t) /\
    (find_loc cmp v t [] <> None -> length (inorder t) = S (length (inorder t'))).
Proof.
  intros v t Ho. unfold delete, find. destruct (find_loc cmp v t []) as [x|] eqn:E.
  - apply find_loc_some in E. destruct E as (Hc & a & b & H1 & H2 & H3).
    destruct (splay_spec x) as (l & r & Hs & Hl & Hr). rewrite Hs.
    destruct (delete_hint_spec (mk_loc l (lc_v x) r [])) as (t' & Hd & Hi). rewrite Hd.
    exists t'. split; [reflexivity|]. unfold loc_before, loc_after in Hi. cbn [lc_l lc_r lc_up before after app] in Hi.
    rewrite app_nil_r in Hi. unfold loc_before, loc_after in H2, H3. rewrite Hl, Hr in Hi.
    unfold loc_before, loc_after in Hi. rewrite H2, H3 in Hi. cbn [before after app] in Hi. rewrite app_nil_r in Hi.
    rewrite Hi, H1. split; [constructor; exact Hc|]. split; [discriminate|].
    intros _. rewrite !app_length. cbn [length]. lia.
  - exists t. split; [reflexivity|]. split; [|split; [reflexivity|congruence]].
    apply spec_delete_none. eapply find_loc_none; eassumption.
Qed.

Lemma tsize_inorder : forall t, tsize t = length (inorder t).
Proof.
  induction t as [|l IHl v r IHr]; cbn [tsize inorder length]; [reflexivity|].
  rewrite app_length. cbn [length]. lia.
Qed.

Lemma node_at_spec : forall t k up,
  match node_at k t up with
  | Some x => exists a b, inorder t = a ++ lc_v x :: b /\ length a = k /\
                loc_before x = before up ++ a /\ loc_after x = b ++ after up
  | None => (length (inorder t) <= k)%nat
  end.
Proof.
  induction t as [|l IHl v r IHr]; intros k up; cbn [node_at inorder length]; [lia|].
  destruct (Nat.compare_spec k (tsize l)) as [E|E|E].
  - exists (inorder l), (inorder r). unfold loc_before, loc_after. cbn [lc_l lc_r lc_v lc_up].
    rewrite <- tsize_inorder. auto.
  - specialize (IHl k (mk_frame true v r :: up)).
    destruct (node_at k l (mk_frame true v r :: up)) as [x|].
    + destruct IHl as (a & b & H1 & H2 & H3 & H4). exists a, (b ++ v :: inorder r).
      cbn [before after f_left f_value f_other] in *. rewrite H1, H3, H4, <- !app_assoc. auto.
    + rewrite tsize_inorder in E. lia.
  - specialize (IHr (k - tsize l - 1)%nat (mk_frame false v l :: up)).
    destruct (node_at (k - tsize l - 1) r (mk_frame false v l :: up)) as [x|].
    + destruct IHr as (a & b & H1 & H2 & H3 & H4). exists (inorder l ++ v :: a), b.
      cbn [before after f_left f_value f_other] in *. rewrite H1, H3, H4, <- !app_assoc.
      repeat split. rewrite app_length. cbn [length]. rewrite <- tsize_inorder. lia.
    + rewrite app_length. cbn [length]. rewrite <- tsize_inorder. lia.
Qed.

Lemma spec_step_ordered : forall l o l', spec_step cmp l o l' -> ordered cmp l -> ordered cmp l'.
Proof.
  intros l o l' H Ho. destruct H.
  - apply ordered_app in Ho. destruct Ho as (O1 & O2 & O3). apply ordered_app. split; [exact O1|].
    split; [split; [|exact O2]|].
    + intros y Hy. apply H0 in Hy. lia.
    + intros x y Hx [<-|Hy]; [apply H; exact Hx|apply O3; assumption].
  - exact Ho.
  - apply ordered_app in Ho. destruct Ho as (O1 & O2 & O3). cbn [ordered] in O2.
    apply ordered_app. split; [exact O1|]. split; [tauto|]. intros y z Hy Hz. apply O3; [exact Hy|right; exact Hz].
  - exact Ho.
  - apply ordered_app in Ho. destruct Ho as (O1 & O2 & O3). cbn [ordered] in O2.
    apply ordered_app. split; [exact O1|]. split; [tauto|]. intros y z Hy Hz. apply O3; [exact Hy|right; exact Hz].
  - exact Ho.
Qed.

Lemma splay_step_spec : forall (s : stree A) o, ordered cmp (inorder (st_tree s)) ->
  st_size s = N.of_nat (length (inorder (st_tree s))) ->
  exists s', splay_step cmp s o = Some s' /\ spec_step cmp (inorder (st_tree s)) o (inorder (st_tree s')) /\
    st_size s' = N.of_nat (length (inorder (st_tree s'))).
Proof.
  intros s o Ho Hz. destruct o as [v|v|v|k]; cbn [splay_step].
  - destruct (insert_spec v (st_tree s) Ho) as (t' & -> & Hs). cbn [option_map].
    eexists. split; [reflexivity|]. cbn [st_tree st_size]. split; [exact Hs|].
    inversion Hs as [a b v' Ha Hb E1 E2 E3| | | | |]. rewrite Hz, <- E1, !app_length. cbn [length]. lia.
  - destruct (find_spec v (st_tree s) Ho) as (res & t' & -> & Hi & _). cbn [option_map snd].
    eexists. split; [reflexivity|]. cbn [st_tree st_size]. rewrite Hi. split; [constructor|exact Hz].
  - destruct (delete_spec v (st_tree s) Ho) as (t' & -> & Hs & Hn & Hl). cbn [option_map].
    eexists. split; [reflexivity|]. cbn [st_tree st_size]. split; [exact Hs|].
    destruct (find_loc cmp v (st_tree s) []).
    + rewrite Hz, Hl by discriminate. lia.
    + rewrite Hz, Hn; reflexivity.
  - pose proof (node_at_spec (st_tree s) k []) as Hn. destruct (node_at k (st_tree s) []) as [x|].
    + destruct Hn as (a & b & H1 & H2 & H3 & H4).
      destruct (delete_hint_spec x) as (t' & -> & Hi). cbn [option_map].
      eexists. split; [reflexivity|]. cbn [st_tree st_size]. rewrite Hi, H3, H4. cbn [before after app].
      rewrite app_nil_r. rewrite H1, Hz, H1. subst k. split; [constructor|].
      rewrite !app_length. cbn [length]. lia.
    + exists s. split; [reflexivity|]. split; [constructor; exact Hn|exact Hz].
Qed.

Lemma splay_run_spec : forall ops (s : stree A), ordered cmp (inorder (st_tree s)) ->
  st_size s = N.of_nat (length (inorder (st_tree s))) ->
  exists s', splay_run cmp s ops = Some s' /\ spec_run cmp (inorder (st_tree s)) ops (inorder (st_tree s')) /\
    ordered cmp (inorder (st_tree s')) /\ st_size s' = N.of_nat (length (inorder (st_tree s'))).
Proof.
  induction ops as [|o ops IH]; intros s Ho Hz; cbn [splay_run].
  - exists s. repeat split; try assumption. constructor.
  - destruct (splay_step_spec s o Ho Hz) as (s1 & -> & Hs & Hz1).
    destruct (IH s1) as (s2 & Hr & Hsr & Ho2 & Hz2); [eapply spec_step_ordered; eassumption|exact Hz1|].
    exists s2. repeat split; try assumption. econstructor; eassumption.
Qed.

Lemma find_previous_spec : forall v t prev, ordered cmp (inorder t) ->
  (match prev with Some p => (cmp v p > 0)%Z /\ (forall y, In y (inorder t) -> (cmp p y <= 0)%Z) | None => True end) ->
  match find_previous cmp v t prev with
  | Some x => (0 <= cmp v x)%Z /\ (In x (inorder t) \/ prev = Some x) /\
              (forall y, In y (inorder t) -> (0 <= cmp v y)%Z -> (cmp y x <= 0)%Z)
  | None => prev = None /\ forall y, In y (inorder t) -> (cmp v y < 0)%Z
  end.
Proof.
  intros v t. induction t as [|l IHl c r IHr]; intros prev Ho Hp; cbn [find_previous inorder].
  - destruct prev as [p|]; [|split; [reflexivity|intros y []]]. split; [lia|]. split; [right; reflexivity|intros y []].
  - cbn [inorder] in Ho. apply ordered_app in Ho. destruct Ho as (O1 & O2 & O3).
    cbn [ordered] in O2. destruct O2 as (O2 & O4). cbn [inorder] in Hp.
    destruct (cmp v c =? 0)%Z eqn:E1; [|destruct (cmp v c <? 0)%Z eqn:E2].
    + split; [lia|]. split; [left; apply in_or_app; right; left; reflexivity|].
      intros y Hy Hvy. apply in_app_or in Hy. destruct Hy as [Hy|[<-|Hy]].
      * apply O3; [exact Hy|left; reflexivity].
      * pose proof (cmp_anti c c). lia.
      * assert (Hyv : (cmp y v <= 0)%Z) by (apply cmp_ge_le; exact Hvy).
        apply (cmp_le_trans y v c); [exact Hyv|lia].
    + specialize (IHl prev O1).
      assert (Hp' : match prev with Some p => (cmp v p > 0)%Z /\ (forall y, In y (inorder l) -> (cmp p y <= 0)%Z) | None => True end).
      { destruct prev; [|exact I]. destruct Hp as [Hp1 Hp2]. split; [exact Hp1|]. intros y Hy. apply Hp2.
        apply in_or_app. left. exact Hy. }
      specialize (IHl Hp'). destruct (find_previous cmp v l prev) as [x|].
      * destruct IHl as (I1 & I2 & I3). split; [exact I1|]. split.
        { destruct I2; [left; apply in_or_app; left; assumption|right; assumption]. }
        intros y Hy Hvy. apply in_app_or in Hy. destruct Hy as [Hy|[<-|Hy]]; [apply I3; assumption|lia|].
        pose proof (cmp_lt_le v c y ltac:(lia) (O2 y Hy)). lia.
      * destruct IHl as (I1 & I2). split; [exact I1|]. intros y Hy. apply in_app_or in Hy.
        destruct Hy as [Hy|[<-|Hy]]; [apply I2; exact Hy|lia|]. apply (cmp_lt_le v c y); [lia|apply O2; exact Hy].
    + specialize (IHr (Some c) O4).
      assert (Hp' : (cmp v c > 0)%Z /\ (forall y, In y (inorder r) -> (cmp c y <= 0)%Z)) by (split; [lia|exact O2]).
      specialize (IHr Hp'). destruct (find_previous cmp v r (Some c)) as [x|].
      * destruct IHr as (I1 & I2 & I3). split; [exact I1|].
        assert (Hcx : (cmp c x <= 0)%Z).
        { destruct I2 as [I2|I2]; [apply O2; exact I2|]. inversion I2; subst. pose proof (cmp_anti x x). lia. }
        split.
        { left. apply in_or_app. right. destruct I2 as [I2|I2]; [right; exact I2|]. inversion I2; left; reflexivity. }
        intros y Hy Hvy. apply in_app_or in Hy. destruct Hy as [Hy|[<-|Hy]]; [|exact Hcx|apply I3; assumption].
        apply (cmp_le_trans y c x); [apply O3; [exact Hy|left; reflexivity]|exact Hcx].
      * destruct IHr as (I1 & _). discriminate.
Qed.
End Cmp.

Lemma leftmost_hd : forall t, leftmost t = hd_error (inorder t).
Proof.
  induction t as [|l IHl v r IHr]; [reflexivity|].
  cbn [leftmost]. destruct l as [|ll lv lr]; [reflexivity|]. rewrite IHl. cbn [inorder].
  destruct (inorder ll); reflexivity.
Qed.

Lemma rightmost_last : forall t, rightmost t = hd_error (rev (inorder t)).
Proof.
  induction t as [|l IHl v r IHr]; [reflexivity|].
  cbn [rightmost]. destruct r as [|rl rv rr]; [cbn [inorder]; rewrite rev_app_distr; reflexivity|]. rewrite IHr.
  cbn [inorder]. rewrite (rev_app_distr (inorder l)). cbn [rev].
  rewrite (rev_app_distr (inorder rl)). cbn [rev].
  destruct (rev (inorder rr)); reflexivity.
Qed.

Lemma climb_after : forall up, climb true up = hd_error (after up).
Proof.
  induction up as [|f up IH]; [reflexivity|]. cbn [climb after]. destruct (f_left f); [reflexivity|exact IH].
Qed.

Lemma climb_before : forall up, climb false up = hd_error (rev (before up)).
Proof.
  induction up as [|f up IH]; [reflexivity|]. cbn [climb before]. destruct (f_left f); cbn [Bool.eqb].
  - exact IH.
  - rewrite app_assoc, rev_app_distr. reflexivity.
Qed.

Lemma next_spec : forall x : loc A, next x = hd_error (loc_after x).
Proof.
  intros x. unfold next, loc_after. destruct (lc_r x) as [|rl rv rr] eqn:E; [apply climb_after|].
  rewrite leftmost_hd. cbn [inorder]. destruct (inorder rl); reflexivity.
Qed.

Lemma previous_spec : forall x : loc A, previous x = hd_error (rev (loc_before x)).
Proof.
  intros x. unfold previous, loc_before. destruct (lc_l x) as [|ll lv lr] eqn:E.
  - cbn [inorder]. rewrite app_nil_r. apply climb_before.
  - rewrite rightmost_last, rev_app_distr. cbn [inorder]. rewrite rev_app_distr. cbn [rev].
    destruct (rev (inorder lr)); reflexivity.
Qed.

Lemma hd_error_nth : forall (a b : list A) v, hd_error b = nth_error (a ++ v :: b) (S (length a)).
Proof.
  intros. rewrite nth_error_app2 by lia. replace (S (length a) - length a)%nat with 1%nat by lia.
  destruct b; reflexivity.
Qed.

Lemma hd_error_rev_nth : forall (a b : list A) v, hd_error (rev a) =
  match length a with O => None | S k => nth_error (a ++ v :: b) k end.
Proof.
  intros a b v. destruct (rev a) as [|z m] eqn:E.
  - apply (f_equal (@rev A)) in E. rewrite rev_involutive in E. subst a. reflexivity.
  - apply (f_equal (@rev A)) in E. rewrite rev_involutive in E. subst a. cbn [rev].
    rewrite app_length. cbn [length hd_error]. rewrite Nat.add_1_r. rewrite <- app_assoc.
    rewrite nth_error_app2 by lia. rewrite Nat.sub_diag. reflexivity.
Qed.

(** Neighbours of the node of rank k. *)
Lemma node_neighbours : forall t k x, node_at k t [] = Some x ->
  nth_error (inorder t) k = Some (lc_v x) /\
  next x = nth_error (inorder t) (S k) /\
  previous x = match k with O => None | S j => nth_error (inorder t) j end.
Proof.
  intros t k x H. pose proof (node_at_spec t k []) as Hn. rewrite H in Hn.
  destruct Hn as (a & b & H1 & H2 & H3 & H4). cbn [before after app] in *. rewrite app_nil_r in H4.
  rewrite H1, next_spec, previous_spec, H3, H4. subst k.
  split; [|split; [apply hd_error_nth|apply hd_error_rev_nth]].
  rewrite nth_error_app2 by lia. rewrite Nat.sub_diag. reflexivity.
Qed.

Lemma node_at_exists : forall t k, (k < length (inorder t))%nat -> exists x, node_at k t [] = Some x.
Proof.
  intros t k H. pose proof (node_at_spec t k []) as Hn. destruct (node_at k t []); [eauto|lia].
Qed.
End Splay.

(** Statements about histories *)
Lemma splay_history : forall A (cmp : A -> A -> Z) ops, comparator cmp ->
  exists s, splay_run cmp empty_tree ops = Some s /\ spec_run cmp [] ops (inorder (st_tree s)) /\
    ordered cmp (inorder (st_tree s)) /\ st_size s = N.of_nat (length (inorder (st_tree s))).
Proof. intros A cmp ops H. apply (splay_run_spec cmp H ops empty_tree); [exact I|reflexivity]. Qed.

Lemma splay_find_history : forall A (cmp : A -> A -> Z) ops s v, comparator cmp ->
  splay_run cmp empty_tree ops = Some s ->
  exists res t', find cmp v (st_tree s) = Some (res, t') /\ inorder t' = inorder (st_tree s) /\
    match res with
    | Some x => In x (inorder (st_tree s)) /\ (cmp v x = 0)%Z
    | None => forall y, In y (inorder (st_tree s)) -> (cmp v y <> 0)%Z
    end.
Proof.
  intros A cmp ops s v H Hr. destruct (splay_history A cmp ops H) as (s' & Hr' & _ & Ho & _).
  rewrite Hr in Hr'. inversion Hr'; subst s'. apply find_spec; assumption.
Qed.

Lemma splay_find_previous_history : forall A (cmp : A -> A -> Z) ops s v, comparator cmp ->
  splay_run cmp empty_tree ops = Some s ->
  match find_previous cmp v (st_tree s) None with
  | Some x => In x (inorder (st_tree s)) /\ (0 <= cmp v x)%Z /\
              (forall y, In y (inorder (st_tree s)) -> (0 <= cmp v y)%Z -> (cmp y x <= 0)%Z)
  | None => forall y, In y (inorder (st_tree s)) -> (cmp v y < 0)%Z
  end.
Proof.
  intros A cmp ops s v H Hr. destruct (splay_history A cmp ops H) as (s' & Hr' & _ & Ho & _).
  rewrite Hr in Hr'. inversion Hr'; subst s'.
  pose proof (find_previous_spec cmp H v (st_tree s) None Ho I) as X.
  destruct (find_previous cmp v (st_tree s) None); [|tauto]. destruct X as (X1 & [X2|X2] & X3); [auto|discriminate].
Qed.

Lemma splay_walk : forall A (t : tree A),
  first t = nth_error (inorder t) 0 /\ last_node t = hd_error (rev (inorder t)) /\
  forall k, (k < length (inorder t))%nat -> exists x, node_at k t [] = Some x /\
    nth_error (inorder t) k = Some (lc_v x) /\
    next x = nth_error (inorder t) (S k) /\
    previous x = match k with O => None | S j => nth_error (inorder t) j end.
Proof.
  intros A t. split; [unfold first; rewrite leftmost_hd; destruct (inorder t); reflexivity|].
  split; [apply rightmost_last|].
  intros k Hk. destruct (node_at_exists t k Hk) as (x & Hx). exists x. split; [exact Hx|].
  apply node_neighbours. exact Hx.
Qed.

(** ** The comparison functions in use *)

Lemma sub_compare_val : forall a b, (a < two62)%N -> (b < two62)%N -> sub_compare a b = (Z.of_N a - Z.of_N b)%Z.
Proof.
  intros a b Ha Hb. unfold sub_compare, to_int64, two64. unfold two62 in *.
  change (2 ^ 62)%N with 4611686018427387904%N in *. change (2 ^ 63)%N with 9223372036854775808%N.
  change (2 ^ 64)%N with 18446744073709551616%N. change (2 ^ 64)%Z with 18446744073709551616%Z.
  destruct (N.le_gt_cases b a) as [H|H].
  - replace ((a + 18446744073709551616 - b) mod 18446744073709551616)%N with (a - b)%N.
    + destruct (a - b <? 9223372036854775808)%N eqn:E; lia.
    + symmetry. replace (a + 18446744073709551616 - b)%N with ((a - b) + 1 * 18446744073709551616)%N by lia.
      rewrite N.mod_add by lia. apply N.mod_small. lia.
  - rewrite N.mod_small by lia.
    destruct (a + 18446744073709551616 - b <? 9223372036854775808)%N eqn:E; lia.
Qed.

Lemma sub_compare_comparator :
  comparator (fun a b : { n : N | (n < two62)%N } => sub_compare (proj1_sig a) (proj1_sig b)).
Proof.
  split.
  - intros [a Ha] [b Hb]. cbn [proj1_sig]. rewrite !sub_compare_val by assumption. lia.
  - intros [a Ha] [b Hb] [c Hc]. cbn [proj1_sig]. rewrite !sub_compare_val by assumption. lia.
Qed.

Lemma wake_compare_comparator : comparator wake_compare.
Proof.
  unfold wake_compare. split.
  - intros a b. destruct (N.ltb_spec a b), (N.ltb_spec b a); lia.
  - intros a b c. destruct (N.ltb_spec a b), (N.ltb_spec b a), (N.ltb_spec b c), (N.ltb_spec c b),
      (N.ltb_spec a c), (N.ltb_spec c a); lia.
Qed.

Lemma token_compare_comparator : comparator token_compare.
Proof.
  unfold token_compare. split.
  - intros [a x] [b y]. cbn [fst snd]. destruct (N.eqb_spec a b), (N.eqb_spec b a); try lia;
    destruct (N.ltb_spec x y), (N.ltb_spec y x), (N.ltb_spec a b), (N.ltb_spec b a); lia.
  - intros [a x] [b y] [c z]. cbn [fst snd].
    destruct (N.eqb_spec a b), (N.eqb_spec b c), (N.eqb_spec a c); try lia;
    destruct (N.ltb_spec x y), (N.ltb_spec y x), (N.ltb_spec y z), (N.ltb_spec z y), (N.ltb_spec x z), (N.ltb_spec z x),
      (N.ltb_spec a b), (N.ltb_spec b a), (N.ltb_spec b c), (N.ltb_spec c b), (N.ltb_spec a c), (N.ltb_spec c a); lia.
Qed.
