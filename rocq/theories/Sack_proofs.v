(** Lemmas about the selective acknowledgement list. *)
From Verif Require Import Base Tac Sack_model Sack_spec.

(** Ordered, disjoint, non adjacent ranges, all at or above [lo]. *)
Fixpoint wf_from (lo : N) (l : list sack_item) : Prop :=
  match l with
  | [] => True
  | it :: l' => lo <= ss it /\ ss it <= se it /\ se it < max64 /\ wf_from (se it + 2) l'
  end.

Definition covers (l : list sack_item) (q : N) : Prop :=
  exists it, In it l /\ ss it <= q <= se it.

Definition next_lo (lo : N) (a : list sack_item) : N := fold_left (fun _ it => se it + 2) a lo.

Lemma wf_from_app : forall a b lo,
  wf_from lo (a ++ b) <-> wf_from lo a /\ wf_from (next_lo lo a) b.
Proof.
  induction a as [|x a IH]; intros b lo; cbn [app wf_from next_lo fold_left].
  - tauto.
  - rewrite IH. unfold next_lo. tauto.
Qed.

Lemma next_lo_app : forall a b lo, next_lo lo (a ++ b) = next_lo (next_lo lo a) b.
Proof. intros. unfold next_lo. apply fold_left_app. Qed.

Lemma next_lo_ge : forall a lo, wf_from lo a -> lo <= next_lo lo a.
Proof.
  induction a as [|x a IH]; intros lo H; cbn in *; [lia|].
  destruct H as (H1 & H2 & H3 & H4). apply IH in H4. unfold next_lo in H4. lia.
Qed.

Lemma wf_from_weaken : forall l lo lo', lo' <= lo -> wf_from lo l -> wf_from lo' l.
Proof. destruct l as [|x l]; intros lo lo' Hl H; cbn in *; [exact I|]. intuition lia. Qed.

Lemma wf_from_bounds : forall l lo it, wf_from lo l -> In it l ->
  lo <= ss it /\ ss it <= se it /\ se it < max64.
Proof.
  induction l as [|x l IH]; intros lo it H Hin; cbn in *; [contradiction|].
  destruct H as (H1 & H2 & H3 & H4). destruct Hin as [->|Hin].
  - auto.
  - specialize (IH _ _ H4 Hin). lia.
Qed.

(** items of a prefix end at least 2 below [next_lo] *)
Lemma next_lo_above : forall a lo it, wf_from lo a -> In it a -> se it + 2 <= next_lo lo a.
Proof.
  induction a as [|x a IH]; intros lo it H Hin; cbn in *; [contradiction|].
  destruct H as (H1 & H2 & H3 & H4). destruct Hin as [->|Hin].
  - apply next_lo_ge in H4. exact H4.
  - apply IH; assumption.
Qed.

Lemma split_below_spec : forall l acc pn,
  exists a b, l = a ++ b /\ split_below acc l pn = (rev a ++ acc, b) /\
    Forall (fun it => ss it <= pn) a /\
    match b with [] => True | n :: _ => pn < ss n end.
Proof.
  induction l as [|x l IH]; intros acc pn; cbn [split_below].
  - exists [], []. repeat split; constructor.
  - destruct (ss x <=? pn) eqn:E.
    + destruct (IH (x :: acc) pn) as (a & b & -> & Hs & Ha & Hb).
      exists (x :: a), b. split; [reflexivity|]. split.
      * rewrite Hs. cbn [rev]. rewrite <- app_assoc. reflexivity.
      * split; [constructor; [lia|exact Ha]|exact Hb].
    + exists [], (x :: l). repeat split; [constructor|lia].
Qed.

Lemma rev_append_rev' : forall (a b : list sack_item), rev_append (rev a) b = a ++ b.
Proof. intros. rewrite rev_append_rev, rev_involutive. reflexivity. Qed.

Lemma covers_app : forall a b q, covers (a ++ b) q <-> covers a q \/ covers b q.
Proof.
  intros. unfold covers. split.
  - intros (it & Hin & H). apply in_app_or in Hin. destruct Hin; [left|right]; eauto.
  - intros [(it & Hin & H)|(it & Hin & H)]; exists it; split; auto; apply in_or_app; auto.
Qed.

Lemma covers_cons : forall x b q, covers (x :: b) q <-> (ss x <= q <= se x) \/ covers b q.
Proof.
  intros. unfold covers. split.
  - intros (it & [->|Hin] & H); [left; exact H|right; eauto].
  - intros [H|(it & Hin & H)]; [exists x|exists it]; split; auto; cbn; auto.
Qed.

Lemma covers_nil : forall q, ~ covers [] q.
Proof. intros q (it & [] & _). Qed.

Lemma covers_lo : forall l lo q, wf_from lo l -> covers l q -> lo <= q.
Proof. intros l lo q Hw (it & Hin & H). apply (wf_from_bounds _ _ _ Hw) in Hin. lia. Qed.

Lemma covers_prefix_hi : forall a lo q, wf_from lo a -> covers a q -> q + 2 <= next_lo lo a.
Proof. intros a lo q Hw (it & Hin & H). apply (next_lo_above _ _ _ Hw) in Hin. lia. Qed.

(** The query is exact. *)
Lemma find_range_below_covers : forall l lo pn, wf_from lo l ->
  (match find_range_below l pn with Some it => pn <=? se it | None => false end) = true
  <-> covers l pn.
Proof.
  intros l lo pn Hw. unfold find_range_below.
  destruct (split_below_spec l [] pn) as (a & b & -> & Hs & Ha & Hb). rewrite Hs. cbn [fst].
  rewrite app_nil_r. apply wf_from_app in Hw. destruct Hw as [Hwa Hwb].
  assert (Hnb : ~ covers b pn).
  { intro Hc. destruct b as [|n b]; [exact (covers_nil _ Hc)|].
    cbn [wf_from] in Hwb. destruct Hwb as (_ & W2 & W3 & W4). apply covers_cons in Hc.
    destruct Hc as [Hc|Hc]; [lia|]. apply (covers_lo _ _ _ W4) in Hc. lia. }
  rewrite covers_app.
  destruct (rev a) as [|p ra] eqn:Er.
  - apply (f_equal (@rev _)) in Er. rewrite rev_involutive in Er. cbn in Er. subst a.
    split; [discriminate|]. intros [H|H]; [destruct (covers_nil _ H)|contradiction].
  - apply (f_equal (@rev _)) in Er. rewrite rev_involutive in Er. cbn in Er. subst a.
    apply wf_from_app in Hwa. destruct Hwa as [Hwa Hwp]. cbn [wf_from] in Hwp.
    apply Forall_app in Ha. destruct Ha as [_ Hp]. inversion Hp; subst.
    rewrite N.leb_le. split.
    + intro H. left. apply covers_app. right. apply covers_cons. left. lia.
    + intros [H|H]; [|contradiction]. apply covers_app in H. destruct H as [H|H].
      * apply (covers_prefix_hi _ _ _ Hwa) in H. lia.
      * apply covers_cons in H. destruct H as [H|H]; [lia|destruct (covers_nil _ H)].
Qed.

Lemma pred64_pos : forall x, 0 < x -> pred64 x = x - 1.
Proof. intros x H. unfold pred64. destruct (x =? 0) eqn:E; lia. Qed.

Lemma absorb_spec : forall hi p c ret mx now p2 hi2 c2 ret2,
  absorb p hi c ret mx now = (p2, hi2, c2, ret2) ->
  wf_from (se p + 2) hi -> ss p <= se p -> ss p <= mx -> se p < max64 -> mx < max64 ->
  ss p2 = ss p /\ se p <= se p2 /\ mx <= se p2 /\ se p2 < max64 /\ wf_from (se p2 + 2) hi2 /\
  (forall q, covers (p2 :: hi2) q <-> covers (p :: hi) q \/ ss p <= q <= mx) /\
  ret2 = (if se p <? mx then 0 else ret).
Proof.
  induction hi as [|n hi IH]; intros p c ret mx now p2 hi2 c2 ret2 H Hw Hp Hmx Hse Hmx64;
    cbn [absorb] in H; destruct (se p <? mx) eqn:E.
  - inversion H; subst; clear H. cbn [ss se item_reset]. repeat split; try lia; try exact I.
    + intro Hc. apply covers_cons in Hc. cbn [ss se item_reset] in Hc. destruct Hc as [Hc|Hc].
      * right. lia.
      * left. apply covers_cons. right. exact Hc.
    + intros [Hc|Hc]; apply covers_cons; cbn [ss se item_reset]; [|left; lia].
      apply covers_cons in Hc. destruct Hc as [Hc|Hc]; [left; lia|right; exact Hc].
  - inversion H; subst; clear H. repeat split; try lia; try exact I.
    + intro Hc. left. exact Hc.
    + intros [Hc|Hc]; [exact Hc|]. apply covers_cons. left. lia.
  - cbn [wf_from] in Hw. destruct Hw as (W1 & W2 & W3 & W4).
    rewrite pred64_pos in H by lia.
    destruct (mx <? ss n - 1) eqn:E2.
    + inversion H; subst; clear H. cbn [ss se item_reset]. repeat split; try lia; try exact W4.
      * intro Hc. apply covers_cons in Hc. cbn [ss se item_reset] in Hc. destruct Hc as [Hc|Hc].
        -- right. lia.
        -- left. apply covers_cons. right. exact Hc.
      * intros [Hc|Hc]; apply covers_cons; cbn [ss se item_reset]; [|left; lia].
        apply covers_cons in Hc. destruct Hc as [Hc|Hc]; [left; lia|right; exact Hc].
    + apply IH in H; cbn [ss se item_reset] in *; try assumption; try lia.
      destruct H as (H1 & H2 & H3 & H4 & H5 & H6 & H7).
      repeat split; try assumption; try lia.
      * intro Hc. apply H6 in Hc. destruct Hc as [Hc|Hc]; [|right; lia].
        apply covers_cons in Hc. cbn [ss se item_reset] in Hc. destruct Hc as [Hc|Hc].
        -- destruct (N.le_gt_cases q (se p)) as [L|L].
           ++ left. apply covers_cons. left. lia.
           ++ destruct (N.le_gt_cases q mx) as [L2|L2]; [right; lia|].
              left. apply covers_cons. right. apply covers_cons. left. lia.
        -- left. apply covers_cons. right. apply covers_cons. right. exact Hc.
      * intros Hc. apply H6. destruct Hc as [Hc|Hc]; [|right; exact Hc].
        left. apply covers_cons. cbn [ss se item_reset].
        apply covers_cons in Hc. destruct Hc as [Hc|Hc]; [left; lia|].
        apply covers_cons in Hc. destruct Hc as [Hc|Hc]; [left; lia|right; exact Hc].
      * rewrite H7. destruct (se n <? mx); reflexivity.
  - inversion H; subst; clear H.
    refine (conj _ (conj _ (conj _ (conj _ (conj Hw (conj _ _)))))); try lia; try reflexivity.
    intro q. split.
    + intro Hc. left. exact Hc.
    + intros [Hc|Hc]; [exact Hc|]. apply covers_cons. left. lia.
Qed.

Lemma update_items_spec : forall l c mn mx now l2 c2 ret,
  update_items l c mn mx now = (l2, c2, ret) ->
  wf_from 0 l -> mn <= mx -> mx < max64 ->
  wf_from 0 l2 /\ (forall q, covers l2 q <-> covers l q \/ mn <= q <= mx) /\
  (ret = 0 \/ ret = 1) /\ (ret = 1 <-> (forall q, mn <= q <= mx -> covers l q)).
Proof.
  intros l c mn mx now l2 c2 ret H Hw Hmm Hmx. unfold update_items in H.
  destruct (split_below_spec l [] mn) as (a & b & -> & Hs & Ha & Hb).
  rewrite Hs, app_nil_r in H. clear Hs.
  pose proof Hw as Hw0. apply wf_from_app in Hw. destruct Hw as [Hwa Hwb].
  assert (Hno : (exists ra, rev a = ra) ) by eauto.
  assert (Hcase : (a = [] \/ exists a' p, a = a' ++ [p])).
  { destruct (rev a) as [|p ra] eqn:Er.
    - left. apply (f_equal (@rev _)) in Er. rewrite rev_involutive in Er. exact Er.
    - right. apply (f_equal (@rev _)) in Er. rewrite rev_involutive in Er. cbn in Er. eauto. }
  (* the situation where no range below touches the new one *)
  assert (Hnoov : next_lo 0 a <= mn \/ a = [] ->
    (match b with
     | n :: hi' =>
       if mx <? pred64 (ss n) then
        (rev_append (rev a) (mk_item mn mx now 0 0 :: b), count_insert c, 0)
      else
        let '(p, hi2, c2, ret) :=
          absorb (item_reset mn (se n) now) hi' (count_reset c n) 0 mx now in
        (rev_append (rev a) (p :: hi2), c2, ret)
    | [] => (rev_append (rev a) [mk_item mn mx now 0 0], count_insert c, 0)
    end) = (l2, c2, ret) ->
    wf_from 0 l2 /\ (forall q, covers l2 q <-> covers (a ++ b) q \/ mn <= q <= mx) /\
    (ret = 0 \/ ret = 1) /\ (ret = 1 <-> (forall q, mn <= q <= mx -> covers (a ++ b) q))).
  { intros Hlo H'. clear H.
    assert (Hlo' : next_lo 0 a <= mn) by (destruct Hlo as [Hlo| ->]; [exact Hlo|cbn; lia]).
    assert (Hna : ~ covers a mn).
    { intro Hc. apply (covers_prefix_hi _ _ _ Hwa) in Hc. lia. }
    destruct b as [|n b].
    - rewrite rev_append_rev' in H'. inversion H'; subst; clear H'. split.
      { apply wf_from_app. split; [exact Hwa|]. cbn. lia. }
      split.
      { intro q. rewrite !covers_app, covers_cons. cbn [ss se item_reset].
        pose proof (covers_nil q). tauto. }
      split; [auto|]. split; [discriminate|]. intro Hall. exfalso.
      specialize (Hall mn ltac:(lia)). rewrite app_nil_r in Hall. contradiction.
    - cbn [wf_from] in Hwb. destruct Hwb as (W1 & W2 & W3 & W4).
      rewrite pred64_pos in H' by lia.
      assert (Hnb : ~ covers (n :: b) mn).
      { intro Hc. apply covers_cons in Hc. destruct Hc as [Hc|Hc]; [lia|].
        apply (covers_lo _ _ _ W4) in Hc. lia. }
      assert (Hnall : ~ (forall q, mn <= q <= mx -> covers (a ++ n :: b) q)).
      { intro Hall. specialize (Hall mn ltac:(lia)). apply covers_app in Hall. tauto. }
      destruct (mx <? ss n - 1) eqn:E.
      + rewrite rev_append_rev' in H'. inversion H'; subst; clear H'. split.
        { apply wf_from_app. split; [exact Hwa|]. cbn. repeat split; try lia. exact W4. }
        split.
        { intro q. rewrite !covers_app, !covers_cons. cbn [ss se item_reset]. tauto. }
        split; [auto|]. split; [discriminate|tauto].
      + destruct (absorb (item_reset mn (se n) now) b (count_reset c n) 0 mx now)
          as [[[p2 hi2] c3] r3] eqn:Ea.
        rewrite rev_append_rev' in H'. inversion H'; subst; clear H'.
        apply absorb_spec in Ea; cbn [ss se item_reset] in *; try assumption; try lia.
        destruct Ea as (A1 & A2 & A3 & A4 & A5 & A6 & A7). split.
        { apply wf_from_app. split; [exact Hwa|]. cbn. repeat split; try lia. exact A5. }
        split.
        { intro q. rewrite !covers_app. rewrite A6. rewrite !covers_cons. cbn [ss se item_reset].
          split; [|intuition lia].
          intros [Hc|[[Hc|Hc]|Hc]]; auto.
          destruct (N.le_gt_cases q mx) as [L|L]; [right; lia|].
          left. right. left. lia. }
        assert (ret = 0) by (rewrite A7; destruct (se n <? mx); reflexivity).
        split; [auto|]. split; [lia|tauto]. }
  destruct Hcase as [-> |(a' & p & ->)].
  - cbn [rev] in *. apply Hnoov; auto.
  - rewrite rev_app_distr in *. cbn [rev app] in *.
    pose proof Hwa as Hwa0.
    apply wf_from_app in Hwa. destruct Hwa as [Hwa' Hwp]. cbn [wf_from] in Hwp.
    destruct Hwp as (P1 & P2 & P3 & _).
    assert (Hnl : next_lo 0 (a' ++ [p]) = se p + 2) by (rewrite next_lo_app; reflexivity).
    apply Forall_app in Ha. destruct Ha as [_ Hp]. inversion Hp as [|? ? Hp1 _]; subst. clear Hp.
    assert (Hu : u64 (se p + 1) = se p + 1)
      by (unfold u64; apply N.mod_small; unfold max64, two64 in *; lia).
    rewrite Hu in H.
    destruct (se p + 1 <? mn) eqn:E.
    + apply Hnoov; [left; lia|]. exact H.
    + clear Hnoov. destruct (absorb p b c 1 mx now) as [[[p2 hi2] c3] r3] eqn:Ea.
      rewrite rev_append_rev' in H. inversion H; subst; clear H.
      rewrite Hnl in Hwb.
      apply absorb_spec in Ea; try assumption; try lia.
      destruct Ea as (A1 & A2 & A3 & A4 & A5 & A6 & A7). split.
      { apply wf_from_app. split; [exact Hwa'|]. cbn. repeat split; try lia. exact A5. }
      split.
      { intro q. rewrite <- app_assoc. cbn [app]. rewrite !covers_app. rewrite A6.
        rewrite !covers_cons. split; [|intuition lia].
        intros [Hc|[[Hc|Hc]|Hc]]; auto.
        destruct (N.le_gt_cases q (se p)) as [L|L].
        - left. right. left. lia.
        - right. lia. }
      rewrite <- app_assoc. cbn [app].
      split; [rewrite A7; destruct (se p <? mx); auto|].
      rewrite A7. destruct (se p <? mx) eqn:E3.
      * split; [discriminate|]. intro Hall. exfalso.
        assert (Hq : mn <= N.max mn (se p + 1) <= mx) by lia.
        specialize (Hall _ Hq). apply covers_app in Hall. destruct Hall as [Hc|Hc].
        -- apply (covers_prefix_hi _ _ _ Hwa') in Hc. lia.
        -- apply covers_cons in Hc. destruct Hc as [Hc|Hc]; [lia|].
           apply (covers_lo _ _ _ Hwb) in Hc. lia.
      * split; [|reflexivity]. intros _ q Hq. apply covers_app. right.
        apply covers_cons. left. lia.
Qed.

(** ** Ack of ack *)
Lemma ack_of_ack_items_spec : forall l c d s e l2 c2,
  ack_of_ack_items l c d s e = (l2, c2) -> wf_from 0 l -> s <= e ->
  wf_from 0 l2 /\
  (forall q, covers l2 q -> covers l q) /\
  (forall q, covers l q -> q < s \/ e < q -> covers l2 q) /\
  (forall q, covers l q -> (forall r, covers l r -> r <= q) -> covers l2 q).
Proof.
  intros l c d s e l2 c2 H Hw Hse. unfold ack_of_ack_items in H.
  destruct (split_below_spec l [] s) as (a & b & -> & Hs & Ha & Hb).
  rewrite Hs, app_nil_r in H. clear Hs.
  destruct (rev a) as [|p ra] eqn:Er.
  { inversion H; subst. auto. }
  apply (f_equal (@rev _)) in Er. rewrite rev_involutive in Er. cbn [rev] in Er. subst a.
  set (a' := rev ra) in *.
  assert (Era : ra = rev a') by (unfold a'; rewrite rev_involutive; reflexivity).
  rewrite Era in H. clearbody a'. clear Era ra.
  destruct (ss p =? s) eqn:E1; [|inversion H; subst; auto].
  assert (ss p = s) by lia. subst s. clear E1.
  pose proof Hw as Hw0. apply wf_from_app in Hw. destruct Hw as [Hwa Hwb].
  rewrite next_lo_app in Hwb. cbn [next_lo fold_left] in Hwb.
  apply wf_from_app in Hwa. destruct Hwa as [Hwa Hwp]. cbn [wf_from] in Hwp.
  destruct Hwp as (P1 & P2 & P3 & _).
  destruct b as [|n b].
  - rewrite app_nil_r in *.
    assert (Hp2 : l2 = a' ++ [if e <? se p
                  then mk_item (e + 1) (se p) (tc p) (nb0 p) (nb1 p)
                  else mk_item (se p) (se p) (tc p) (nb0 p) (nb1 p)])
      by (rewrite rev_append_rev' in H; inversion H; reflexivity).
    clear H. subst l2. destruct (e <? se p) eqn:E2.
    + split; [apply wf_from_app; split; [exact Hwa|]; cbn [wf_from ss se]; lia|].
      split; [|split]; intros q; rewrite !covers_app, !covers_cons; cbn [ss se].
      * intuition lia.
      * intuition lia.
      * intros Hc Hmax. destruct Hc as [Hc|[Hc|Hc]]; auto. right. left.
        assert (Hm : se p <= q); [|lia]. apply Hmax. apply covers_app. right. apply covers_cons. left. lia.
    + split; [apply wf_from_app; split; [exact Hwa|]; cbn [wf_from ss se]; lia|].
      split; [|split]; intros q; rewrite !covers_app, !covers_cons; cbn [ss se].
      * intuition lia.
      * intuition lia.
      * intros Hc Hmax. destruct Hc as [Hc|[Hc|Hc]]; auto. right. left.
        assert (Hm : se p <= q); [|lia]. apply Hmax. apply covers_app. right. apply covers_cons. left. lia.
  - cbn [wf_from] in Hwb. destruct Hwb as (W1 & W2 & W3 & W4).
    destruct (se p =? e) eqn:E2; [|inversion H; subst; auto].
    assert (se p = e) by lia. subst e. clear E2.
    destruct (0 <? d)%Z.
    + rewrite rev_append_rev' in H. inversion H; subst; clear H.
      assert (Hcov : forall q, covers (a' ++ mk_item (ss p) (se p) (tc p)
           (if nb0 p <? max_ack_range_repeat then max_ack_range_repeat else nb0 p)
           (if nb1 p <? max_ack_range_repeat then max_ack_range_repeat else nb1 p) :: n :: b) q
           <-> covers ((a' ++ [p]) ++ n :: b) q).
      { intro q. rewrite !covers_app, !covers_cons. cbn [ss se].
        pose proof (covers_nil q). tauto. }
      split.
      { apply wf_from_app. split; [exact Hwa|]. cbn [wf_from ss se]. repeat split; try lia. exact W4. }
      split; [intros q Hq; apply Hcov; exact Hq|].
      split; intros q Hq _; apply Hcov; exact Hq.
    + rewrite rev_append_rev' in H. inversion H; subst; clear H. split.
      { apply wf_from_app. split; [exact Hwa|]. cbn [wf_from]. repeat split; try lia. exact W4. }
      split; [|split]; intros q; rewrite !covers_app, !covers_cons.
      * tauto.
      * pose proof (covers_nil q). intuition lia.
      * intros Hc Hmax. pose proof (covers_nil q).
        destruct Hc as [[Hc|[Hc|Hc]]|Hc]; auto; [|contradiction].
        exfalso. assert (Hm : se n <= q); [|lia].
        apply Hmax. apply covers_app. right. apply covers_cons. left. lia.
Qed.

(** ** Sending *)
Lemma record_sent_at_spec : forall r l k c l2 c2, record_sent_at r k l c = (l2, c2) ->
  forall lo, wf_from lo l -> wf_from lo l2 /\ (forall q, covers l2 q <-> covers l q) .
Proof.
  intros r. induction l as [|x l IH]; intros k c l2 c2 H lo Hw.
  - destruct k; inversion H; subst; split; auto; tauto.
  - destruct k as [|k]; cbn [record_sent_at] in H.
    + inversion H; subst; clear H. cbn [wf_from] in *.
      assert (Hs : ss (item_sent r x) = ss x /\ se (item_sent r x) = se x)
        by (destruct r; split; reflexivity).
      destruct Hs as [-> Hs2]. rewrite Hs2. split; [exact Hw|].
      intro q. rewrite !covers_cons. rewrite Hs2.
      destruct r; cbn [ss item_sent]; tauto.
    + destruct (record_sent_at r k l c) as [l3 c3] eqn:E. inversion H; subst; clear H.
      cbn [wf_from] in *. destruct Hw as (W1 & W2 & W3 & W4).
      destruct (IH _ _ _ _ E _ W4) as [I1 I2]. split; [auto|].
      intro q. rewrite !covers_cons, I2. tauto.
Qed.

(** ** Histories *)
Record run_inv (ops : list sack_op) (s : sack_list) : Prop := {
  ri_delay : sl_delay s = 0%Z;
  ri_wf : wf_from 0 (sl_items s);
  ri_sound : forall q, covers (sl_items s) q -> recorded ops q;
  ri_keep : forall q, recorded ops q -> ~ ack_acked ops q -> covers (sl_items s) q;
  ri_max : forall q, recorded ops q -> (forall r, recorded ops r -> r <= q) ->
           covers (sl_items s) q
}.

Lemma recorded_snoc_upd : forall ops a b t q,
  recorded (ops ++ [OpUpdate a b t]) q <-> recorded ops q \/ a <= q <= b.
Proof.
  intros. unfold recorded. split.
  - intros (a1 & b1 & t1 & Hin & H). apply in_app_or in Hin. destruct Hin as [Hin|[Hin|[]]].
    + left. eauto 6.
    + inversion Hin; subst. right. exact H.
  - intros [(a1 & b1 & t1 & Hin & H)|H].
    + exists a1, b1, t1. split; [apply in_or_app; auto|exact H].
    + exists a, b, t. split; [apply in_or_app; right; left; reflexivity|exact H].
Qed.

Lemma recorded_snoc_other : forall ops o q, (forall a b t, o <> OpUpdate a b t) ->
  (recorded (ops ++ [o]) q <-> recorded ops q).
Proof.
  intros ops o q Ho. unfold recorded. split.
  - intros (a1 & b1 & t1 & Hin & H). apply in_app_or in Hin. destruct Hin as [Hin|[Hin|[]]].
    + eauto 6.
    + subst o. destruct (Ho a1 b1 t1); reflexivity.
  - intros (a1 & b1 & t1 & Hin & H). exists a1, b1, t1. split; [apply in_or_app; auto|exact H].
Qed.

Lemma ack_acked_snoc : forall ops o q, ack_acked ops q -> ack_acked (ops ++ [o]) q.
Proof. intros ops o q (a & b & Hin & H). exists a, b. split; [apply in_or_app; auto|exact H]. Qed.

Lemma run_inv_step : forall ops s o, run_inv ops s -> valid_op o ->
  run_inv (ops ++ [o]) (sack_step s o).
Proof.
  intros ops s o [Hd Hw Hs Hk Hm] Hv. destruct o as [a b t|a b|r k]; cbn [sack_step valid_op] in *.
  - destruct Hv as [Hab Hb]. unfold update_sack_list.
    destruct (update_items (sl_items s) (sl_rc s) a b t) as [[l2 c2] ret] eqn:E.
    rewrite Hd. change (0 <? 0)%Z with false. cbn [fst].
    apply update_items_spec in E; try assumption. destruct E as (W & C & _ & _).
    constructor; cbn [sl_items sl_delay]; try assumption; try reflexivity.
    + intros q Hq. apply recorded_snoc_upd. apply C in Hq. destruct Hq; auto.
    + intros q Hq Hn. apply C. apply recorded_snoc_upd in Hq. destruct Hq as [Hq|Hq]; [left|right; exact Hq].
      apply Hk; [exact Hq|]. intro Ha. apply Hn. apply ack_acked_snoc. exact Ha.
    + intros q Hq Hmax. apply C. apply recorded_snoc_upd in Hq. destruct Hq as [Hq|Hq]; [left|right; exact Hq].
      apply Hm; [exact Hq|]. intros r Hr. apply Hmax. apply recorded_snoc_upd. auto.
  - unfold process_ack_of_ack_range.
    destruct (ack_of_ack_items (sl_items s) (sl_rc s) (sl_delay s) a b) as [l2 c2] eqn:E.
    apply ack_of_ack_items_spec in E; try assumption. destruct E as (W & C1 & C2 & C3).
    assert (Ho : forall a0 b0 t, OpAckOfAck a b <> OpUpdate a0 b0 t) by discriminate.
    constructor; cbn [sl_items sl_delay]; try assumption; try reflexivity.
    + intros q Hq. apply recorded_snoc_other; auto.
    + intros q Hq Hn. apply recorded_snoc_other in Hq; [|exact Ho].
      apply C2.
      * apply Hk; [exact Hq|]. intro Ha. apply Hn. apply ack_acked_snoc. exact Ha.
      * destruct (N.lt_ge_cases q a) as [L|L]; [left; exact L|].
        destruct (N.lt_ge_cases b q) as [L2|L2]; [right; exact L2|].
        exfalso. apply Hn. exists a, b. split; [apply in_or_app; right; left; reflexivity|lia].
    + intros q Hq Hmax. apply recorded_snoc_other in Hq; [|exact Ho].
      assert (Hmax' : forall r, recorded ops r -> r <= q)
        by (intros r Hr; apply Hmax; apply recorded_snoc_other; auto).
      apply C3; [apply Hm; assumption|]. intros r Hr. apply Hmax'. apply Hs. exact Hr.
  - destruct (record_sent_at r k (sl_items s) (sl_rc s)) as [l2 c2] eqn:E.
    destruct (record_sent_at_spec _ _ _ _ _ _ E 0 Hw) as [W C].
    assert (Ho : forall a0 b0 t, OpSent r k <> OpUpdate a0 b0 t) by discriminate.
    constructor; cbn [sl_items sl_delay]; try assumption; try reflexivity.
    + intros q Hq. apply recorded_snoc_other; auto. apply Hs. apply C. exact Hq.
    + intros q Hq Hn. apply recorded_snoc_other in Hq; [|exact Ho]. apply C.
      apply Hk; [exact Hq|]. intro Ha. apply Hn. apply ack_acked_snoc. exact Ha.
    + intros q Hq Hmax. apply recorded_snoc_other in Hq; [|exact Ho]. apply C.
      apply Hm; [exact Hq|]. intros r0 Hr. apply Hmax. apply recorded_snoc_other; auto.
Qed.

Lemma run_inv_run : forall ops, Forall valid_op ops -> run_inv ops (sack_run 0 ops).
Proof.
  intros ops. unfold sack_run. pattern ops. apply rev_ind.
  - intros _. constructor; cbn; try reflexivity; try exact I.
    + intros q (it & [] & _).
    + intros q (a & b & t & [] & _).
    + intros q (a & b & t & [] & _).
  - intros o l IH Hv. apply Forall_app in Hv. destruct Hv as [Hv Ho].
    rewrite fold_left_app. cbn [fold_left]. apply run_inv_step; [apply IH; exact Hv|].
    inversion Ho; assumption.
Qed.

Lemma is_received_covers : forall s pn, sl_delay s = 0%Z -> wf_from 0 (sl_items s) ->
  (is_pn_already_received s pn = true <-> covers (sl_items s) pn).
Proof.
  intros s pn Hd Hw. unfold is_pn_already_received. rewrite Hd.
  change (0 <? 0)%Z with false. cbn [andb]. apply (find_range_below_covers _ 0). exact Hw.
Qed.

Lemma wf_separated : forall l lo, wf_from lo l -> separated (map (fun it => (ss it, se it)) l).
Proof.
  induction l as [|x l IH]; intros lo H; cbn [map separated wf_from] in *; [exact I|].
  destruct H as (H1 & H2 & H3 & H4). split; [exact H2|]. split; [|apply (IH _ H4)].
  destruct l as [|y l]; cbn [map] in *; [exact I|]. cbn [wf_from] in H4. lia.
Qed.

Lemma record_exact : forall ops q,
  Forall valid_op ops -> (forall a b, ~ In (OpAckOfAck a b) ops) ->
  (is_pn_already_received (sack_run 0 ops) q = true <-> recorded ops q).
Proof.
  intros ops q Hv Hn. destruct (run_inv_run ops Hv) as [Hd Hw Hs Hk Hm].
  rewrite is_received_covers by assumption. split; [apply Hs|].
  intro H. apply Hk; [exact H|]. intros (a & b & Hin & _). exact (Hn a b Hin).
Qed.

Lemma record_separated : forall ops, Forall valid_op ops -> separated (ranges (sack_run 0 ops)).
Proof.
  intros ops Hv. destruct (run_inv_run ops Hv) as [Hd Hw Hs Hk Hm].
  unfold ranges. apply (wf_separated _ 0). exact Hw.
Qed.

Lemma record_never_invents : forall ops q, Forall valid_op ops ->
  is_pn_already_received (sack_run 0 ops) q = true -> recorded ops q.
Proof.
  intros ops q Hv H. destruct (run_inv_run ops Hv) as [Hd Hw Hs Hk Hm].
  apply Hs. apply is_received_covers; assumption.
Qed.

Lemma record_kept : forall ops q, Forall valid_op ops -> recorded ops q -> ~ ack_acked ops q ->
  is_pn_already_received (sack_run 0 ops) q = true.
Proof.
  intros ops q Hv H Hn. destruct (run_inv_run ops Hv) as [Hd Hw Hs Hk Hm].
  apply is_received_covers; auto.
Qed.

Lemma wf_last : forall l lo, wf_from lo l ->
  forall it r, rev l = it :: r -> (forall q, covers l q -> q <= se it) /\ covers l (se it).
Proof.
  intros l lo Hw it r Hr.
  apply (f_equal (@rev _)) in Hr. rewrite rev_involutive in Hr. cbn [rev] in Hr. subst l.
  apply wf_from_app in Hw. destruct Hw as [Hwa Hwp]. cbn [wf_from] in Hwp. split.
  - intros q Hc. apply covers_app in Hc. destruct Hc as [Hc|Hc].
    + apply (covers_prefix_hi _ _ _ Hwa) in Hc. lia.
    + apply covers_cons in Hc. destruct Hc as [Hc|Hc]; [lia|destruct (covers_nil _ Hc)].
  - apply covers_app. right. apply covers_cons. left. lia.
Qed.

Lemma last_is_max : forall ops, Forall valid_op ops ->
  forall q, recorded ops q -> (forall r, recorded ops r -> r <= q) ->
  sack_list_last (sack_run 0 ops) = q /\ is_pn_already_received (sack_run 0 ops) q = true.
Proof.
  intros ops Hv q Hq Hmax. destruct (run_inv_run ops Hv) as [Hd Hw Hs Hk Hm].
  specialize (Hm q Hq Hmax). split; [|apply is_received_covers; assumption].
  unfold sack_list_last. destruct (rev (sl_items (sack_run 0 ops))) as [|it r] eqn:Er.
  - apply (f_equal (@rev _)) in Er. rewrite rev_involutive in Er. cbn [rev] in Er.
    rewrite Er in Hm. destruct (covers_nil _ Hm).
  - destruct (wf_last _ _ Hw _ _ Er) as [H1 H2].
    specialize (H1 q Hm). apply Hs in H2. apply Hmax in H2. lia.
Qed.

Lemma update_reports_duplicate : forall ops pn t, Forall valid_op ops -> pn < max64 ->
  snd (record_pn_received (sack_run 0 ops) pn t) =
  if is_pn_already_received (sack_run 0 ops) pn then 1 else 0.
Proof.
  intros ops pn t Hv Hpn. destruct (run_inv_run ops Hv) as [Hd Hw _ _ _].
  unfold record_pn_received, update_sack_list.
  destruct (update_items (sl_items (sack_run 0 ops)) (sl_rc (sack_run 0 ops)) pn pn t) as [[l2 c2] ret] eqn:E.
  rewrite Hd. change (0 <? 0)%Z with false. cbn [snd].
  apply update_items_spec in E; try assumption; [|lia]. destruct E as (_ & _ & R & R1).
  pose proof (is_received_covers _ pn Hd Hw) as Hir.
  destruct (is_pn_already_received (sack_run 0 ops) pn).
  - apply R1. intros q Hq. replace q with pn by lia. apply Hir. reflexivity.
  - destruct R as [R|R]; [exact R|]. exfalso.
    assert (Hc : covers (sl_items (sack_run 0 ops)) pn)
      by (apply (proj1 R1 R); lia). apply Hir in Hc. discriminate.
Qed.

(** ** Counters *)
Lemma cntf_cons : forall f x l j, cntf f (x :: l) j = ((if N.eqb (f x) j then 1 else 0) + cntf f l j)%Z.
Proof.
  intros. unfold cntf. cbn [filter]. destruct (f x =? j); cbn [length]; lia.
Qed.

Lemma cntf_app : forall f a b j, cntf f (a ++ b) j = (cntf f a j + cntf f b j)%Z.
Proof.
  intros. unfold cntf. rewrite filter_app, app_length. lia.
Qed.

Lemma cntf_nil : forall f j, cntf f [] j = 0%Z.
Proof. reflexivity. Qed.

Definition def0 (c : counts) (l : list sack_item) (j : N) : Z := (rc0 c j - cntf nb0 l j)%Z.
Definition def1 (c : counts) (l : list sack_item) (j : N) : Z := (rc1 c j - cntf nb1 l j)%Z.

Ltac count_tac :=
  unfold def0, def1, count_reset, count_insert, count_delete, bump, max_ack_range_repeat in *;
  cbn [rc0 rc1] in *;
  rewrite ?cntf_app, ?cntf_cons, ?cntf_nil in *; cbn [nb0 nb1 item_reset] in *;
  repeat match goal with
  | |- context [?a <? ?b] => let E := fresh "E" in destruct (a <? b) eqn:E
  | |- context [?a =? ?b] => let E := fresh "E" in destruct (a =? b) eqn:E
  end; try lia.

Lemma absorb_counts : forall hi p c ret mx now p2 hi2 c2 ret2 j, j < 4 ->
  absorb p hi c ret mx now = (p2, hi2, c2, ret2) ->
  def0 c2 (p2 :: hi2) j = def0 c (p :: hi) j /\ def1 c2 (p2 :: hi2) j = def1 c (p :: hi) j.
Proof.
  induction hi as [|n hi IH]; intros p c ret mx now p2 hi2 c2 ret2 j Hj H;
    cbn [absorb] in H; destruct (se p <? mx) eqn:E.
  - inversion H; subst; clear H E. split; count_tac.
  - inversion H; subst; auto.
  - destruct (mx <? pred64 (ss n)).
    + inversion H; subst; clear H E. split; count_tac.
    + apply (IH _ _ _ _ _ _ _ _ _ j Hj) in H. destruct H as [H0 H1]. rewrite H0, H1.
      clear IH H0 H1 E. split; count_tac.
  - inversion H; subst; auto.
Qed.

Lemma update_items_counts : forall l c mn mx now l2 c2 ret j, j < 4 ->
  update_items l c mn mx now = (l2, c2, ret) ->
  def0 c2 l2 j = def0 c l j /\ def1 c2 l2 j = def1 c l j.
Proof.
  intros l c mn mx now l2 c2 ret j Hj H. unfold update_items in H.
  destruct (split_below_spec l [] mn) as (a & b & -> & Hs & _ & _).
  rewrite Hs, app_nil_r in H. clear Hs.
  assert (Hpre : forall c1 c' x y, def0 c1 x j = def0 c' y j -> def1 c1 x j = def1 c' y j ->
            forall a, def0 c1 (a ++ x) j = def0 c' (a ++ y) j /\ def1 c1 (a ++ x) j = def1 c' (a ++ y) j).
  { intros c1 c' x y H0 H1 a0. unfold def0, def1 in *. rewrite !cntf_app. lia. }
  destruct (match rev a with [] => true | p :: _ => u64 (se p + 1) <? mn end).
  - destruct b as [|n b].
    + rewrite rev_append_rev' in H. inversion H; subst; clear H. split; count_tac.
    + destruct (mx <? pred64 (ss n)).
      * rewrite rev_append_rev' in H. inversion H; subst; clear H. split; count_tac.
      * destruct (absorb (item_reset mn (se n) now) b (count_reset c n) 0 mx now)
          as [[[p2 hi2] c3] r3] eqn:Ea.
        rewrite rev_append_rev' in H. inversion H; subst; clear H.
        apply (absorb_counts _ _ _ _ _ _ _ _ _ _ j Hj) in Ea. destruct Ea as [H0 H1].
        apply Hpre; [rewrite H0|rewrite H1]; clear H0 H1 Hpre; count_tac.
  - destruct (rev a) as [|p ra] eqn:Er; [inversion H; subst; auto|].
    apply (f_equal (@rev _)) in Er. rewrite rev_involutive in Er. cbn [rev] in Er. subst a.
    destruct (absorb p b c 1 mx now) as [[[p2 hi2] c3] r3] eqn:Ea.
    inversion H; subst; clear H. rewrite rev_append_rev. rewrite <- app_assoc. cbn [app].
    apply (absorb_counts _ _ _ _ _ _ _ _ _ _ j Hj) in Ea. destruct Ea as [H0 H1].
    apply Hpre; assumption.
Qed.

Lemma ack_of_ack_counts : forall l c d s e l2 c2 j, j < 4 ->
  ack_of_ack_items l c d s e = (l2, c2) ->
  def0 c2 l2 j = def0 c l j /\ def1 c2 l2 j = def1 c l j.
Proof.
  intros l c d s e l2 c2 j Hj H. unfold ack_of_ack_items in H.
  destruct (split_below_spec l [] s) as (a & b & -> & Hs & _ & _).
  rewrite Hs, app_nil_r in H. clear Hs.
  destruct (rev a) as [|p ra] eqn:Er; [inversion H; subst; auto|].
  apply (f_equal (@rev _)) in Er. rewrite rev_involutive in Er. cbn [rev] in Er. subst a.
  destruct (ss p =? s); [|inversion H; subst; auto].
  destruct b as [|n b].
  - inversion H; subst; clear H. rewrite rev_append_rev.
    split; destruct (e <? se p); count_tac.
  - destruct (se p =? e); [|inversion H; subst; auto].
    destruct (0 <? d)%Z; inversion H; subst; clear H; rewrite rev_append_rev; split; count_tac.
Qed.

Lemma record_sent_counts : forall r l k c l2 c2 j, j < 4 -> record_sent_at r k l c = (l2, c2) ->
  def0 c2 l2 j = def0 c l j /\ def1 c2 l2 j = def1 c l j.
Proof.
  intros r. induction l as [|x l IH]; intros k c l2 c2 j Hj H.
  - destruct k; inversion H; subst; auto.
  - destruct k as [|k]; cbn [record_sent_at] in H.
    + inversion H; subst; clear H IH.
      unfold count_sent, item_sent, bump_sent.
      destruct r; split; cbn [rc0 rc1]; count_tac.
    + destruct (record_sent_at r k l c) as [l3 c3] eqn:E. inversion H; subst; clear H.
      apply (IH _ _ _ _ j Hj) in E. unfold def0, def1 in *. rewrite !cntf_cons. lia.
Qed.

Lemma counts_exact : forall ops j, j < 4 ->
  let s := sack_run 0 ops in
  rc0 (sl_rc s) j = cntf nb0 (sl_items s) j /\ rc1 (sl_rc s) j = cntf nb1 (sl_items s) j.
Proof.
  intros ops j Hj. cbn zeta. unfold sack_run.
  assert (H : sl_delay (fold_left sack_step ops (sack_list_init 0)) = 0%Z /\
              def0 (sl_rc (fold_left sack_step ops (sack_list_init 0)))
                   (sl_items (fold_left sack_step ops (sack_list_init 0))) j = 0%Z /\
              def1 (sl_rc (fold_left sack_step ops (sack_list_init 0)))
                   (sl_items (fold_left sack_step ops (sack_list_init 0))) j = 0%Z);
    [|unfold def0, def1 in H; lia].
  pattern ops. apply rev_ind; [repeat split|].
  intros o l (Hd & H0 & H1). rewrite fold_left_app. cbn [fold_left].
  set (s := fold_left sack_step l (sack_list_init 0)) in *. clearbody s.
  destruct o as [a b t|a b|r k]; cbn [sack_step].
  - unfold update_sack_list.
    destruct (update_items (sl_items s) (sl_rc s) a b t) as [[l2 c2] ret] eqn:E.
    rewrite Hd. change (0 <? 0)%Z with false. cbn [fst sl_delay sl_rc sl_items].
    apply (update_items_counts _ _ _ _ _ _ _ _ j Hj) in E. destruct E as [-> ->]. auto.
  - unfold process_ack_of_ack_range.
    destruct (ack_of_ack_items (sl_items s) (sl_rc s) (sl_delay s) a b) as [l2 c2] eqn:E.
    cbn [sl_delay sl_rc sl_items].
    apply (ack_of_ack_counts _ _ _ _ _ _ _ j Hj) in E. destruct E as [-> ->]. auto.
  - destruct (record_sent_at r k (sl_items s) (sl_rc s)) as [l2 c2] eqn:E.
    cbn [sl_delay sl_rc sl_items].
    apply (record_sent_counts _ _ _ _ _ _ j Hj) in E. destruct E as [-> ->]. auto.
Qed.

(** ** Replay after ack of ack *)
Lemma replay_accepted : forall d, (d = 0 \/ d = 1000)%Z ->
  exists ops q, Forall valid_op ops /\ recorded ops q /\
    is_pn_already_received (sack_run d ops) q = false.
Proof.
  intros d Hd.
  exists [OpUpdate 0 0 10; OpUpdate 1 1 11; OpUpdate 2 2 12; OpSent false 0; OpAckOfAck 0 2], 1.
  split; [repeat constructor; vm_compute; congruence|]. split.
  - exists 1, 1, 11. split; [cbn; tauto|lia].
  - destruct Hd as [-> | ->]; vm_compute; reflexivity.
Qed.
