(** Proofs about NewReno: the end of slow start because of delays. *)
From Verif Require Import Base Tac Reno_model Reno_spec Reno_proofs.

Lemma set_sample_length l : forall i v, length (set_sample l i v) = length l.
Proof. induction l as [ | x l IH]; intros [ | i] v; cbn; [reflexivity | reflexivity | reflexivity | rewrite IH; reflexivity]. Qed.

Lemma set_sample_nth l : forall i v k, (i < length l)%nat -> nth k (set_sample l i v) 0 = if Nat.eqb k i then v else nth k l 0.
Proof.
  induction l as [ | x l IH]; intros [ | i] v [ | k] H; cbn in *; try reflexivity; try lia.
  apply IH. lia.
Qed.

(** The loop computes values among those of the list that bound it. *)
Lemma minmax_loop_in l : forall mn mx, mn <= mx ->
  let r := minmax_loop l mn mx in
  (fst r = mn \/ In (fst r) l) /\ (snd r = mx \/ In (snd r) l) /\ fst r <= snd r /\
  fst r <= mn /\ mx <= snd r /\ (forall x, In x l -> fst r <= x <= snd r).
Proof.
  induction l as [ | x l IH]; intros mn mx H; cbn [minmax_loop].
  - cbv zeta. cbn [fst snd]. repeat split; auto; try lia; contradiction.
  - destruct (x <? mn) eqn:E1; [ | destruct (mx <? x) eqn:E2].
    + destruct (IH x mx ltac:(lia)) as [A [B [C [D [E F]]]]]. cbv zeta in *.
      repeat split; try lia.
      * destruct A as [A | A]; [right; left; auto | right; right; exact A].
      * destruct B as [B | B]; [left; exact B | right; right; exact B].
      * destruct H0 as [<- | H0]; [lia | apply F; exact H0].
      * destruct H0 as [<- | H0]; [lia | apply F; exact H0].
    + destruct (IH mn x ltac:(lia)) as [A [B [C [D [E F]]]]]. cbv zeta in *.
      repeat split; try lia.
      * destruct A as [A | A]; [left; exact A | right; right; exact A].
      * destruct B as [B | B]; [right; left; auto | right; right; exact B].
      * destruct H0 as [<- | H0]; [lia | apply F; exact H0].
      * destruct H0 as [<- | H0]; [lia | apply F; exact H0].
    + destruct (IH mn mx ltac:(lia)) as [A [B [C [D [E F]]]]]. cbv zeta in *.
      repeat split; try lia.
      * destruct A as [A | A]; [left; exact A | right; right; exact A].
      * destruct B as [B | B]; [left; exact B | right; right; exact B].
      * destruct H0 as [<- | H0]; [lia | apply F; exact H0].
      * destruct H0 as [<- | H0]; [lia | apply F; exact H0].
Qed.

(** The state of the filter after the round trip times [l]. *)
Record filter_inv (l : list N) (t : minmax) : Prop := {
  fv_length : length (mm_samples t) = 7%nat;
  fv_index : (mm_current t < 7)%nat;
  fv_start : mm_init t = false -> (mm_current t <= length l)%nat /\ mm_excess t = 0;
  fv_full : mm_init t = true -> mm_excess t + 6 <= N.of_nat (length l) /\ 7 <= N.of_nat (length l);
  fv_values : forall k, (k < if mm_init t then 7 else mm_current t)%nat -> In (nth k (mm_samples t) 0) l;
  fv_filtered : mm_filtered t = 0 \/ In (mm_filtered t) l
}.

Lemma filter_start : filter_inv [] minmax_start.
Proof. constructor; cbn; try lia; auto; try discriminate. Qed.

Lemma filter_more l x t : filter_inv l t -> filter_inv (l ++ [x]) t.
Proof.
  intros I. destruct I as [A B C D E F]. constructor; auto; rewrite ?app_length; cbn [length].
  - intros H. destruct (C H). split; [lia | assumption].
  - intros H. destruct (D H). lia.
  - intros k H. apply in_or_app. left. auto.
  - destruct F as [F | F]; [left; exact F | right; apply in_or_app; left; exact F].
Qed.

(** A sample: the bounds computed are among the round trip times. *)
Lemma filter_step l t rtt t' : filter_inv l t -> filter_min_max t rtt = Some t' ->
  length (mm_samples t') = 7%nat /\ (mm_current t' < 7)%nat /\
  (mm_init t' = false -> (mm_current t' <= length (l ++ [rtt]))%nat /\ mm_init t = false) /\
  (mm_init t' = true -> 7 <= N.of_nat (length (l ++ [rtt]))) /\
  (forall k, (k < if mm_init t' then 7 else mm_current t')%nat -> In (nth k (mm_samples t') 0) (l ++ [rtt])) /\
  (mm_init t' = true -> In (mm_min t') (l ++ [rtt]) /\ In (mm_max t') (l ++ [rtt])) /\
  mm_filtered t' = mm_filtered t /\ mm_excess t' = mm_excess t /\ (mm_init t = true -> mm_init t' = true).
Proof.
  intros [A B C D E F] H. unfold filter_min_max in H.
  replace (mm_current t <? 7)%nat with true in H by (symmetry; apply Nat.ltb_lt; exact B).
  cbv zeta in H. set (x := mm_current t) in *. set (sm := set_sample (mm_samples t) x rtt) in *.
  set (ini := mm_init t || (7 <=? S x)%nat) in *.
  assert (HL : length sm = 7%nat) by (unfold sm; rewrite set_sample_length; exact A).
  assert (HV : forall k, (k < if ini then 7 else S x)%nat -> In (nth k sm 0) (l ++ [rtt])).
  { intros k Hk. unfold sm. rewrite set_sample_nth by lia. apply in_or_app.
    destruct (Nat.eqb k x) eqn:Ek; [right; left; reflexivity | ]. apply Nat.eqb_neq in Ek. left. apply E.
    unfold ini in Hk. destruct (mm_init t); cbn [orb] in Hk; [exact Hk | ].
    destruct (7 <=? S x)%nat eqn:E7; [apply Nat.leb_le in E7; lia | lia]. }
  destruct (minmax_loop _ _ _) as [mn mx] eqn:Em. apply some_inj in H. subst t'.
  cbn [mm_samples mm_current mm_init mm_min mm_max mm_filtered mm_excess].
  split; [exact HL | ]. split.
  { destruct (7 <=? S x)%nat eqn:E7; [lia | apply Nat.leb_gt in E7; lia]. }
  split.
  { intros Hi. unfold ini in Hi. apply orb_false_elim in Hi. destruct Hi as [H1 H2]. rewrite H2, app_length. cbn [length].
    destruct (C H1). split; [lia | exact H1]. }
  split.
  { intros Hi. rewrite app_length. cbn [length]. unfold ini in Hi. destruct (mm_init t) eqn:E0; [destruct (D eq_refl); lia | ].
    cbn [orb] in Hi. apply Nat.leb_le in Hi. destruct (C eq_refl). lia. }
  split.
  { intros k Hk. apply HV. destruct ini eqn:Ei; [exact Hk | ].
    unfold ini in Ei. apply orb_false_elim in Ei. destruct Ei as [_ H2]. rewrite H2 in Hk. exact Hk. }
  split.
  { intros Hi. rewrite Hi in *.
    assert (H0 : In (nth 0 sm 0) (l ++ [rtt])) by (apply HV; lia).
    assert (HI : forall y, In y (firstn (7 - 1) (skipn 1 sm)) -> In y (l ++ [rtt])).
    { intros y Hy. rewrite firstn_all2 in Hy by (rewrite skipn_length; lia).
      destruct sm as [ | s0 sm']; [cbn in HL; lia | ]. cbn [skipn] in Hy. destruct (In_nth _ _ 0 Hy) as [k [K1 K2]].
      cbn [length] in HL. rewrite <- K2. apply (HV (S k)). lia. }
    pose proof (minmax_loop_in (firstn (7 - 1) (skipn 1 sm)) (nth 0 sm 0) (nth 0 sm 0) ltac:(lia)) as M.
    rewrite Em in M. cbv zeta in M. cbn [fst snd] in M. destruct M as [M1 [M2 _]].
    split; [destruct M1 as [-> | M1]; [exact H0 | auto] | destruct M2 as [-> | M2]; [exact H0 | auto]]. }
  split; [reflexivity | ]. split; [reflexivity | ]. intros Hi. unfold ini. rewrite Hi. reflexivity.
Qed.

Lemma hystart_inv l t rtt now t' b : filter_inv l t -> hystart_test t rtt now = Some (t', b) ->
  filter_inv (l ++ [rtt]) t' /\
  (b = true -> 13 <= N.of_nat (length (l ++ [rtt])) /\
    exists x y, In x (l ++ [rtt]) /\ In y (l ++ [rtt]) /\ u64 (x + x / 4) < y).
Proof.
  intros I H. unfold hystart_test in H. destruct (u64 (mm_last t + 1000) <? now).
  2:{ apply some_pair_inj in H. destruct H as [<- <-]. split; [apply filter_more; exact I | discriminate]. }
  destruct (filter_min_max t rtt) as [t1 | ] eqn:E1; [ | discriminate].
  destruct (filter_step l t rtt t1 I E1) as [A [B [C [D [V [M [Fe [Ee J]]]]]]]].
  cbv zeta in H. cbn [mm_init mm_filtered mm_excess mm_current mm_min mm_max mm_samples mm_last] in H.
  destruct (mm_init t1) eqn:Ei.
  2:{ apply some_pair_inj in H. destruct H as [<- <-]. split; [ | discriminate].
      destruct (C eq_refl) as [C1 C2]. constructor; cbn [mm_init mm_filtered mm_excess mm_current mm_min mm_max mm_samples mm_last]; rewrite ?Ei; auto.
      - intros _. split; [exact C1 | ]. rewrite Ee. apply (fv_start _ _ I C2).
      - discriminate.
      - rewrite Fe. destruct (fv_filtered _ _ I) as [F | F]; [left; exact F | right; apply in_or_app; left; exact F]. }
  destruct (M eq_refl) as [M1 M2]. specialize (D eq_refl).
  set (f := if _ || _ then _ else _) in *.
  assert (Hf : In f (l ++ [rtt])).
  { unfold f. destruct (mm_filtered t1 =? 0) eqn:E0; cbn [orb]; [exact M2 | ].
    destruct (mm_max t1 <? mm_filtered t1); [exact M2 | ]. rewrite Fe in E0 |- *.
    destruct (fv_filtered _ _ I) as [F | F]; [lia | apply in_or_app; left; exact F]. }
  assert (Hx : mm_excess t1 + 6 <= N.of_nat (length l)  \/ mm_excess t1 = 0).
  { rewrite Ee. destruct (mm_init t) eqn:E0; [left; apply (fv_full _ _ I E0) | right; apply (fv_start _ _ I E0)]. }
  rewrite app_length in D |- *. cbn [length] in D |- *.
  assert (G : forall n, n <= mm_excess t1 + 1 -> filter_inv (l ++ [rtt])
    (mk_minmax now f n (mm_current t1) true (mm_min t1) (mm_max t1) (mm_samples t1))).
  { intros n Hn. constructor; cbn [mm_init mm_filtered mm_excess mm_current mm_min mm_max mm_samples mm_last]; auto.
    - discriminate.
    - intros _. rewrite app_length. cbn [length]. lia. }
  destruct (f <? mm_min t1); [ | apply some_pair_inj in H; destruct H as [<- <-]; split; [apply G; lia | discriminate]].
  destruct (u64 (f + f / 4) <? mm_min t1) eqn:Eq; [ | apply some_pair_inj in H; destruct H as [<- <-]; split; [apply G; lia | discriminate]].
  apply some_pair_inj in H; destruct H as [<- <-]. split; [apply G; lia | ]. intros Hb. apply N.leb_le in Hb.
  split; [lia | ]. exists f, (mm_min t1). split; [exact Hf | ]. split; [exact M1 | lia].
Qed.

Lemma rtts_app a : forall l b, rtts l (a ++ b) = rtts (rtts l a) b.
Proof. induction a as [ | [n i] a IH]; intros l b; cbn [rtts app]; [reflexivity | apply IH]. Qed.

Lemma notify_filter l r n i r' : filter_inv l (re_filter r) -> reno_notify r n i = Some r' ->
  filter_inv (rtts l [(n, i)]) (re_filter r').
Proof.
  intros I H. cbn [rtts]. destruct n; cbn [reno_notify] in H; unfold notify_copy in H.
  - destruct (initial_slow (re_sim r)); (destruct (ci_limited i);
      [apply some_inj in H; subst r'; exact I | destruct (sim_notify _ _ _); [ | discriminate]; apply some_inj in H; subst r'; exact I]).
  - destruct (sim_notify _ _ _); [ | discriminate]; apply some_inj in H; subst r'; exact I.
  - destruct (sim_notify _ _ _); [ | discriminate]; apply some_inj in H; subst r'; exact I.
  - destruct (sim_notify _ _ _); [ | discriminate]; apply some_inj in H; subst r'; exact I.
  - destruct (initial_slow (re_sim r)); [ | apply some_inj in H; subst r'; apply filter_more; exact I].
    set (r1 := if 100000 <? ci_rtt_min i then _ else r) in H.
    assert (E1 : re_filter r1 = re_filter r) by (unfold r1; destruct (100000 <? ci_rtt_min i); reflexivity).
    destruct (hystart_test (re_filter r1) (ci_rtt i) (ci_now i)) as [[f b] | ] eqn:Eh; [ | discriminate].
    rewrite E1 in Eh. destruct (hystart_inv _ _ _ _ _ _ I Eh) as [I1 _].
    destruct b; apply some_inj in H; subst r'; exact I1.
  - destruct (sim_notify _ _ _); [ | discriminate]; apply some_inj in H; subst r'; exact I.
  - apply some_inj in H; subst r'; exact I.
  - destruct (sim_notify _ _ _); [ | discriminate]; apply some_inj in H; subst r'; exact I.
  - apply some_inj in H; subst r'. exact filter_start.
  - apply some_inj in H; subst r'; exact I.
Qed.

Lemma run_filter h : forall l r r', filter_inv l (re_filter r) -> reno_run r h = Some r' -> filter_inv (rtts l h) (re_filter r').
Proof.
  induction h as [ | [n i] h IH]; intros l r r' I H; cbn [reno_run rtts] in *.
  - apply some_inj in H. subst r'. exact I.
  - destruct (reno_notify r n i) as [r1 | ] eqn:E1; [ | discriminate]. apply (IH _ r1 r'); [ | exact H].
    apply (notify_filter l r n i r1 I E1).
Qed.

(** When a measurement ends slow start. *)
Lemma slow_start_end h i r r' : reno_run reno_reset h = Some r -> reno_run reno_reset (h ++ [(NRtt, i)]) = Some r' ->
  nr_slow (re_sim r) = true -> nr_slow (re_sim r') = false ->
  13 <= N.of_nat (length (rtts [] (h ++ [(NRtt, i)]))) /\
  exists x y, In x (rtts [] (h ++ [(NRtt, i)])) /\ In y (rtts [] (h ++ [(NRtt, i)])) /\ u64 (x + x / 4) < y.
Proof.
  intros E E2 S1 S2. pose proof (run_filter h [] reno_reset r filter_start E) as I.
  rewrite reno_run_app, E in E2. cbn [reno_run] in E2. rewrite rtts_app. cbn [rtts].
  destruct (reno_notify r NRtt i) as [r1 | ] eqn:E1; [ | discriminate]. apply some_inj in E2. subst r1.
  cbn [reno_notify] in E1. destruct (initial_slow (re_sim r)); [ | apply some_inj in E1; subst r'; congruence].
  set (r1 := if 100000 <? ci_rtt_min i then _ else r) in E1.
  assert (F1 : re_filter r1 = re_filter r /\ nr_slow (re_sim r1) = true).
  { unfold r1; destruct (100000 <? ci_rtt_min i); (split; [reflexivity | exact S1]). }
  destruct F1 as [F1 F2].
  destruct (hystart_test (re_filter r1) (ci_rtt i) (ci_now i)) as [[f b] | ] eqn:Eh; [ | discriminate].
  rewrite F1 in Eh. destruct (hystart_inv _ _ _ _ _ _ I Eh) as [_ Q].
  destruct b; [apply Q; reflexivity | ]. apply some_inj in E1. subst r'. cbn [re_sim] in S2. congruence.
Qed.
