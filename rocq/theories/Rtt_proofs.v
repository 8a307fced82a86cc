(** Proofs about round trip time estimates. *)
From Verif Require Import Base Tac Rtt_model Rtt_spec.

Lemma u64_small n : n < two64 -> u64 n = n.
Proof. intros H. unfold u64. apply N.mod_small. exact H. Qed.

Lemma u64_sub a b : b <= a -> a < two64 -> u64 (a + two64 - b) = a - b.
Proof.
  intros H1 H2. unfold u64. replace (a + two64 - b) with ((a - b) + 1 * two64) by lia.
  rewrite N.mod_add by discriminate. apply N.mod_small. lia.
Qed.

(** What holds of a path after the measurements [h]. *)
Record rtt_inv (lo hi D : N) (h : list measure) (p : rtt) : Prop := {
  ri_nb : rt_nb p <= N.of_nat (length h);
  ri_zero : rt_nb p = 0 -> rt_sum p = 0;
  ri_period : 0 < rt_nb p ->
    rt_nb p * rt_pmin p <= rt_sum p <= rt_nb p * rt_pmax p /\ lo <= rt_pmin p /\ rt_pmin p <= rt_pmax p /\ rt_pmax p <= hi /\ rt_pmax p <= rt_max p;
  ri_init : rt_init p = true ->
    lo <= rt_min p /\ rt_min p <= rt_smoothed p /\ rt_smoothed p <= hi /\ rt_variant p <= hi /\
    (0 < rt_nb p -> rt_min p <= rt_pmin p) /\ Exists (fun m => observed m = rt_min p) h /\
    Forall (fun m => (0 <= ms_epoch m)%Z -> rt_min p <= observed m) h;
  ri_fresh : rt_init p = false ->
    rt_min p = 0 /\ (0 < rt_nb p -> Exists (fun m => observed m = rt_pmin p) h /\ Forall (fun m => rt_pmin p <= observed m) h) /\
    (rt_nb p = 0 -> h = []);
  ri_timer : rt_timer p <= 250000 + 4 * hi + D;
  ri_max : rt_max p <= hi;
  ri_sample : h <> [] -> lo <= rt_sample p <= hi /\ rt_min p <= rt_sample p;
  ri_last : rt_init p = true -> rt_min p <= rt_max p;
  ri_low : rt_init p = true -> rt_smoothed p + 3 * rt_variant p <= rt_timer p;
  ri_open : 0 < rt_nb p -> rt_sample p <= rt_timer p
}.

Lemma start_inv lo hi D : rtt_inv lo hi D [] rtt_start.
Proof.
  constructor; unfold rtt_start; cbn [rt_nb rt_sum rt_pmin rt_pmax rt_init rt_min rt_smoothed rt_variant rt_timer rt_max rt_sample length];
    try discriminate; try lia; try congruence.
  intros _. split; [reflexivity | ]. split; [lia | auto].
Qed.

(** The sample is an observation, or one corrected that stays above the minimum. *)
Lemma estimate_cases p m D : ms_local_delay m <= D -> rt_min p + D < two64 ->
  (rtt_estimate p m = observed m) \/
  (rt_init p = true /\ rt_min p < rtt_estimate p m /\ rtt_estimate p m <= observed m).
Proof.
  intros HD Hs. unfold rtt_estimate, observed.
  destruct (ms_send m <? ms_now m) eqn:E; [ | left; lia].
  destruct (rt_init p) eqn:Ei; [ | left; reflexivity]. cbn [andb].
  destruct ((0 <? ms_delay m) && ms_ready m); [ | left; reflexivity].
  cbv zeta. set (d := if ms_local_delay m <? ms_delay m then _ else _).
  assert (Hd : d <= D) by (unfold d; destruct (ms_local_delay m <? ms_delay m) eqn:E1; lia).
  rewrite u64_small by lia.
  destruct (rt_min p + d <? ms_now m - ms_send m) eqn:E2; [ | left; reflexivity].
  right. split; [reflexivity | ]. lia.
Qed.

Lemma estimate_unset p m : rt_init p = false -> rtt_estimate p m = observed m.
Proof.
  intros H. unfold rtt_estimate, observed. rewrite H. cbn [andb].
  destruct (ms_send m <? ms_now m) eqn:E; lia.
Qed.

Lemma avg_bounds s n a b : 0 < n -> n * a <= s <= n * b -> a <= s / n <= b.
Proof.
  intros Hn [H1 H2]. split.
  - apply N.div_le_lower_bound; lia.
  - apply N.div_le_upper_bound; lia.
Qed.

Lemma small_sums lo hi D h p n : rtt_inv lo hi D h p -> N.of_nat (length h) < n ->
  8 * n * (hi + D + 1) < two64 ->
  n < two64 /\ rt_sum p + hi < two64 /\ rt_min p + D < two64 /\ 8 * hi + D < two64.
Proof.
  intros I Hn Ho. unfold two64 in *.
  assert (H1 : 8 * (hi + D + 1) * n < 18446744073709551616) by lia.
  assert (H2 : 8 * (hi + D + 1) <= 8 * (hi + D + 1) * n) by (rewrite <- (N.mul_1_r (8 * (hi + D + 1))) at 1; apply N.mul_le_mono_l; lia).
  assert (H3 : n <= 8 * (hi + D + 1) * n) by (rewrite <- (N.mul_1_l n) at 1; apply N.mul_le_mono_r; lia).
  assert (Hs : rt_sum p <= (n - 1) * hi).
  { destruct (N.eq_dec (rt_nb p) 0) as [Z | NZ].
    - rewrite (ri_zero _ _ _ _ _ I Z). apply N.le_0_l.
    - destruct (ri_period _ _ _ _ _ I ltac:(lia)) as [[_ A] [_ [_ [B _]]]].
      transitivity (rt_nb p * hi).
      + transitivity (rt_nb p * rt_pmax p); [exact A | ]. apply N.mul_le_mono_l. exact B.
      + apply N.mul_le_mono_r. pose proof (ri_nb _ _ _ _ _ I). lia. }
  assert (H4 : n * hi <= 8 * (hi + D + 1) * n).
  { rewrite (N.mul_comm n hi). apply N.mul_le_mono_r. lia. }
  assert (H5 : (n - 1) * hi + hi = n * hi) by (rewrite N.mul_sub_distr_r, N.mul_1_l; assert (1 * hi <= n * hi) by (apply N.mul_le_mono_r; lia); lia).
  assert (Hm : rt_min p <= hi).
  { destruct (rt_init p) eqn:Ei.
    - pose proof (ri_init _ _ _ _ _ I Ei). lia.
    - pose proof (ri_fresh _ _ _ _ _ I Ei). lia. }
  lia.
Qed.

Lemma forall_snoc {A} (P : A -> Prop) l x : Forall P l -> P x -> Forall P (l ++ [x]).
Proof. intros H1 H2. apply Forall_app. split; [exact H1 | ]. constructor; [exact H2 | constructor]. Qed.

(** A sample keeps the invariant. *)
Lemma accumulate_inv lo hi D h p m e : rtt_inv lo hi D h p ->
  lo <= observed m <= hi -> ms_local_delay m <= D ->
  8 * (N.of_nat (length h) + 1) * (hi + D + 1) < two64 ->
  (rt_init p = false \/ (0 <= ms_epoch m)%Z) -> e = rtt_estimate p m ->
  rtt_inv lo hi D (h ++ [m]) (rtt_accumulate p e) /\ 0 < rt_nb (rtt_accumulate p e) /\
  rt_pmin (rtt_accumulate p e) <= e <= rt_pmax (rtt_accumulate p e) /\ rt_sample (rtt_accumulate p e) = e.
Proof.
  intros I Ho HD Hs Hacc Ee.
  destruct (small_sums _ _ _ _ _ _ I (N.lt_add_pos_r 1 _ eq_refl) Hs) as [S1 [S2 [S3 S4]]].
  assert (He : lo <= e <= hi).
  { subst e. destruct (estimate_cases p m D HD S3) as [E | [Ei [E1 E2]]]; [lia | ].
    pose proof (ri_init _ _ _ _ _ I Ei). lia. }
  assert (Hnb : u64 (rt_nb p + 1) = rt_nb p + 1) by (apply u64_small; pose proof (ri_nb _ _ _ _ _ I); lia).
  assert (Hsum : u64 (rt_sum p + e) = rt_sum p + e) by (apply u64_small; lia).
  unfold rtt_accumulate. rewrite Hnb, Hsum.
  set (pmin := if rt_nb p + 1 =? 1 then e else _). set (pmax := if rt_nb p + 1 =? 1 then e else if rt_pmax p <? e then _ else _).
  assert (Hmm : pmin <= e <= pmax /\ (rt_nb p = 0 -> pmin = e /\ pmax = e) /\
     (0 < rt_nb p -> pmin <= rt_pmin p /\ rt_pmax p <= pmax /\ (pmin = e \/ pmin = rt_pmin p) /\ lo <= pmin /\ pmax <= hi) /\ (0 < rt_nb p -> pmax = e \/ pmax = rt_pmax p)).
  { unfold pmin, pmax. destruct (rt_nb p + 1 =? 1) eqn:E1; [lia | ].
    destruct (ri_period _ _ _ _ _ I ltac:(lia)) as [_ [A [B [C _]]]].
    destruct (e <? rt_pmin p) eqn:E2, (rt_pmax p <? e) eqn:E3; lia. }
  clearbody pmin pmax. destruct Hmm as [M1 [M2 [M3 M4]]].
  split; [ | cbn; lia].
  constructor; cbn [rt_nb rt_sum rt_pmin rt_pmax rt_init rt_min rt_smoothed rt_variant rt_timer rt_max rt_sample].
  - rewrite app_length. cbn [length]. pose proof (ri_nb _ _ _ _ _ I). lia.
  - lia.
  - intros _. destruct (N.eq_dec (rt_nb p) 0) as [Z | NZ].
    + rewrite (ri_zero _ _ _ _ _ I Z), Z. destruct (M2 Z) as [-> ->]. destruct (rt_max p <? e) eqn:Ex; lia.
    + destruct (ri_period _ _ _ _ _ I ltac:(lia)) as [[A1 A2] [B [C [C2 C3]]]].
      destruct (M3 ltac:(lia)) as [X1 [X2 [_ [X3 X4]]]].
      assert (Hpm : pmax = e \/ pmax = rt_pmax p) by (apply (M4 ltac:(lia))).
      assert (rt_nb p * pmin <= rt_nb p * rt_pmin p) by (apply N.mul_le_mono_l; exact X1).
      assert (rt_nb p * rt_pmax p <= rt_nb p * pmax) by (apply N.mul_le_mono_l; exact X2).
      rewrite !N.mul_add_distr_r, !N.mul_1_l. destruct (rt_max p <? e) eqn:Ex; lia.
  - intros Hi. destruct (ri_init _ _ _ _ _ I Hi) as [A [B [C [C2 [F [G K]]]]]].
    destruct (e <? rt_min p) eqn:Emin.
    + assert (Eo : e = observed m).
      { subst e. destruct (estimate_cases p m D HD S3) as [E | [_ [E1 _]]]; [exact E | lia]. }
      repeat match goal with |- _ /\ _ => split end; try lia.
      * apply Exists_app. right. constructor. symmetry. exact Eo.
      * apply forall_snoc; [ | intros _; lia].
        eapply Forall_impl; [ | exact K]. cbn. intros a Ha Hz. specialize (Ha Hz). lia.
    + repeat match goal with |- _ /\ _ => split end; try lia.
      * apply Exists_app. left. exact G.
      * apply forall_snoc; [exact K | ]. intros _.
        destruct (estimate_cases p m D HD S3) as [E | [_ [E1 E2]]]; lia.
  - intros Hi. destruct (ri_fresh _ _ _ _ _ I Hi) as [A [B C]].
    pose proof (estimate_unset p m Hi) as Eo. rewrite <- Ee in Eo.
    split; [ | split].
    + destruct (e <? rt_min p) eqn:E; lia.
    + intros _. destruct (N.eq_dec (rt_nb p) 0) as [Z | NZ].
      * rewrite (C Z). cbn [app]. destruct (M2 Z) as [-> _].
        split; [constructor; lia | ]. constructor; [lia | constructor].
      * destruct (B ltac:(lia)) as [B1 B2]. destruct (M3 ltac:(lia)) as [X1 [_ [X2 _]]].
        split.
        -- apply Exists_app. destruct X2 as [X2 | X2].
           ++ right. constructor. lia.
           ++ left. rewrite X2. exact B1.
        -- apply forall_snoc; [ | lia]. eapply Forall_impl; [ | exact B2]. cbn. intros a Ha. lia.
    + lia.
  - pose proof (ri_timer _ _ _ _ _ I). destruct (rt_timer p <? e); lia.
  - pose proof (ri_max _ _ _ _ _ I). destruct (rt_max p <? e); lia.
  - intros _. destruct (e <? rt_min p) eqn:E; lia.
  - intros Hi. pose proof (ri_last _ _ _ _ _ I Hi).
    destruct (e <? rt_min p) eqn:E, (rt_max p <? e) eqn:E2; lia.
  - intros Hi. pose proof (ri_low _ _ _ _ _ I Hi). destruct (rt_timer p <? e) eqn:E; lia.
  - intros _. destruct (rt_timer p <? e) eqn:E; lia.
Qed.

Lemma var_sample_le p hi : rt_smoothed p <= hi -> rt_pmin p <= rt_pmax p -> rt_pmax p <= hi -> hi < two64 ->
  rtt_var_sample p <= hi.
Proof.
  intros H1 H2 H3 H4. unfold rtt_var_sample.
  destruct (rt_pmax p <? rt_smoothed p) eqn:E1; [rewrite u64_sub; lia | ].
  destruct (rt_smoothed p <? rt_pmin p) eqn:E2; [rewrite u64_sub; lia | ].
  cbv zeta. rewrite (u64_sub (rt_smoothed p)), (u64_sub (rt_pmax p)) by lia.
  destruct (rt_pmax p - rt_smoothed p <? rt_smoothed p - rt_pmin p); lia.
Qed.

(** The end of a period keeps the invariant. *)
Lemma end_period_inv lo hi D h p m e : rtt_inv lo hi D h p -> h <> [] -> 0 < rt_nb p ->
  rt_pmin p <= e <= rt_pmax p -> ms_remote_delay m <= D -> 8 * hi + D < two64 -> rt_sample p = e ->
  rtt_inv lo hi D h (rtt_end_period p m e).
Proof.
  intros I Hh Hnb He HD Hs Hx. unfold rtt_end_period.
  destruct (ri_period _ _ _ _ _ I Hnb) as [P1 [P2 [P3 [P4 P5]]]].
  set (avg := if 1 <? rt_nb p then rt_sum p / rt_nb p else e).
  assert (Ha : rt_pmin p <= avg <= rt_pmax p).
  { unfold avg. destruct (1 <? rt_nb p); [apply avg_bounds; [exact Hnb | exact P1] | exact He]. }
  clearbody avg.
  set (sm := if negb (rt_init p) then avg else _). set (va := if negb (rt_init p) then avg / 2 else _).
  set (mi := if negb (rt_init p) then rt_pmin p else _).
  assert (Hsm : lo <= mi /\ mi <= sm /\ sm <= hi /\ va <= hi).
  { unfold sm, va, mi. destruct (rt_init p) eqn:Ei; cbn [negb].
    - destruct (ri_init _ _ _ _ _ I Ei) as [A [B [C [C2 [F _]]]]]. specialize (F Hnb).
      pose proof (var_sample_le p hi C P3 P4 ltac:(lia)) as Hv.
      rewrite !(u64_small (7 * _)) by lia. rewrite !(u64_small (3 * _)) by lia. rewrite !u64_small by lia.
      repeat match goal with |- _ /\ _ => split end.
      + exact A.
      + apply N.div_le_lower_bound; lia.
      + apply N.div_le_upper_bound; lia.
      + apply N.div_le_upper_bound; lia.
    - repeat match goal with |- _ /\ _ => split end; lia. }
  destruct Hsm as [Q1 [Q2 [Q3 Q4]]].
  constructor; cbn [rt_nb rt_sum rt_pmin rt_pmax rt_init rt_min rt_smoothed rt_variant rt_timer rt_max rt_sample].
  - lia.
  - reflexivity.
  - lia.
  - intros _. repeat match goal with |- _ /\ _ => split end; try lia.
    + unfold mi. destruct (rt_init p) eqn:Ei; cbn [negb].
      * apply (ri_init _ _ _ _ _ I Ei).
      * apply (ri_fresh _ _ _ _ _ I Ei). exact Hnb.
    + unfold mi. destruct (rt_init p) eqn:Ei; cbn [negb].
      * apply (ri_init _ _ _ _ _ I Ei).
      * destruct (ri_fresh _ _ _ _ _ I Ei) as [_ [B _]]. destruct (B Hnb) as [_ B2].
        eapply Forall_impl; [ | exact B2]. cbn. intros a Hq _. exact Hq.
  - discriminate.
  - clearbody sm va. rewrite (u64_small (3 * va)) by lia. rewrite (u64_small (sm + 3 * va)) by lia. rewrite u64_small by lia. lia.
  - exact (ri_max _ _ _ _ _ I).
  - intros H1. destruct (ri_sample _ _ _ _ _ I H1) as [X1 X2]. split; [exact X1 | ].
    unfold mi. destruct (rt_init p) eqn:Ei; cbn [negb]; [exact X2 | lia].
  - intros _. unfold mi. destruct (rt_init p) eqn:Ei; cbn [negb]; [exact (ri_last _ _ _ _ _ I Ei) | lia].
  - intros _. clearbody sm va. rewrite (u64_small (3 * va)) by lia. rewrite (u64_small (sm + 3 * va)) by lia. rewrite u64_small by lia. lia.
  - lia.
Qed.

Lemma update_inv lo hi D h p m : rtt_inv lo hi D h p ->
  lo <= observed m <= hi -> ms_local_delay m <= D -> ms_remote_delay m <= D ->
  8 * (N.of_nat (length h) + 1) * (hi + D + 1) < two64 ->
  rtt_inv lo hi D (h ++ [m]) (update_path_rtt p m).
Proof.
  intros I Ho HD HR Hs. unfold update_path_rtt.
  destruct (negb (rt_init p) || (0 <=? ms_epoch m)%Z) eqn:Ec.
  - assert (Hacc : rt_init p = false \/ (0 <= ms_epoch m)%Z) by (destruct (rt_init p); [right; cbn in Ec; lia | left; reflexivity]).
    destruct (accumulate_inv lo hi D h p m _ I Ho HD Hs Hacc eq_refl) as [I1 [N1 [R1 S1]]].
    destruct (small_sums _ _ _ _ _ _ I (N.lt_add_pos_r 1 _ eq_refl) Hs) as [_ [_ [_ S4]]].
    destruct (match rtt_context m with None => true | Some _ => _ end); [ | exact I1].
    apply end_period_inv; auto. destruct h; discriminate.
  - destruct (rt_init p) eqn:Ei; [ | discriminate]. cbn [negb orb] in Ec.
    constructor.
    + rewrite app_length. cbn [length]. pose proof (ri_nb _ _ _ _ _ I). lia.
    + apply (ri_zero _ _ _ _ _ I).
    + apply (ri_period _ _ _ _ _ I).
    + intros _. destruct (ri_init _ _ _ _ _ I Ei) as [A [B [C [C2 [F [G K]]]]]].
      repeat match goal with |- _ /\ _ => split end; auto.
      * apply Exists_app. left. exact G.
      * apply forall_snoc; [exact K | lia].
    + congruence.
    + apply (ri_timer _ _ _ _ _ I).
    + apply (ri_max _ _ _ _ _ I).
    + intros _. apply (ri_sample _ _ _ _ _ I).
      destruct (ri_init _ _ _ _ _ I Ei) as [_ [_ [_ [_ [_ [G _]]]]]]. inversion G; discriminate.
    + apply (ri_last _ _ _ _ _ I).
    + apply (ri_low _ _ _ _ _ I).
    + apply (ri_open _ _ _ _ _ I).
Qed.

Lemma run_rtt_inv lo hi D ms : observed_within lo hi ms -> sane_delays D ms -> no_overflow hi D ms ->
  rtt_inv lo hi D ms (rtt_run ms).
Proof.
  unfold rtt_run, no_overflow. induction ms as [ | m ms IH] using rev_ind; [intros; apply start_inv | ].
  intros H1 H2 H3. rewrite fold_left_app. cbn [fold_left].
  apply Forall_app in H1. destruct H1 as [H1 H1']. inversion H1'; subst.
  apply Forall_app in H2. destruct H2 as [H2 H2']. inversion H2'; subst.
  rewrite app_length in H3. cbn [length] in H3.
  assert (Hk : 8 * (N.of_nat (length ms) + 1) * (hi + D + 1) < two64).
  { eapply N.le_lt_trans; [ | exact H3]. apply N.mul_le_mono_r. lia. }
  apply update_inv; auto; lia.
Qed.

(** The smoothed estimate lies between the observations. *)
Lemma smoothed_between lo hi D ms : observed_within lo hi ms -> sane_delays D ms -> no_overflow hi D ms ->
  rt_init (rtt_run ms) = true -> lo <= rt_smoothed (rtt_run ms) <= hi.
Proof.
  intros H1 H2 H3 Hi. pose proof (run_rtt_inv _ _ _ _ H1 H2 H3) as I.
  pose proof (ri_init _ _ _ _ _ I Hi). lia.
Qed.

Lemma samples_between lo hi D ms : observed_within lo hi ms -> sane_delays D ms -> no_overflow hi D ms -> ms <> [] ->
  lo <= rt_sample (rtt_run ms) <= hi /\ rt_min (rtt_run ms) <= rt_sample (rtt_run ms).
Proof.
  intros H1 H2 H3 Hi. pose proof (run_rtt_inv _ _ _ _ H1 H2 H3) as I.
  apply (ri_sample _ _ _ _ _ I Hi).
Qed.

(** The minimum is the smallest observation. *)
Lemma minimum_exact hi D ms : observed_within 0 hi ms -> sane_delays D ms -> no_overflow hi D ms ->
  rt_init (rtt_run ms) = true ->
  (exists m, In m ms /\ observed m = rt_min (rtt_run ms)) /\
  (forall m, In m ms -> (0 <= ms_epoch m)%Z -> rt_min (rtt_run ms) <= observed m) /\
  rt_min (rtt_run ms) <= rt_smoothed (rtt_run ms).
Proof.
  intros H1 H2 H3 Hi. pose proof (run_rtt_inv _ _ _ _ H1 H2 H3) as I.
  destruct (ri_init _ _ _ _ _ I Hi) as [A [B [C [C2 [F [G K]]]]]].
  split; [ | split].
  - apply Exists_exists in G. exact G.
  - intros m Hm Hz. rewrite Forall_forall in K. apply K; assumption.
  - exact B.
Qed.

(** The timer is bounded by the observations. *)
Lemma timer_bounded lo hi D ms : observed_within lo hi ms -> sane_delays D ms -> no_overflow hi D ms ->
  rt_timer (rtt_run ms) <= 250000 + 4 * hi + D /\
  (rt_init (rtt_run ms) = true -> rt_smoothed (rtt_run ms) + 3 * rt_variant (rtt_run ms) <= rt_timer (rtt_run ms)) /\
  (0 < rt_nb (rtt_run ms) -> rt_sample (rtt_run ms) <= rt_timer (rtt_run ms)).
Proof.
  intros H1 H2 H3. pose proof (run_rtt_inv _ _ _ _ H1 H2 H3) as I.
  split; [apply (ri_timer _ _ _ _ _ I) | ]. split; [apply (ri_low _ _ _ _ _ I) | apply (ri_open _ _ _ _ _ I)].
Qed.
