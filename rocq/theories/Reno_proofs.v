(** Proofs about NewReno. *)
From Verif Require Import Base Tac Reno_model Reno_spec.

Lemma u64_le n : u64 n <= n.
Proof. unfold u64. apply N.mod_le. discriminate. Qed.

Lemma u64_lt n : u64 n < two64.
Proof. unfold u64. apply N.mod_lt. discriminate. Qed.

Lemma u64_id n : n < two64 -> u64 n = n.
Proof. intros H. unfold u64. apply N.mod_small. exact H. Qed.

(** How far the window can be taken without new reports: its potential. *)
Definition potential (s : sim) : N :=
  if nr_ssthresh s =? max64 then 2 * nr_cwin s else N.max (nr_cwin s) (2 * nr_ssthresh s).

Definition slack : N := 70368744177664.

Record reno_inv (T : N) (r : reno) : Prop := {
  rv_sync : re_cwin r = nr_cwin (re_sim r);
  rv_min : cwin_minimum <= nr_cwin (re_sim r);
  rv_ss : nr_ssthresh (re_sim r) = max64 \/ cwin_minimum <= nr_ssthresh (re_sim r) < two64 - 1;
  rv_res : nr_residual (re_sim r) <= nr_cwin (re_sim r);
  rv_pot : potential (re_sim r) <= slack + 2 * T;
  rv_index : (mm_current (re_filter r) < 7)%nat
}.

Lemma reset_inv : reno_inv 0 reno_reset.
Proof. constructor; cbn; try (vm_compute; discriminate); try lia. all: left; reflexivity. Qed.

Lemma filter_some t rtt : (mm_current t < 7)%nat -> exists t', filter_min_max t rtt = Some t' /\ (mm_current t' < 7)%nat.
Proof.
  intros H. unfold filter_min_max. replace (mm_current t <? 7)%nat with true by (symmetry; apply Nat.ltb_lt; exact H).
  destruct (minmax_loop _ _ _) as [mn mx]. eexists. split; [reflexivity | ]. cbn [mm_current].
  destruct (7 <=? S (mm_current t))%nat eqn:E; [lia | ]. apply Nat.leb_gt in E. lia.
Qed.

Lemma hystart_some t rtt now : (mm_current t < 7)%nat ->
  exists t' b, hystart_test t rtt now = Some (t', b) /\ (mm_current t' < 7)%nat.
Proof.
  intros H. unfold hystart_test. destruct (u64 (mm_last t + 1000) <? now); [ | eauto].
  destruct (filter_some t rtt H) as [t1 [-> H1]]. cbn [mm_init mm_filtered mm_excess mm_current mm_min mm_max mm_samples].
  destruct (mm_init t1); [ | eauto].
  set (f := if _ || _ then _ else _). destruct (f <? mm_min t1); [ | eauto].
  destruct (u64 (f + f / 4) <? mm_min t1); eauto.
Qed.

(** A window that is raised in initial slow start. *)
Lemma raise_inv T r w : reno_inv T r -> initial_slow (re_sim r) = true -> re_cwin r <= w -> (w = re_cwin r \/ 2 * w <= slack) ->
  reno_inv T (mk_reno (sim_set_cwin (re_sim r) w) (re_filter r) w).
Proof.
  intros I Hi Hw Hb. unfold initial_slow in Hi. apply andb_prop in Hi. destruct Hi as [_ Hi].
  pose proof (rv_sync _ _ I) as E. pose proof (rv_min _ _ I). pose proof (rv_res _ _ I). pose proof (rv_pot _ _ I) as P.
  unfold potential in P. rewrite Hi in P.
  constructor; cbn [re_cwin re_sim sim_set_cwin nr_cwin nr_ssthresh nr_residual re_filter]; try lia.
  all: try solve [apply (rv_ss _ _ I)].
  all: try solve [unfold potential, sim_set_cwin; cbn [nr_ssthresh nr_cwin]; rewrite Hi; destruct Hb; lia].
  all: try solve [apply (rv_index _ _ I)].
Qed.

Lemma target_bounds w i : w <= target_cwin w i /\ (target_cwin w i = w \/ 2 * target_cwin w i <= slack).
Proof.
  unfold target_cwin. cbv zeta. set (x := u64 (ci_peak i * ci_smoothed i)).
  assert (Hx : x < two64) by apply u64_lt. clearbody x. unfold slack, two64 in *.
  destruct (w <? x / 1000000 / 2) eqn:E; lia.
Qed.

Lemma long_bounds w i : w <= long_rtt_cwin w i /\ (long_rtt_cwin w i = w \/ 2 * long_rtt_cwin w i <= slack).
Proof.
  unfold long_rtt_cwin, cwin_initial, slack. cbv zeta. destruct (610000 <? ci_rtt_min i) eqn:E1.
  - destruct (w <? 15360 * 610000 / 100000) eqn:E; lia.
  - destruct (w <? 15360 * ci_rtt_min i / 100000) eqn:E; lia.
Qed.

Lemma quotient_bound b m res w : 0 < w -> m <= w -> res <= w -> u64 (u64 (b * m) + res) / w <= b + 1.
Proof.
  intros Hw Hm Hr. apply N.div_le_upper_bound; [lia | ].
  eapply N.le_trans; [apply u64_le | ]. pose proof (u64_le (b * m)) as H1.
  assert (H2 : b * m <= b * w) by (apply N.mul_le_mono_l; exact Hm).
  rewrite N.mul_add_distr_l, (N.mul_comm w b). lia.
Qed.

Lemma total_pot T : T <= two62 -> slack + 2 * T < two64 - 1.
Proof. unfold slack, two62, two64. lia. Qed.

(** An acknowledgement in the simulation. *)
Lemma ack_inv T r i : reno_inv T r -> ci_mtu i <= 1536 -> T + (ci_bytes i + 1) <= two62 ->
  exists r', notify_copy r NAck i = Some r' /\ reno_inv (T + (ci_bytes i + 1)) r' /\ re_cwin r <= re_cwin r' <= re_cwin r + (ci_bytes i + 1).
Proof.
  intros I Hm HT. pose proof (total_pot _ HT) as HP.
  pose proof (rv_sync _ _ I) as Es. pose proof (rv_min _ _ I) as Mi. pose proof (rv_res _ _ I) as Re. pose proof (rv_pot _ _ I) as P.
  pose proof (rv_ss _ _ I) as SS. unfold potential in P. unfold cwin_minimum in *.
  assert (Hc : nr_cwin (re_sim r) <= slack + 2 * T) by (destruct (nr_ssthresh (re_sim r) =? max64); lia).
  unfold notify_copy, sim_notify. destruct (nr_slow (re_sim r)) eqn:El.
  - eexists. split; [reflexivity | ].
    assert (Hu : u64 (nr_cwin (re_sim r) + ci_bytes i) = nr_cwin (re_sim r) + ci_bytes i) by (apply u64_id; lia).
    rewrite Hu. split; [ | cbn [re_cwin nr_cwin]; lia].
    constructor; cbn [re_cwin re_sim nr_cwin nr_ssthresh nr_residual re_filter]; unfold cwin_minimum; try lia.
    all: try solve [exact SS].
    all: try solve [unfold potential; cbn [nr_ssthresh nr_cwin]; destruct (nr_ssthresh (re_sim r) =? max64); lia].
    all: try solve [apply (rv_index _ _ I)].
  - replace (nr_cwin (re_sim r) =? 0) with false by lia. cbv zeta.
    pose proof (quotient_bound (ci_bytes i) (ci_mtu i) (nr_residual (re_sim r)) (nr_cwin (re_sim r)) ltac:(lia) ltac:(lia) Re) as Q.
    set (d := u64 (u64 (ci_bytes i * ci_mtu i) + nr_residual (re_sim r))) in *. 
    assert (Hd : d mod nr_cwin (re_sim r) < nr_cwin (re_sim r)) by (apply N.mod_lt; lia).
    set (q := d / nr_cwin (re_sim r)) in *. set (md := d mod nr_cwin (re_sim r)) in *. clearbody q md.
    eexists. split; [reflexivity | ].
    assert (Hu : u64 (nr_cwin (re_sim r) + q) = nr_cwin (re_sim r) + q) by (apply u64_id; lia).
    rewrite Hu. split; [ | cbn [re_cwin nr_cwin]; lia].
    constructor; cbn [re_cwin re_sim nr_cwin nr_ssthresh nr_residual re_filter]; unfold cwin_minimum; try lia.
    all: try solve [exact SS].
    all: try solve [unfold potential; cbn [nr_ssthresh nr_cwin]; destruct (nr_ssthresh (re_sim r) =? max64); lia].
    all: try solve [apply (rv_index _ _ I)].
Qed.

(** What each notification does to the window. *)
Definition effect (b : N) (w : N) (n : notification) (i : ccin) (w' : N) : Prop :=
  match n with
  | NReset => w' = cwin_initial
  | NTimeout => if b <=? ci_lost i then w' = two_packets else w' = w
  | NRepeat | NEcn => if b <=? ci_lost i then w' = N.max (w / 2) two_packets else w' = w
  | _ => w <= w'
  end.

Lemma half_max w : (if w / 2 <? cwin_minimum then cwin_minimum else w / 2) = N.max (w / 2) two_packets.
Proof. unfold cwin_minimum, two_packets. change (2 * 1536) with 3072. destruct (w / 2 <? 3072) eqn:E; lia. Qed.

Lemma enter_inv T r t i : reno_inv T r -> T <= two62 ->
  reno_inv T (mk_reno (enter_recovery (re_sim r) t i) (re_filter r) (nr_cwin (enter_recovery (re_sim r) t i))).
Proof.
  intros I HT. pose proof (total_pot _ HT) as HP. pose proof (rv_min _ _ I) as Mi. pose proof (rv_pot _ _ I) as P.
  unfold potential in P.
  assert (Hc : nr_cwin (re_sim r) <= slack + 2 * T) by (destruct (nr_ssthresh (re_sim r) =? max64); lia).
  unfold enter_recovery. rewrite half_max. set (h := N.max _ _).
  assert (Hh : 3072 <= h /\ (2 * h <= nr_cwin (re_sim r) \/ h = 3072)).
  { unfold h, two_packets. change (2 * 1536) with 3072. lia. }
  clearbody h. unfold cwin_minimum, slack, two64, max64 in *. 
  constructor; cbn [re_cwin re_sim nr_cwin nr_ssthresh nr_residual re_filter]; unfold cwin_minimum; try lia.
  all: try solve [destruct t; lia].
  all: try solve [right; unfold two64; lia].
  all: try solve [unfold potential; cbn [nr_ssthresh nr_cwin]; unfold max64, slack; destruct t, (h =? 18446744073709551615) eqn:E; lia].
  all: try solve [apply (rv_index _ _ I)].
Qed.

Lemma same_inv T T' r : reno_inv T r -> T <= T' -> reno_inv T' r.
Proof. intros I H. destruct I. constructor; auto. lia. Qed.

Lemma self_copy r : re_cwin r = nr_cwin (re_sim r) -> mk_reno (re_sim r) (re_filter r) (nr_cwin (re_sim r)) = r.
Proof. destruct r as [s f w]. cbn. intros ->. reflexivity. Qed.

Lemma notify_inv T r n i : reno_inv T r -> ci_mtu i <= 1536 -> T + reported (n, i) <= two62 ->
  exists r', reno_notify r n i = Some r' /\ reno_inv (T + reported (n, i)) r' /\
    effect (nr_sequence (re_sim r)) (re_cwin r) n i (re_cwin r') /\
    nr_sequence (re_sim r') = round_start (nr_sequence (re_sim r)) [(n, i)].
Proof.
  intros I Hm HT. pose proof (total_pot _ HT) as HP.
  pose proof (rv_sync _ _ I) as Es. pose proof (rv_min _ _ I) as Mi. pose proof (rv_res _ _ I) as Re. pose proof (rv_pot _ _ I) as P.
  pose proof (rv_ss _ _ I) as SS. unfold potential in P.
  assert (Hc : nr_cwin (re_sim r) <= slack + 2 * T) by (destruct (nr_ssthresh (re_sim r) =? max64); lia).
  destruct n; unfold reported in *; cbn [fst snd] in *; cbn [reno_notify effect round_start is_loss andb]; rewrite ?N.add_0_r in *.
  - (* acknowledgement *)
    set (r1 := if initial_slow (re_sim r) then _ else r).
    assert (H1 : reno_inv T r1 /\ re_cwin r <= re_cwin r1 /\ nr_sequence (re_sim r1) = nr_sequence (re_sim r)).
    { unfold r1. destruct (initial_slow (re_sim r)) eqn:Ei; [ | split; [exact I | split; [lia | reflexivity]]].
      destruct (target_bounds (re_cwin r) i) as [B1 B2]. split; [apply raise_inv; auto | ]. split; [exact B1 | reflexivity]. }
    destruct H1 as [I1 [L1 S1]]. clearbody r1.
    destruct (ci_limited i).
    + exists r1. split; [reflexivity | ]. split; [eapply same_inv; [exact I1 | lia] | ]. split; assumption.
    + destruct (ack_inv T r1 i I1 Hm HT) as [r2 [E2 [I2 L2]]]. exists r2. split; [exact E2 | ]. split; [exact I2 | ].
      split; [lia | ]. rewrite <- S1. revert E2. unfold notify_copy, sim_notify.
      destruct (nr_slow (re_sim r1)); [intros E2; apply some_inj in E2; subst r2; reflexivity | ].
      destruct (nr_cwin (re_sim r1) =? 0); [discriminate | ]. intros E2; apply some_inj in E2; subst r2; reflexivity.
  - (* repeat *)
    unfold notify_copy. cbn [sim_notify]. eexists. split; [reflexivity | ].
    destruct (nr_sequence (re_sim r) <=? ci_lost i).
    + split; [apply enter_inv; [exact I | lia] | ]. cbn [re_cwin re_sim enter_recovery nr_cwin nr_sequence].
      rewrite half_max, Es. split; reflexivity.
    + cbn [re_sim]. rewrite (self_copy _ Es). split; [exact I | ]. split; [reflexivity | reflexivity].
  - (* timeout *)
    unfold notify_copy. cbn [sim_notify]. eexists. split; [reflexivity | ].
    destruct (nr_sequence (re_sim r) <=? ci_lost i).
    + split; [apply enter_inv; [exact I | lia] | ]. split; reflexivity.
    + cbn [re_sim]. rewrite (self_copy _ Es). split; [exact I | ]. split; [reflexivity | reflexivity].
  - (* spurious repeat *)
    unfold notify_copy. cbn [sim_notify]. eexists. split; [reflexivity | ]. unfold sim_spurious.
    destruct ((_ <? ci_smoothed i) && _); [ | cbn [re_sim]; rewrite (self_copy _ Es); split; [exact I | split; [lia | reflexivity]]].
    destruct (nr_ssthresh (re_sim r) =? max64) eqn:Em; cbn [negb andb].
    + cbn [re_sim]; rewrite (self_copy _ Es); split; [exact I | split; [lia | reflexivity]].
    + assert (Hu : u64 (2 * nr_ssthresh (re_sim r)) = 2 * nr_ssthresh (re_sim r)) by (apply u64_id; lia).
      rewrite Hu. destruct (nr_cwin (re_sim r) <? 2 * nr_ssthresh (re_sim r)) eqn:El.
      * split; [ | cbn [re_cwin nr_cwin re_sim nr_sequence]; split; [lia | reflexivity]].
        constructor; cbn [re_cwin re_sim nr_cwin nr_ssthresh nr_residual re_filter]; try lia.
        all: try solve [unfold potential; cbn [nr_ssthresh nr_cwin]; rewrite Em; lia].
        all: try solve [apply (rv_index _ _ I)].
      * cbn [re_sim]; rewrite (self_copy _ Es); split; [exact I | split; [lia | reflexivity]].
  - (* rtt *)
    destruct (initial_slow (re_sim r)) eqn:Ei; [ | exists r; split; [reflexivity | ]; split; [exact I | ]; split; [lia | reflexivity]].
    set (r1 := if 100000 <? ci_rtt_min i then _ else r).
    assert (H1 : reno_inv T r1 /\ re_cwin r <= re_cwin r1 /\ nr_sequence (re_sim r1) = nr_sequence (re_sim r) /\ nr_ssthresh (re_sim r1) = nr_ssthresh (re_sim r)).
    { unfold r1. destruct (100000 <? ci_rtt_min i); [ | split; [exact I | split; [lia | split; reflexivity]]].
      destruct (long_bounds (re_cwin r) i) as [B1 B2]. split; [apply raise_inv; auto | ]. split; [exact B1 | split; reflexivity]. }
    destruct H1 as [I1 [L1 [S1 T1]]]. clearbody r1.
    destruct (hystart_some (re_filter r1) (ci_rtt i) (ci_now i) (rv_index _ _ I1)) as [f [b [-> Hf]]].
    assert (Hmax : nr_ssthresh (re_sim r1) =? max64 = true) by (rewrite T1; unfold initial_slow in Ei; apply andb_prop in Ei; apply Ei).
    pose proof (rv_sync _ _ I1) as E1. pose proof (rv_min _ _ I1) as M1. pose proof (rv_res _ _ I1). pose proof (rv_pot _ _ I1) as P1.
    unfold potential in P1. rewrite Hmax in P1.
    destruct b.
    + eexists. split; [reflexivity | ]. split; [ | cbn [re_cwin re_sim nr_sequence]; split; [lia | exact S1]].
      constructor; cbn [re_cwin re_sim nr_cwin nr_ssthresh nr_residual re_filter]; try lia.
      unfold potential. cbn [nr_ssthresh nr_cwin]. destruct (nr_cwin (re_sim r1) =? max64); lia.
    + eexists. split; [reflexivity | ]. split; [ | cbn [re_cwin re_sim nr_sequence]; split; [lia | exact S1]].
      constructor; cbn [re_cwin re_sim nr_cwin nr_ssthresh nr_residual re_filter]; try lia.
      all: try solve [apply (rv_ss _ _ I1)].
      all: try solve [apply (rv_pot _ _ I1)].
  - (* ecn *)
    unfold notify_copy. cbn [sim_notify]. eexists. split; [reflexivity | ].
    destruct (nr_sequence (re_sim r) <=? ci_lost i).
    + split; [apply enter_inv; [exact I | lia] | ]. cbn [re_cwin re_sim enter_recovery nr_cwin nr_sequence].
      rewrite half_max, Es. split; reflexivity.
    + cbn [re_sim]. rewrite (self_copy _ Es). split; [exact I | ]. split; [reflexivity | reflexivity].
  - exists r. split; [reflexivity | ]. split; [exact I | ]. split; [lia | reflexivity].
  - (* seed *)
    unfold notify_copy. cbn [sim_notify]. eexists. split; [reflexivity | ]. unfold sim_seed.
    destruct (nr_slow (re_sim r) && (nr_ssthresh (re_sim r) =? max64) && (nr_cwin (re_sim r) <? ci_bytes i)) eqn:Ec.
    + apply andb_prop in Ec. destruct Ec as [_ Ec].
      split; [ | cbn [re_cwin nr_cwin re_sim nr_sequence]; split; [lia | reflexivity]].
      unfold two62, slack, two64, max64, cwin_minimum in *.
      constructor; cbn [re_cwin re_sim nr_cwin nr_ssthresh nr_residual re_filter]; unfold cwin_minimum; try lia.
      all: try solve [unfold two64; lia].
      all: try solve [unfold potential, max64, slack; cbn [nr_ssthresh nr_cwin]; destruct (ci_bytes i =? 18446744073709551615) eqn:E; lia].
      all: try solve [apply (rv_index _ _ I)].
    + cbn [re_sim]. rewrite (self_copy _ Es). split; [eapply same_inv; [exact I | lia] | ]. split; [lia | reflexivity].
  - exists reno_reset. split; [reflexivity | ]. split; [eapply same_inv; [exact reset_inv | lia] | ]. split; reflexivity.
  - exists r. split; [reflexivity | ]. split; [exact I | ]. split; [lia | reflexivity].
Qed.

Lemma run_reno_inv h : forall T r, reno_inv T r -> Forall (fun e => ci_mtu (snd e) <= 1536) h -> T + total h <= two62 ->
  exists r', reno_run r h = Some r' /\ reno_inv (T + total h) r' /\
    nr_sequence (re_sim r') = round_start (nr_sequence (re_sim r)) h.
Proof.
  induction h as [ | [n i] h IH]; intros T r I Hm HT; cbn [reno_run total] in *.
  - exists r. rewrite N.add_0_r. auto.
  - inversion Hm as [ | ? ? M1 M2]; subst. cbn [snd] in M1.
    destruct (notify_inv T r n i I M1 ltac:(lia)) as [r1 [E1 [I1 [_ S1]]]]. rewrite E1.
    destruct (IH _ r1 I1 M2 ltac:(lia)) as [r2 [E2 [I2 S2]]]. exists r2. split; [exact E2 | ].
    rewrite N.add_assoc. split; [exact I2 | ]. rewrite S2, S1. reflexivity.
Qed.

(** The window is always at least two packets. *)
Lemma window_minimum h : sane_history h ->
  exists r, reno_run reno_reset h = Some r /\ two_packets <= re_cwin r /\ re_cwin r < two64.
Proof.
  intros [Hm HT]. destruct (run_reno_inv h 0 reno_reset reset_inv Hm ltac:(lia)) as [r [E [I S]]].
  exists r. split; [exact E | ]. pose proof (rv_min _ _ I). pose proof (rv_sync _ _ I). pose proof (rv_pot _ _ I) as P.
  unfold potential in P. pose proof (total_pot _ HT). unfold cwin_minimum, two_packets in *. change (2 * 1536) with 3072.
  destruct (nr_ssthresh (re_sim r) =? max64); lia.
Qed.

Lemma total_app a b : total (a ++ b) = total a + total b.
Proof. induction a as [ | x a IH]; cbn [total app]; [reflexivity | rewrite IH; lia]. Qed.

Lemma reno_run_app a : forall r b, reno_run r (a ++ b) = match reno_run r a with Some r1 => reno_run r1 b | None => None end.
Proof.
  induction a as [ | [n i] a IH]; intros r b; cbn [reno_run app]; [reflexivity | ].
  destruct (reno_notify r n i); [apply IH | reflexivity].
Qed.

(** What a loss does after any history. *)
Lemma loss_effect h n i : sane_history (h ++ [(n, i)]) -> is_loss n = true ->
  exists r r', reno_run reno_reset h = Some r /\ reno_run reno_reset (h ++ [(n, i)]) = Some r' /\
  (round_start 0 h <= ci_lost i ->
    re_cwin r' = match n with NTimeout => two_packets | _ => N.max (re_cwin r / 2) two_packets end) /\
  (ci_lost i < round_start 0 h -> re_cwin r' = re_cwin r).
Proof.
  intros [Hm HT] Hl. apply Forall_app in Hm. destruct Hm as [Hm1 Hm2]. rewrite total_app in HT.
  destruct (run_reno_inv h 0 reno_reset reset_inv Hm1 ltac:(lia)) as [r [E [I S]]].
  inversion Hm2 as [ | ? ? M1 _]; subst. cbn [snd] in M1. cbn [total] in HT.
  destruct (notify_inv _ r n i I M1 ltac:(lia)) as [r1 [E1 [I1 [Ef S1]]]].
  exists r, r1. split; [exact E | ]. split; [rewrite reno_run_app, E; cbn [reno_run]; rewrite E1; reflexivity | ].
  cbn in S. rewrite S in Ef. destruct n; try discriminate; cbn [effect] in Ef;
    (split; intros Hb; [replace (round_start 0 h <=? ci_lost i) with true in Ef by lia | replace (round_start 0 h <=? ci_lost i) with false in Ef by lia]; exact Ef).
Qed.

(** Within a round the window never shrinks. *)
Lemma round_grows h2 : forall T r, reno_inv T r -> Forall (fun e => ci_mtu (snd e) <= 1536) h2 -> T + total h2 <= two62 ->
  Forall (same_round (nr_sequence (re_sim r))) h2 ->
  exists r', reno_run r h2 = Some r' /\ re_cwin r <= re_cwin r'.
Proof.
  induction h2 as [ | [n i] h IH]; intros T r I Hm HT Hs; cbn [reno_run total] in *.
  - exists r. split; [reflexivity | lia].
  - inversion Hm as [ | ? ? M1 M2]; subst. cbn [snd] in M1.
    destruct (notify_inv T r n i I M1 ltac:(lia)) as [r1 [E1 [I1 [Ef S1]]]]. rewrite E1.
    inversion Hs as [ | ? ? Hs1 Hs2]; subst.
    assert (Hsame : nr_sequence (re_sim r1) = nr_sequence (re_sim r) /\ re_cwin r <= re_cwin r1).
    { rewrite S1. unfold same_round in Hs1. cbn [fst snd] in Hs1.
      destruct n; cbn [effect round_start is_loss andb] in *; try contradiction; try (split; [reflexivity | exact Ef]);
        replace (nr_sequence (re_sim r) <=? ci_lost i) with false in * by lia; (split; [reflexivity | lia]). }
    destruct Hsame as [Q1 Q2]. rewrite <- Q1 in Hs2.
    destruct (IH _ r1 I1 M2 ltac:(lia) Hs2) as [r2 [E2 L2]]. exists r2. split; [exact E2 | lia].
Qed.

Lemma once_per_round h1 h2 : sane_history (h1 ++ h2) -> Forall (same_round (round_start 0 h1)) h2 ->
  exists r1 r2, reno_run reno_reset h1 = Some r1 /\ reno_run reno_reset (h1 ++ h2) = Some r2 /\ re_cwin r1 <= re_cwin r2.
Proof.
  intros [Hm HT] Hs. apply Forall_app in Hm. destruct Hm as [Hm1 Hm2]. rewrite total_app in HT.
  destruct (run_reno_inv h1 0 reno_reset reset_inv Hm1 ltac:(lia)) as [r [E [I S]]].
  cbn in S. rewrite <- S in Hs.
  destruct (round_grows h2 _ r I Hm2 ltac:(lia) Hs) as [r2 [E2 L2]].
  exists r, r2. split; [exact E | ]. split; [rewrite reno_run_app, E; exact E2 | exact L2].
Qed.

(** How fast the window grows once slow start was left for the first time. *)
Lemma growth h i r : sane_history (h ++ [(NAck, i)]) -> reno_run reno_reset h = Some r -> initial_slow (re_sim r) = false ->
  exists r', reno_run reno_reset (h ++ [(NAck, i)]) = Some r' /\
    (nr_slow (re_sim r) = true -> re_cwin r' <= re_cwin r + ci_bytes i) /\
    (nr_slow (re_sim r) = false -> re_cwin r' <= re_cwin r + ci_bytes i * ci_mtu i / re_cwin r + 1).
Proof.
  intros [Hm HT] Er Hi. apply Forall_app in Hm. destruct Hm as [Hm1 Hm2]. rewrite total_app in HT.
  destruct (run_reno_inv h 0 reno_reset reset_inv Hm1 ltac:(lia)) as [r0 [E [I S]]].
  rewrite Er in E. apply some_inj in E. subst r0.
  inversion Hm2 as [ | ? ? M1 _]; subst. cbn [snd] in M1. cbn [total] in HT.
  destruct (notify_inv _ r NAck i I M1 ltac:(lia)) as [r1 [E1 _]].
  exists r1. split; [rewrite reno_run_app, Er; cbn [reno_run]; rewrite E1; reflexivity | ].
  pose proof (rv_sync _ _ I) as Es. pose proof (rv_min _ _ I) as Mi. unfold cwin_minimum in Mi. pose proof (rv_res _ _ I) as Re.
  revert E1. cbn [reno_notify]. rewrite Hi. destruct (ci_limited i).
  - intros E1. apply some_inj in E1. subst r1. split; intros _; [lia | ].
    set (q := ci_bytes i * ci_mtu i / re_cwin r). clearbody q. lia.
  - unfold notify_copy, sim_notify. destruct (nr_slow (re_sim r)) eqn:El.
    + intros E1. apply some_inj in E1. subst r1. cbn [re_cwin nr_cwin]. split; [intros _ | discriminate].
      rewrite Es. apply u64_le.
    + replace (nr_cwin (re_sim r) =? 0) with false by lia. cbv zeta.
      intros E1. apply some_inj in E1. subst r1. cbn [re_cwin nr_cwin]. split; [discriminate | intros _].
      rewrite Es. eapply N.le_trans; [apply u64_le | ]. rewrite <- N.add_assoc. apply N.add_le_mono_l.
      set (w := nr_cwin (re_sim r)) in *. set (bm := ci_bytes i * ci_mtu i).
      assert (Hd : u64 (u64 bm + nr_residual (re_sim r)) <= bm + w) by (pose proof (u64_le (u64 bm + nr_residual (re_sim r))); pose proof (u64_le bm); lia).
      eapply N.le_trans; [apply N.div_le_mono; [lia | exact Hd] | ].
      replace (bm + w) with (bm + 1 * w) by lia. rewrite N.div_add by lia. lia.
Qed.

(** Undoing a reduction at once restores at most the window before it, or four
    packets. *)
Lemma undo_bound h n i j : sane_history (h ++ [(n, i); (NSpurious, j)]) -> is_loss n = true ->
  round_start 0 h <= ci_lost i ->
  exists r r', reno_run reno_reset h = Some r /\ reno_run reno_reset (h ++ [(n, i); (NSpurious, j)]) = Some r' /\
  re_cwin r' <= N.max (re_cwin r) (2 * two_packets).
Proof.
  intros [Hm HT] Hl Hb. apply Forall_app in Hm. destruct Hm as [Hm1 Hm2]. rewrite total_app in HT.
  destruct (run_reno_inv h 0 reno_reset reset_inv Hm1 ltac:(lia)) as [r [E [I S]]].
  inversion Hm2 as [ | ? ? M1 M2]; subst. inversion M2 as [ | ? ? M3 _]; subst. cbn [snd] in M1, M3. cbn [total] in HT.
  cbn in S. pose proof (rv_sync _ _ I) as Es. pose proof (rv_min _ _ I) as Mi. pose proof (rv_pot _ _ I) as P. unfold potential in P.
  pose proof (total_pot (0 + total h) ltac:(lia)) as HP.
  exists r.
  assert (Hn : reno_notify r n i = Some (let s := enter_recovery (re_sim r) (match n with NTimeout => true | _ => false end) i in mk_reno s (re_filter r) (nr_cwin s))).
  { destruct n; try discriminate; cbn [reno_notify]; unfold notify_copy; cbn [sim_notify]; rewrite S;
      replace (round_start 0 h <=? ci_lost i) with true by lia; reflexivity. }
  eexists. split; [exact E | ]. rewrite reno_run_app, E. cbn [reno_run]. rewrite Hn. cbv zeta. cbn [reno_notify].
  unfold notify_copy. cbn [sim_notify re_sim]. split; [reflexivity | ]. cbn [re_cwin].
  rewrite Es. set (w := nr_cwin (re_sim r)) in *. 
  assert (Hw : w < two64 - 1) by (destruct (nr_ssthresh (re_sim r) =? max64); lia).
  unfold sim_spurious, enter_recovery. fold w. cbn [nr_cwin nr_ssthresh nr_start nr_sequence nr_residual]. rewrite half_max.
  unfold two_packets, cwin_minimum in *. change (2 * 1536) with 3072 in *. unfold two64 in Hw.
  set (th := N.max (w / 2) 3072).
  assert (Ht : th <= w) by (unfold th; lia).
  assert (Ht2 : u64 (2 * th) <= N.max w 6144) by (eapply N.le_trans; [apply u64_le | ]; unfold th; lia).
  clearbody th. change (2 * 3072) with 6144.
  destruct (_ && _); [ | cbn [nr_cwin]; destruct n; lia].
  destruct (_ && _); cbn [nr_cwin]; [exact Ht2 | destruct n; lia].
Qed.

(** Congestion avoidance: no acknowledged byte is lost to rounding. *)
Lemma avoidance_run m h2 : forall T r, reno_inv T r -> nr_slow (re_sim r) = false -> m <= 1536 -> T + total h2 <= two62 ->
  acked_bytes h2 * m < two62 -> Forall (plain_ack m) h2 ->
  exists r' P, reno_run r h2 = Some r' /\ re_cwin r' = nr_cwin (re_sim r') /\ nr_cwin (re_sim r) <= nr_cwin (re_sim r') /\
    acked_bytes h2 * m + nr_residual (re_sim r) = P + nr_residual (re_sim r') /\
    nr_residual (re_sim r') <= nr_cwin (re_sim r') /\
    nr_cwin (re_sim r) * (nr_cwin (re_sim r') - nr_cwin (re_sim r)) <= P /\
    P <= nr_cwin (re_sim r') * (nr_cwin (re_sim r') - nr_cwin (re_sim r)).
Proof.
  induction h2 as [ | [n i] h IH]; intros T r I Hs Hm HT HB Ha; cbn [reno_run total acked_bytes] in *.
  - exists r, 0. rewrite N.sub_diag, !N.mul_0_r. pose proof (rv_sync _ _ I). pose proof (rv_res _ _ I).
    split; [reflexivity | ]. repeat split; lia.
  - inversion Ha as [ | ? ? [A1 [A2 A3]] Ha']; subst. cbn [fst snd] in *. subst n. rewrite N.mul_add_distr_r in *.
    unfold reported in HT. cbn [fst snd] in HT.
    pose proof (rv_sync _ _ I) as Es. pose proof (rv_min _ _ I) as Mi. unfold cwin_minimum in Mi. pose proof (rv_res _ _ I) as Re.
    pose proof (rv_pot _ _ I) as P0. unfold potential in P0.
    assert (Hc : nr_cwin (re_sim r) <= slack + 2 * T) by (destruct (nr_ssthresh (re_sim r) =? max64); lia). clear P0.
    pose proof (quotient_bound (ci_bytes i) (ci_mtu i) (nr_residual (re_sim r)) (nr_cwin (re_sim r)) ltac:(lia) ltac:(lia) Re) as Q.
    destruct (ack_inv T r i I Hm ltac:(lia)) as [r1 [E1 [I1 L1]]].
    assert (Hr : reno_notify r NAck i = Some r1).
    { cbn [reno_notify]. unfold initial_slow. rewrite Hs. cbn [andb]. rewrite A2. exact E1. }
    rewrite Hr. revert E1. unfold notify_copy, sim_notify. rewrite Hs.
    replace (nr_cwin (re_sim r) =? 0) with false by lia. cbv zeta.
    specialize (IH (T + (ci_bytes i + 1)) r1 I1). 
    set (bm := ci_bytes i * ci_mtu i) in *. set (tm := acked_bytes h * ci_mtu i) in *.
    set (w := nr_cwin (re_sim r)) in *. unfold two62, slack in *.
    set (res := nr_residual (re_sim r)) in *.
    assert (Eb : u64 bm = bm) by (apply u64_id; unfold two64; lia). rewrite Eb in *.
    assert (Ed : u64 (bm + res) = bm + res) by (apply u64_id; unfold two64; lia). rewrite Ed in *.
    pose proof (N.div_mod (bm + res) w ltac:(lia)) as Dm. pose proof (N.mod_lt (bm + res) w ltac:(lia)) as Dl.
    set (q := (bm + res) / w) in *. set (md := (bm + res) mod w) in *. clearbody q md.
    assert (Ew : u64 (w + q) = w + q) by (apply u64_id; unfold two64; lia). rewrite Ew.
    intros E1. apply some_inj in E1. rewrite <- E1 in IH. cbn [re_sim nr_slow nr_cwin nr_residual] in IH.
    destruct (IH eq_refl Hm ltac:(lia) ltac:(lia) Ha') as [r2 [P [E2 [S2 [L2 [C2 [R2 [P1 P2]]]]]]]].
    clear IH. rewrite <- E1. exists r2, (w * q + P). split; [exact E2 | ]. split; [exact S2 | ].
    set (w2 := nr_cwin (re_sim r2)) in *. set (res2 := nr_residual (re_sim r2)) in *. clearbody w2 res2 bm tm w res.
    split; [lia | ]. split; [lia | ]. split; [exact R2 | ].
    assert (Ek : w2 - w = q + (w2 - (w + q))) by lia. rewrite Ek, !N.mul_add_distr_l.
    assert (w * (w2 - (w + q)) <= (w + q) * (w2 - (w + q))) by (apply N.mul_le_mono_r; lia).
    assert (w * q <= w2 * q) by (apply N.mul_le_mono_r; lia). lia.
Qed.

Lemma avoidance h1 h2 m r : sane_history (h1 ++ h2) -> reno_run reno_reset h1 = Some r -> nr_slow (re_sim r) = false ->
  m <= 1536 -> Forall (plain_ack m) h2 -> acked_bytes h2 * m < two62 ->
  exists r', reno_run reno_reset (h1 ++ h2) = Some r' /\ re_cwin r <= re_cwin r' /\
    re_cwin r * (re_cwin r' - re_cwin r) <= acked_bytes h2 * m + re_cwin r /\
    acked_bytes h2 * m <= re_cwin r' * (re_cwin r' - re_cwin r + 1).
Proof.
  intros [Hm HT] Er Hs Hm1 Ha HB. apply Forall_app in Hm. destruct Hm as [Hm2 _]. rewrite total_app in HT.
  destruct (run_reno_inv h1 0 reno_reset reset_inv Hm2 ltac:(lia)) as [r0 [E [I S]]].
  rewrite Er in E. apply some_inj in E. subst r0.
  destruct (avoidance_run m h2 _ r I Hs Hm1 ltac:(lia) HB Ha) as [r' [P [E2 [S2 [L2 [C2 [R2 [P1 P2]]]]]]]].
  exists r'. split; [rewrite reno_run_app, Er; exact E2 | ].
  pose proof (rv_sync _ _ I) as Es. pose proof (rv_res _ _ I). rewrite Es, S2.
  split; [exact L2 | ]. set (bm := acked_bytes h2 * m) in *. rewrite N.mul_add_distr_l, N.mul_1_r.
  split; lia.
Qed.
