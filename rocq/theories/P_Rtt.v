(** Property C28: round trip time estimates and retransmission delays. *)
From Verif Require Import Base Rtt_model Rtt_spec Rtt_proofs Rtt2_proofs.

(** After any sequence of measurements the smoothed round trip time lies between the
    smallest and the largest time observed between sending and acknowledgement, the
    correction for the delay of the peer notwithstanding. *)
Theorem C28_smoothed : forall lo hi D ms, observed_within lo hi ms -> sane_delays D ms -> no_overflow hi D ms ->
  rt_init (rtt_run ms) = true -> lo <= rt_smoothed (rtt_run ms) <= hi.
Proof. exact smoothed_between. Qed.
Print Assumptions C28_smoothed.

(** So does the last sample, and the minimum does not exceed it. *)
Theorem C28_sample : forall lo hi D ms, observed_within lo hi ms -> sane_delays D ms -> no_overflow hi D ms -> ms <> [] ->
  lo <= rt_sample (rtt_run ms) <= hi /\ rt_min (rtt_run ms) <= rt_sample (rtt_run ms).
Proof. exact samples_between. Qed.
Print Assumptions C28_sample.

(** The minimum is exactly the smallest of the observations made by acknowledgements. *)
Theorem C28_minimum : forall hi D ms, observed_within 0 hi ms -> sane_delays D ms -> no_overflow hi D ms ->
  rt_init (rtt_run ms) = true ->
  (exists m, In m ms /\ observed m = rt_min (rtt_run ms)) /\
  (forall m, In m ms -> (0 <= ms_epoch m)%Z -> rt_min (rtt_run ms) <= observed m) /\
  rt_min (rtt_run ms) <= rt_smoothed (rtt_run ms).
Proof. exact minimum_exact. Qed.
Print Assumptions C28_minimum.

(** The timer is bounded by the observations; it is at least the smoothed time plus three
    times the variation, and in the middle of a period at least the last sample. *)
Theorem C28_timer : forall lo hi D ms, observed_within lo hi ms -> sane_delays D ms -> no_overflow hi D ms ->
  rt_timer (rtt_run ms) <= 250000 + 4 * hi + D /\
  (rt_init (rtt_run ms) = true -> rt_smoothed (rtt_run ms) + 3 * rt_variant (rtt_run ms) <= rt_timer (rtt_run ms)) /\
  (0 < rt_nb (rtt_run ms) -> rt_sample (rtt_run ms) <= rt_timer (rtt_run ms)).
Proof. exact timer_bounded. Qed.
Print Assumptions C28_timer.

(** Five measurements: the handshake, then application packets, the second of which is
    corrected for the delay of the peer, the third accumulated in the same period. *)
Definition ex_ms : list measure :=
  [mk_measure 2 1000 51000 0 false false 0 max64 25000 25000;
   mk_measure 3 60000 130000 9000 false true 0 4 25000 25000;
   mk_measure 3 80000 150000 900000 false true 0 4 25000 25000;
   mk_measure 3 120000 162000 9000 false true 0 9 25000 25000;
   mk_measure (-1) 80000 81000 0 false true 0 9 25000 25000].
Example C28_ex : observed_within 1000 70000 ex_ms /\ sane_delays 25000 ex_ms /\ no_overflow 70000 25000 ex_ms /\
  rt_init (rtt_run ex_ms) = true /\ rt_smoothed (rtt_run ex_ms) = 51953 /\ rt_min (rtt_run ex_ms) = 42000 /\
  rt_sample (rtt_run ex_ms) = 42000 /\ rt_timer (rtt_run ex_ms) = 139296.
Proof.
  unfold observed_within, sane_delays, no_overflow, ex_ms.
  repeat match goal with |- _ /\ _ => split | |- Forall _ _ => constructor end; vm_compute; first [reflexivity | discriminate].
Qed.

(** On an established connection, unless the path is a long one, the delay never
    shrinks from one timeout to the next ... *)
Theorem C28_backoff : forall p idle mi n m a b, rt_smoothed p * 3 < two64 -> rt_timer p * 288 < two64 -> regular p ->
  (0 < n \/ idle <= 15 \/ rt_timer p <= idle / 16) -> n <= m ->
  current_timer p n idle false mi = Some a -> current_timer p m idle false mi = Some b -> a <= b.
Proof. exact delay_grows. Qed.
Print Assumptions C28_backoff.

(** ... and grows strictly, up to its cap or to the twentieth. *)
Theorem C28_backoff_strict : forall p idle mi n a b, rt_smoothed p * 3 < two64 -> rt_timer p * 288 < two64 -> regular p ->
  0 < rt_timer p -> 0 < n < 20 ->
  current_timer p n idle false mi = Some a -> current_timer p (n + 1) idle false mi = Some b ->
  a < b \/ b = delay_cap p idle.
Proof. exact delay_strict. Qed.
Print Assumptions C28_backoff_strict.

(** The delay is capped: by two seconds, on a long path by one and a half round trip,
    and by a sixteenth of the idle timeout. *)
Theorem C28_cap : forall p idle mi n a, rt_smoothed p * 3 < two64 -> rt_timer p * 288 < two64 -> 0 < n ->
  current_timer p n idle false mi = Some a ->
  a <= 2000000 \/ (610000 < rt_min p /\ a <= rt_smoothed p * 3 / 2).
Proof. exact delay_capped. Qed.
Print Assumptions C28_cap.

Theorem C28_idle_cap : forall p idle mi n a, rt_timer p * 288 < two64 -> 0 < n -> 15 < idle ->
  current_timer p n idle false mi = Some a -> a <= idle / 16.
Proof. exact idle_capped. Qed.
Print Assumptions C28_idle_cap.

(** The delays after the example, with an idle timeout of thirty seconds. *)
Example C28_backoff_ex : regular (rtt_run ex_ms) /\
  map (fun n => current_timer (rtt_run ex_ms) n 30000000 false 30000) [0; 1; 2; 3; 6; 10; 20] =
  [Some 139296; Some 278592; Some 557184; Some 696480; Some 1114368; Some 1875000; Some 1875000] /\
  delay_cap (rtt_run ex_ms) 30000000 = 1875000.
Proof. unfold regular. split; [left; vm_compute; discriminate | ]. vm_compute. split; reflexivity. Qed.

(** During the handshake the delay grows up to one second, or doubles up to a tenth
    of a local idle timeout longer than thirty seconds. *)
Theorem C28_handshake : forall p idle mi n m a b, rt_timer p * 288 < two64 -> mi <= 30000 ->
  (0 < n \/ idle <= 15 \/ N.min 1000000 (rt_timer p) <= idle / 16) -> n <= m ->
  current_timer p n idle true mi = Some a -> current_timer p m idle true mi = Some b -> a <= b.
Proof. exact handshake_grows. Qed.
Print Assumptions C28_handshake.

Theorem C28_handshake_cap : forall p idle mi n, mi <= 30000 ->
  exists a, current_timer p n idle true mi = Some a /\ a <= 1000000.
Proof. exact handshake_delay. Qed.
Print Assumptions C28_handshake_cap.

Theorem C28_handshake_long : forall p idle mi n, 30000 < mi -> mi * 100 < two64 -> rt_timer p * 2 ^ n < two64 -> n < 64 ->
  current_timer p n idle true mi = Some (N.min (rt_timer p * 2 ^ n) (mi * 100)).
Proof. exact handshake_long. Qed.
Print Assumptions C28_handshake_long.

Example C28_handshake_ex :
  map (fun n => current_timer rtt_start n 0 true 30000) [0; 1; 2; 3] = [Some 250000; Some 500000; Some 1000000; Some 1000000] /\
  map (fun n => current_timer rtt_start n 0 true 60000) [0; 1; 3; 5] = [Some 250000; Some 500000; Some 2000000; Some 6000000].
Proof. vm_compute. split; reflexivity. Qed.

(** The claim is false of long paths: after a first sample of 620 milliseconds and
    with an idle timeout of one minute, the first timeout shortens the delay from 1.575
    to 0.93 seconds. *)
Theorem C28_long_path_refuted : exists ms, let p := rtt_run ms in
  rt_init p = true /\ rt_min p = 620000 /\
  current_timer p 0 60000000 false 30000 = Some 1575000 /\ current_timer p 1 60000000 false 30000 = Some 930000.
Proof. exists [mk_measure 2 1000 621000 0 false false 0 0 25000 25000]. vm_compute. repeat split. Qed.
Print Assumptions C28_long_path_refuted.

(** It is also false of the first timeout when the idle timeout is short: the sixteenth
    of the idle timeout only applies after a timeout. *)
Theorem C28_short_idle_refuted : exists ms, let p := rtt_run ms in
  regular p /\
  current_timer p 0 10000000 false 10000 = Some 775000 /\ current_timer p 1 10000000 false 10000 = Some 625000.
Proof.
  exists [mk_measure 2 1000 301000 0 false false 0 0 25000 25000]. split; [left; vm_compute; discriminate | ].
  vm_compute. repeat split.
Qed.
Print Assumptions C28_short_idle_refuted.

(** With a long local idle timeout the shift is undefined from the sixty-fourth
    timeout on, and wraps to nothing before. *)
Theorem C28_shift_refuted : exists p,
  current_timer p 45 0 true 60000 = Some 6000000 /\ current_timer p 63 0 true 60000 = Some 0 /\
  current_timer p 64 0 true 60000 = None.
Proof. exists rtt_start. vm_compute. repeat split. Qed.
Print Assumptions C28_shift_refuted.
