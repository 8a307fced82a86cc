(** Property C29: the congestion window of NewReno. *)
From Verif Require Import Base Reno_model Reno_spec Reno_proofs Reno2_proofs.

(** After any sequence of notifications no operation was undefined and the window is
    at least two full-size packets. *)
Theorem C29_minimum : forall h, sane_history h ->
  exists r, reno_run reno_reset h = Some r /\ two_packets <= re_cwin r /\ re_cwin r < two64.
Proof. exact window_minimum. Qed.
Print Assumptions C29_minimum.

(** A loss, timeout or mark of congestion of a packet sent since the last reduction
    halves the window, down to two packets; a timeout leaves two packets; losses of
    older packets change nothing. *)
Theorem C29_halved : forall h n i, sane_history (h ++ [(n, i)]) -> is_loss n = true ->
  exists r r', reno_run reno_reset h = Some r /\ reno_run reno_reset (h ++ [(n, i)]) = Some r' /\
  (round_start 0 h <= ci_lost i ->
    re_cwin r' = match n with NTimeout => two_packets | _ => N.max (re_cwin r / 2) two_packets end) /\
  (ci_lost i < round_start 0 h -> re_cwin r' = re_cwin r).
Proof. exact loss_effect. Qed.
Print Assumptions C29_halved.

(** There is at most one reduction per round: until a packet sent after the last
    reduction is lost, the window never shrinks. *)
Theorem C29_once_per_round : forall h1 h2, sane_history (h1 ++ h2) -> Forall (same_round (round_start 0 h1)) h2 ->
  exists r1 r2, reno_run reno_reset h1 = Some r1 /\ reno_run reno_reset (h1 ++ h2) = Some r2 /\ re_cwin r1 <= re_cwin r2.
Proof. exact once_per_round. Qed.
Print Assumptions C29_once_per_round.

(** After initial slow start an acknowledgement opens the window by at most the bytes
    acknowledged, and in congestion avoidance by at most one packet for each window of
    bytes acknowledged. *)
Theorem C29_growth : forall h i r, sane_history (h ++ [(NAck, i)]) -> reno_run reno_reset h = Some r -> initial_slow (re_sim r) = false ->
  exists r', reno_run reno_reset (h ++ [(NAck, i)]) = Some r' /\
    (nr_slow (re_sim r) = true -> re_cwin r' <= re_cwin r + ci_bytes i) /\
    (nr_slow (re_sim r) = false -> re_cwin r' <= re_cwin r + ci_bytes i * ci_mtu i / re_cwin r + 1).
Proof. exact growth. Qed.
Print Assumptions C29_growth.

(** Over a stretch of acknowledgements in congestion avoidance the window grows by one
    packet for each window of bytes acknowledged, no less and no more, up to rounding. *)
Theorem C29_avoidance : forall h1 h2 m r, sane_history (h1 ++ h2) -> reno_run reno_reset h1 = Some r -> nr_slow (re_sim r) = false ->
  m <= 1536 -> Forall (plain_ack m) h2 -> acked_bytes h2 * m < two62 ->
  exists r', reno_run reno_reset (h1 ++ h2) = Some r' /\ re_cwin r <= re_cwin r' /\
    re_cwin r * (re_cwin r' - re_cwin r) <= acked_bytes h2 * m + re_cwin r /\
    acked_bytes h2 * m <= re_cwin r' * (re_cwin r' - re_cwin r + 1).
Proof. exact avoidance. Qed.
Print Assumptions C29_avoidance.

(** A measurement of delay ends slow start only after thirteen measurements since the
    last reset, and only if one of them exceeds another by more than a quarter. *)
Theorem C29_delay : forall h i r r', reno_run reno_reset h = Some r -> reno_run reno_reset (h ++ [(NRtt, i)]) = Some r' ->
  nr_slow (re_sim r) = true -> nr_slow (re_sim r') = false ->
  13 <= N.of_nat (length (rtts [] (h ++ [(NRtt, i)]))) /\
  exists x y, In x (rtts [] (h ++ [(NRtt, i)])) /\ In y (rtts [] (h ++ [(NRtt, i)])) /\ u64 (x + x / 4) < y.
Proof. exact slow_start_end. Qed.
Print Assumptions C29_delay.

(** Undoing a reduction found spurious restores at most the window before it, or four
    packets. *)
Theorem C29_undo : forall h n i j, sane_history (h ++ [(n, i); (NSpurious, j)]) -> is_loss n = true ->
  round_start 0 h <= ci_lost i ->
  exists r r', reno_run reno_reset h = Some r /\ reno_run reno_reset (h ++ [(n, i); (NSpurious, j)]) = Some r' /\
  re_cwin r' <= N.max (re_cwin r) (2 * two_packets).
Proof. exact undo_bound. Qed.
Print Assumptions C29_undo.

(** Slow start, a loss of packet 5 when 20 is the next to send, a second loss in the
    same round, an acknowledgement in congestion avoidance, a timeout of packet 21. *)
Definition ex_in (now bytes lost next acked : N) : ccin :=
  mk_ccin now bytes lost 50000 next acked 0 false 1440 50000 50000 0 false.
Definition ex_loss : history :=
  [(NRtt, ex_in 50000 0 0 0 0); (NAck, ex_in 100000 14400 0 10 4); (NRepeat, ex_in 110000 0 5 20 8)].
Definition ex_after : history :=
  [(NRepeat, ex_in 120000 0 6 25 9); (NAck, ex_in 150000 12000 0 26 18)].
Example C29_ex : sane_history (ex_loss ++ ex_after ++ [(NTimeout, ex_in 900000 0 21 40 18)]) /\
  round_start 0 ex_loss = 20 /\ Forall (same_round 20) ex_after /\
  map (fun h => match reno_run reno_reset h with Some r => re_cwin r | None => 0 end)
    [[]; firstn 2 ex_loss; ex_loss; ex_loss ++ ex_after; ex_loss ++ ex_after ++ [(NTimeout, ex_in 900000 0 21 40 18)];
     ex_loss ++ [(NSpurious, ex_in 130000 0 0 30 10)]] =
  [15360; 29760; 14880; 16041; 3072; 29760].
Proof.
  unfold sane_history, ex_loss, ex_after. cbn [app].
  repeat match goal with |- _ /\ _ => split | |- Forall _ _ => constructor end; vm_compute; first [reflexivity | discriminate].
Qed.

(** A hundred acknowledgements of ten bytes after the loss: each is too small to open the
    window, together they open it by 96 bytes. *)
Definition ex_small : history := List.repeat (NAck, ex_in 150000 10 0 26 18) 100.
Example C29_avoidance_ex : sane_history (ex_loss ++ ex_small) /\ Forall (plain_ack 1440) ex_small /\
  acked_bytes ex_small = 1000 /\
  match reno_run reno_reset ex_loss, reno_run reno_reset (ex_loss ++ ex_small) with
  | Some r, Some r' => nr_slow (re_sim r) = false /\ re_cwin r = 14880 /\ re_cwin r' = 14976
  | _, _ => False
  end.
Proof.
  split; [ | split; [ | split; [reflexivity | vm_compute; auto]]].
  - split; [ | vm_compute; discriminate]. apply Forall_app. split.
    + unfold ex_loss. repeat constructor; vm_compute; discriminate.
    + apply Forall_forall. intros e He. apply repeat_spec in He. subst e. vm_compute. discriminate.
  - apply Forall_forall. intros e He. apply repeat_spec in He. subst e. repeat split.
Qed.

(** Seven delays of 40 ms, then thirteen of 60 ms: the last ends slow start. *)
Definition ex_rtt (k rtt : N) : notification * ccin :=
  (NRtt, mk_ccin (2000 * k) 0 0 rtt 0 0 0 false 1440 40000 40000 0 false).
Definition ex_delays : history :=
  map (fun k => ex_rtt k 40000) [1; 2; 3; 4; 5; 6; 7] ++ map (fun k => ex_rtt k 60000) [8; 9; 10; 11; 12; 13; 14; 15; 16; 17; 18; 19].
Example C29_delay_ex :
  match reno_run reno_reset ex_delays, reno_run reno_reset (ex_delays ++ [ex_rtt 20 60000]) with
  | Some r, Some r' => nr_slow (re_sim r) = true /\ nr_slow (re_sim r') = false
  | _, _ => False
  end.
Proof. vm_compute. split; reflexivity. Qed.

(** The window restored can exceed the one before the loss: at two packets, a loss that
    turns out to be spurious doubles the window. *)
Theorem C29_undo_refuted : exists h i j r r', sane_history (h ++ [(NRepeat, i); (NSpurious, j)]) /\
  reno_run reno_reset h = Some r /\ reno_run reno_reset (h ++ [(NRepeat, i); (NSpurious, j)]) = Some r' /\
  re_cwin r = two_packets /\ re_cwin r' = 2 * re_cwin r.
Proof.
  exists [(NTimeout, ex_in 300000 0 0 5 0)], (ex_in 400000 0 6 10 5), (ex_in 410000 0 0 11 7).
  eexists. eexists. split; [ | split; [reflexivity | split; [reflexivity | ]]].
  - unfold sane_history. cbn [app]. split; [repeat constructor; vm_compute; discriminate | vm_compute; discriminate].
  - vm_compute. split; reflexivity.
Qed.
Print Assumptions C29_undo_refuted.
