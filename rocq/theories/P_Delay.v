(** C51: acknowledgements are sent in time. *)
From Verif Require Import Base Sack_model Ack_model Ack_spec Delay_model Delay_spec
  Delay2_proofs Delay4_proofs Delay5_proofs Delay6_proofs.

(** When the delay has passed since a packet that asks for an acknowledgement arrived,
    the next packet that is built with at least 600 bytes left has an ACK frame, and it
    names every packet that waits.  At most 33 ranges may be stored. *)
Theorem C51_due_is_acked : forall nb neg s0 h s, start nb neg s0 -> reach s0 h s -> calm h ->
  forall q t, waiting h q t ->
  forall ecn now wake room, ecn_ok ecn -> now < 2 ^ 62 -> 600 <= room ->
  (length (sl_items (d_sl s)) <= 33)%nat ->
  t + d_delay s <= now ->
  exists s2 bytes, poll s (CNew room) ecn now wake = (s2, bytes, false, now) /\
    forall q2 t2, waiting h q2 t2 -> names bytes q2.
Proof. exact due_is_acked. Qed.
Print Assumptions C51_due_is_acked.

Example C51_due_is_acked_ex :
  match execs ([], plain 0) [EP 0 [FElicit] 5000; EL (CNew 1200) 5500] with
  | Some (h, s) =>
      calmb h = true /\ waitb h 0 [FElicit] 5000 = true /\ d_delay s = 1000 /\
      match poll s (CNew 1200) None 6000 max64 with (_, b, _, _) => read b = Some [(0, 0)] end
  | None => False
  end.
Proof. vm_compute. repeat split. Qed.

(** Without the ACK_FREQUENCY extension the delay is at most 10 ms, whatever was
    estimated and however often the values were computed again. *)
Theorem C51_ten_ms : forall nb s0 h s, start nb false s0 -> reach s0 h s -> calm h ->
  forall q t, waiting h q t ->
  forall ecn now wake room, ecn_ok ecn -> now < 2 ^ 62 -> 600 <= room ->
  (length (sl_items (d_sl s)) <= 33)%nat ->
  t + 10000 <= now ->
  exists s2 bytes, poll s (CNew room) ecn now wake = (s2, bytes, false, now) /\
    forall q2 t2, waiting h q2 t2 -> names bytes q2.
Proof. exact ten_ms. Qed.
Print Assumptions C51_ten_ms.

Example C51_ten_ms_ex :
  match execs ([], plain 200) [ET far; EP 0 [FElicit] 5000] with
  | Some (h, s) =>
      calmb h = true /\ waitb h 0 [FElicit] 5000 = true /\ d_delay s = 10000 /\ silent s 14999 = true /\ silent s 15000 = false
  | None => False
  end.
Proof. vm_compute. repeat split. Qed.

(** The bounds of the values that are used without the extension. *)
Theorem C51_delay_bounds : forall nb s0 h s, start nb false s0 -> reach s0 h s ->
  d_neg s = false /\ d_ignore s = false /\ 1000 <= d_delay s <= 10000 /\ 1 <= d_gap s.
Proof. exact delay_bounds. Qed.
Print Assumptions C51_delay_bounds.

Example C51_delay_bounds_ex :
  match execs ([], plain 200) [ET far] with
  | Some (h, s) => (d_gap s, d_delay s) = (20, 10000)
  | None => False
  end.
Proof. vm_compute. reflexivity. Qed.

(** The computation of these values divides by zero for no estimates, if the size of
    the packets is not zero. *)
Theorem C51_tune_total : forall s v, v_neg v = d_neg s -> 0 < v_mtu v -> exists s2, tune s v = Some s2.
Proof. exact tune_total. Qed.
Print Assumptions C51_tune_total.

Example C51_tune_total_ex :
  match tune (plain 0) (mk_pathv false 0 1 0 0 false false 0 0) with
  | Some s => (d_gap s, d_delay s) = (2, 1000)
  | None => False
  end.
Proof. vm_compute. reflexivity. Qed.

(** With the extension, the gap, the delay and the rule about the order are those of
    the ACK_FREQUENCY frame with the highest sequence number, in any order of arrival. *)
Theorem C51_frequency_latest : forall nb s0 h s, start nb true s0 -> reach s0 h s ->
  match newest None (all_requests h) with
  | None => d_gap s = 2 /\ d_delay s = 1000 /\ d_ignore s = false
  | Some (_, (packets, microsec, ignore)) => d_gap s = packets /\ d_delay s = microsec /\ d_ignore s = ignore
  end.
Proof. exact frequency_latest. Qed.
Print Assumptions C51_frequency_latest.

Example C51_frequency_latest_ex :
  match execs ([], freq 0) [EP 0 [FFrequency 7 10 4000 0] 100; EP 1 [FFrequency 5 20 9000 1] 200] with
  | Some (h, s) => newest None (all_requests h) = Some (7, (10, 4000, true)) /\
      (d_gap s, d_delay s, d_ignore s) = (10, 4000, true)
  | None => False
  end.
Proof. vm_compute. split; reflexivity. Qed.

(** A poll that writes no ACK frame although a packet waits asks to be called again
    before the delay of that packet has passed. *)
Theorem C51_wake_in_time : forall nb neg s0 h s, start nb neg s0 -> reach s0 h s -> calm h ->
  forall q t, waiting h q t ->
  forall ecn now wake room s2 bytes m w, ecn_ok ecn -> now < 2 ^ 62 -> 600 <= room ->
  (length (sl_items (d_sl s)) <= 33)%nat ->
  poll s (CNew room) ecn now wake = (s2, bytes, m, w) ->
  (forall q2 t2, waiting h q2 t2 -> names bytes q2) \/
  (bytes = [] /\ w <= t + d_delay s /\ w <= wake).
Proof. exact wake_in_time. Qed.
Print Assumptions C51_wake_in_time.

Example C51_wake_in_time_ex :
  match execs ([], plain 0) [EP 0 [FElicit] 5000; EP 1 [FElicit] 5300] with
  | Some (h, s) =>
      waitb h 1 [FElicit] 5300 = true /\
      match poll s (CNew 1200) None 5300 max64 with (_, b, _, w) => b = [] /\ w = 6000 end
  | None => False
  end.
Proof. vm_compute. repeat split. Qed.

(** Unless the peer asked to ignore the order, a packet is acknowledged by the next poll
    when a higher number was acknowledged before, or when a number between it and all
    numbers acknowledged before is missing. *)
Theorem C51_reordering : forall nb neg s0 h s, start nb neg s0 -> reach s0 h s -> calm h -> d_ignore s = false ->
  forall q t, waiting h q t ->
  (exists n, named h n /\ q < n) \/
  (any_frame h /\ exists k, ~ received h k /\ k < q /\ forall n, named h n -> n < k) ->
  forall ecn now wake room, ecn_ok ecn -> now < 2 ^ 62 -> 600 <= room ->
  (length (sl_items (d_sl s)) <= 33)%nat ->
  exists s2 bytes, poll s (CNew room) ecn now wake = (s2, bytes, false, now) /\
    forall q2 t2, waiting h q2 t2 -> names bytes q2.
Proof. exact reordering. Qed.
Print Assumptions C51_reordering.

Example C51_reordering_ex :
  match execs ([], plain 200) [EP 3 [FElicit] 5000; EL (CNew 1200) 6000; EP 5 [FElicit] 6100] with
  | Some (h, s) =>
      calmb h = true /\ waitb h 5 [FElicit] 6100 = true /\ unnamedb h 4 = true /\
      match poll s (CNew 1200) None 6100 max64 with (_, b, _, _) => read b = Some [(5, 5); (3, 3)] end
  | None => False
  end.
Proof. vm_compute. repeat split. Qed.

(** When as many packets wait as the gap says (two, during the first 128 packets), the
    next poll acknowledges all of them. *)
Theorem C51_enough_packets : forall nb neg s0 h s, start nb neg s0 -> reach s0 h s -> calm h -> d_ignore s = false ->
  any_frame h ->
  forall l g, NoDup l -> l <> [] -> (forall q, In q l -> exists t, waiting h q t) ->
  (d_nb s < 128 -> g = 2) -> (128 <= d_nb s -> g = d_gap s) -> g <= N.of_nat (length l) ->
  forall ecn now wake room, ecn_ok ecn -> now < 2 ^ 62 -> 600 <= room ->
  (length (sl_items (d_sl s)) <= 33)%nat ->
  exists s2 bytes, poll s (CNew room) ecn now wake = (s2, bytes, false, now) /\
    forall q2 t2, waiting h q2 t2 -> names bytes q2.
Proof. exact enough_packets. Qed.
Print Assumptions C51_enough_packets.

Example C51_enough_packets_ex :
  match execs ([], plain 0) [EP 0 [FElicit] 5000; EL (CNew 1200) 6000; EP 1 [FElicit] 6100; EL (CNew 1200) 6100; EP 2 [FElicit] 6200] with
  | Some (h, s) =>
      calmb h = true /\ waitb h 1 [FElicit] 6100 = true /\ waitb h 2 [FElicit] 6200 = true /\
      match poll s (CNew 1200) None 6200 max64 with (_, b, _, _) => read b = Some [(0, 2)] end
  | None => False
  end.
Proof. vm_compute. repeat split. Qed.

(** A packet that completes a stream is acknowledged by the next poll. *)
Theorem C51_fin_is_acked : forall nb neg s0 h s, start nb neg s0 -> reach s0 h s -> calm h ->
  forall pn fs t s1, pn < 2 ^ 62 -> Forall frame_ok fs -> t < 2 ^ 62 -> recent h t ->
  receive s pn fs t = Some (s1, true) -> In FFin fs -> ~ named h pn ->
  forall ecn now wake room, ecn_ok ecn -> now < 2 ^ 62 -> 600 <= room ->
  (length (sl_items (d_sl s1)) <= 33)%nat ->
  exists s2 bytes, poll s1 (CNew room) ecn now wake = (s2, bytes, false, now) /\ names bytes pn /\
    forall q2 t2, waiting h q2 t2 -> names bytes q2.
Proof. exact fin_is_acked. Qed.
Print Assumptions C51_fin_is_acked.

Example C51_fin_is_acked_ex :
  match execs ([], plain 0) [EP 0 [FElicit] 5000; EP 1 [FFin; FQuiet] 5100] with
  | Some (h, s) => match poll s (CNew 1200) None 5100 max64 with (_, b, _, _) => read b = Some [(0, 1)] end
  | None => False
  end.
Proof. vm_compute. reflexivity. Qed.

(** An ACK frame names only packets that were accepted. *)
Theorem C51_named_received : forall nb neg s0 h s, start nb neg s0 -> reach s0 h s ->
  forall q, named h q -> received h q.
Proof. exact named_received. Qed.
Print Assumptions C51_named_received.

Example C51_named_received_ex :
  match execs ([], plain 0) [EP 4 [FElicit] 5000; EP 6 [FQuiet] 5000; EL (CNew 1200) 6000] with
  | Some (h, s) => unnamedb h 5 = true /\ unnamedb h 4 = false /\ unnamedb h 6 = false
  | None => False
  end.
Proof. vm_compute. repeat split. Qed.

(** IMMEDIATE_ACK is ignored when it is the last frame of its packet (frames.c
    5329-5346 tests for bytes after the frame). *)
Theorem C51_immediate_last_refuted : exists nb s0 h s pn fs t s2 m w,
  start nb true s0 /\ reach s0 h s /\ waiting h pn t /\ In (ORecv pn fs t) h /\ In FImmediate fs /\
  poll s (CNew 1200) None t max64 = (s2, [], m, w).
Proof. exact immediate_last. Qed.
Print Assumptions C51_immediate_last_refuted.

(** IMMEDIATE_ACK is ignored when another packet already waits for its acknowledgement
    (frames.c 4008-4029 does nothing then). *)
Theorem C51_immediate_pending_refuted : exists nb s0 h s pn t s2 m w,
  start nb true s0 /\ reach s0 h s /\ waiting h pn t /\ In (ORecv pn [FImmediate; FElicit] t) h /\
  poll s (CNew 1200) None t max64 = (s2, [], m, w).
Proof. exact immediate_pending. Qed.
Print Assumptions C51_immediate_pending_refuted.

(** Before the first ACK frame, packets 1 and 0 in this order are not acknowledged at
    once, although they are two and the second is out of order. *)
Theorem C51_first_two_refuted : exists nb s0 h s t s2 m w,
  start nb false s0 /\ reach s0 h s /\ waiting h 0 t /\ waiting h 1 t /\
  (exists h0, h = h0 ++ [ORecv 0 [FElicit] t]) /\
  poll s (CNew 1200) None t max64 = (s2, [], m, w).
Proof. exact first_two. Qed.
Print Assumptions C51_first_two_refuted.

(** With more than 33 ranges, a packet that asks for an acknowledgement can be left out
    of the ACK frame, and the flag is cleared all the same: no later poll acknowledges it
    until another packet arrives, at whatever time it comes. *)
Theorem C51_forgotten_refuted : exists nb s0 h s t,
  start nb false s0 /\ reach s0 h s /\ waiting h 70 t /\
  forall room ecn now wake, poll s (CNew room) ecn now wake = (s, [], false, wake).
Proof. exact forgotten. Qed.
Print Assumptions C51_forgotten_refuted.

(** An ACK frame is sent although no packet asked for one, after eight packets with only
    ACK frames (RFC 9000 section 13.2.1 forbids a packet with only an ACK frame in
    response to a packet that is not ack-eliciting). *)
Theorem C51_ack_of_acks_refuted : exists nb s0 h s now s2 bytes m w,
  start nb false s0 /\ reach s0 h s /\
  (forall q fs t, In (ORecv q fs t) h -> existsb elicits fs = false) /\
  poll s (CNew 1200) None now max64 = (s2, bytes, m, w) /\ bytes <> [].
Proof. exact ack_of_acks. Qed.
Print Assumptions C51_ack_of_acks_refuted.

(** The max_ack_delay that was announced to the peer is not used: with 5 ms announced, a
    packet can wait for 10 ms. *)
Theorem C51_announced_refuted : exists s0 h s pn t s2 m w,
  s0 = dly_init 200 false 1000 3 5000 /\ reach s0 h s /\ waiting h pn t /\
  poll s (CNew 1200) None (t + 9999) max64 = (s2, [], m, w) /\ w = t + 10000.
Proof. exact announced. Qed.
Print Assumptions C51_announced_refuted.
