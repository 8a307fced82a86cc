(** Model of the decision to send acknowledgements, picoquic/frames.c,
    sacks.c, packet.c and sender.c (definitions only).

    One path, application packet context, connection ready.  The list of
    received numbers and the construction of the ACK frame are those of
    Sack_model.v and Ack_model.v.  The second set of flags (act[1], for
    opportunistic ACKs on other paths) is not modelled. *)
From Verif Require Import Base Sack_model Ack_model.

(** picoquic/picoquic_internal.h 61-63: PICOQUIC_ACK_DELAY_MAX and
    PICOQUIC_ACK_DELAY_MIN, in microseconds. *)
Definition ack_delay_max : N := 10000.
Definition ack_delay_min : N := 1000.

(** picoquic/picoquic_internal.h 915-930, picoquic_ack_context_t with act[0],
    and the fields of the connection that control the acknowledgements
    (ack_gap_remote, ack_delay_remote, ack_ignore_order_remote,
    ack_frequency_sequence_remote, is_ack_frequency_negotiated,
    nb_packets_received, local_parameters.min_ack_delay, max_ack_delay and
    ack_delay_exponent). *)
Record dly := mk_dly {
  d_needed : bool;          (* act[0].ack_needed *)
  d_fin : bool;             (* act[0].ack_after_fin *)
  d_ooo : bool;             (* act[0].out_of_order_received *)
  d_imm : bool;             (* act[0].is_immediate_ack_required *)
  d_oldest : N;             (* act[0].time_oldest_unack_packet_received *)
  d_high : N;               (* act[0].highest_ack_sent *)
  d_high_time : N;          (* act[0].highest_ack_sent_time *)
  d_stamp : N;              (* time_stamp_largest_received *)
  d_sl : sack_list;         (* sack_list *)
  d_nb : N;                 (* nb_packets_received *)
  d_gap : N;                (* ack_gap_remote *)
  d_delay : N;              (* ack_delay_remote *)
  d_ignore : bool;          (* ack_ignore_order_remote *)
  d_seq : N;                (* ack_frequency_sequence_remote *)
  d_neg : bool;             (* is_ack_frequency_negotiated *)
  d_min : N;                (* local_parameters.min_ack_delay *)
  d_exp : N;                (* local_parameters.ack_delay_exponent *)
  d_max : N                 (* local_parameters.max_ack_delay, announced to the peer *)
}.

(** picoquic/quicctx.c 2681-2691 and 4070-4082: the state when the connection
    starts.  [nb] packets were received before the first of this context. *)
Definition dly_init (nb : N) (neg : bool) (min exp max : N) : dly :=
  mk_dly false false false false 0 0 0 0 (sack_list_init 0) nb 2 ack_delay_min false max64 neg min exp max.

(** picoquic/frames.c 4008-4029, picoquic_set_ack_needed, single path: nothing
    changes when an ACK is already needed. *)
Definition set_ack_needed (s : dly) (now : N) (imm : bool) : dly :=
  if d_needed s then s
  else mk_dly true (d_fin s) (d_ooo s) (d_imm s || imm) now (d_high s) (d_high_time s) (d_stamp s)
         (d_sl s) (d_nb s) (d_gap s) (d_delay s) (d_ignore s) (d_seq s) (d_neg s) (d_min s) (d_exp s) (d_max s).

(** picoquic/frames.c 1291-1295: a STREAM or RESET_STREAM frame left the stream
    with its end known. *)
Definition set_fin (s : dly) : dly :=
  mk_dly (d_needed s) true (d_ooo s) (d_imm s) (d_oldest s) (d_high s) (d_high_time s) (d_stamp s)
         (d_sl s) (d_nb s) (d_gap s) (d_delay s) (d_ignore s) (d_seq s) (d_neg s) (d_min s) (d_exp s) (d_max s).

(** The frames of a packet, as far as they matter here: a frame that does not
    elicit an ACK (ACK, PADDING, ...), one that does, a frame that completes a
    stream, IMMEDIATE_ACK and ACK_FREQUENCY (picoquic/frames.c 6377-6662,
    picoquic_decode_frames). *)
Inductive pframe :=
| FQuiet
| FElicit
| FFin
| FImmediate
| FFrequency (seq packets microsec reordering : N).

(** picoquic/frames.c 6377-6662: does the frame clear is_pure_ack (ack_needed is set
    to 1 in the cases of the switch)? *)
Definition elicits (f : pframe) : bool :=
  match f with FQuiet => false | _ => true end.

(** [(int64_t)(a - b) > 0] on uint64_t, picoquic/frames.c 5249-5250. *)
Definition later (a b : N) : bool :=
  let d := u64 (a + two64 - b) in (0 <? d) && (d <? 9223372036854775808).

(** picoquic/frames.c 5231-5270, picoquic_decode_ack_frequency_frame; [None]
    is the connection error. *)
Definition ack_frequency (s : dly) (seq packets microsec reordering : N) : option dly :=
  if negb (d_neg s) || (microsec <? d_min s) || (packets =? 0) then None
  else if later seq (d_seq s) then
    Some (mk_dly (d_needed s) (d_fin s) (d_ooo s) (d_imm s) (d_oldest s) (d_high s) (d_high_time s) (d_stamp s)
         (d_sl s) (d_nb s) packets microsec (reordering =? 0) seq (d_neg s) (d_min s) (d_exp s) (d_max s))
  else Some s.

(** picoquic/frames.c 5329-5346, picoquic_decode_immediate_ack_frame: the
    request is considered only if the packet has bytes after the frame. *)
Definition immediate_ack (s : dly) (rest : list pframe) (now : N) : option dly :=
  match rest with
  | [] => Some s
  | _ :: _ => if d_neg s then Some (set_ack_needed s now true) else None
  end.

(** picoquic/frames.c 6377-6662: the loop over the frames. *)
Fixpoint decode_frames (s : dly) (fs : list pframe) (now : N) : option dly :=
  match fs with
  | [] => Some s
  | f :: rest =>
    match (match f with
           | FQuiet | FElicit => Some s
           | FFin => Some (set_fin s)
           | FImmediate => immediate_ack s rest now
           | FFrequency q p m r => ack_frequency s q p m r
           end) with
    | Some s1 => decode_frames s1 rest now
    | None => None
    end
  end.

(** picoquic/sacks.c 258-294, picoquic_record_pn_received, with the flags and
    time stamps; picoquic/packet.c 2297-2300: the packet is counted. *)
Definition record_number (s : dly) (pn now : N) : dly :=
  let last := sack_list_last (d_sl s) in
  let sl2 := fst (record_pn_received (d_sl s) pn now) in
  let '(ooo, stamp) :=
    match sl_items (d_sl s) with
    | [] => (d_ooo s, now)
    | _ =>
      if last <? pn then (d_ooo s || (u64 (last + 1) <? pn), now)
      else (d_ooo s || (d_needed s && (pn <? d_high s)), d_stamp s)
    end in
  mk_dly (d_needed s) (d_fin s) ooo (d_imm s) (d_oldest s) (d_high s) (d_high_time s) stamp
         sl2 (d_nb s + 1) (d_gap s) (d_delay s) (d_ignore s) (d_seq s) (d_neg s) (d_min s) (d_exp s) (d_max s).

(** picoquic/packet.c 636-643 and 845-848 (a number already recorded makes the packet a duplicate,
    which is dropped), frames.c 6645-6655 (ack needed when a frame elicits one)
    and packet.c 2293-2300.  [None] is a connection error; the boolean tells
    whether the packet was accepted. *)
Definition receive (s : dly) (pn : N) (fs : list pframe) (now : N) : option (dly * bool) :=
  if is_pn_already_received (d_sl s) pn then Some (s, false)
  else
    match decode_frames s fs now with
    | None => None
    | Some s1 =>
      let s2 := if existsb elicits fs then set_ack_needed s1 now false else s1 in
      Some (record_number s2 pn now, true)
    end.

(** picoquic/frames.c 4031-4048, picoquic_ack_gap_override_if_needed. *)
Definition gap_now (s : dly) : N := if d_nb s <? 128 then 2 else d_gap s.

(** Forget that the end of a stream asks for an ACK (frames.c 4062). *)
Definition clear_fin (s : dly) : dly :=
  mk_dly (d_needed s) false (d_ooo s) (d_imm s) (d_oldest s) (d_high s) (d_high_time s) (d_stamp s)
         (d_sl s) (d_nb s) (d_gap s) (d_delay s) (d_ignore s) (d_seq s) (d_neg s) (d_min s) (d_exp s) (d_max s).

(** picoquic/frames.c 4050-4094, picoquic_is_ack_needed_in_ctx: the answer, the
    state (ack_after_fin is cleared) and the wake time. *)
Definition is_ack_needed (s : dly) (now wake : N) : bool * dly * N :=
  if d_needed s then
    if d_imm s then (true, s, wake)
    else if d_fin s then (true, clear_fin s, wake)
    else if d_ooo s && negb (d_ignore s) then (true, s, wake)
    else
      let due := u64 (d_oldest s + d_delay s) in
      if (u64 (d_high s + gap_now s) <=? sack_list_last (d_sl s)) || (due <=? now) then (true, s, wake)
      else (false, s, if due <? wake then due else wake)
  else if (u64 (d_high s + 8) <=? sack_list_last (d_sl s)) && (u64 (d_high_time s + d_delay s) <=? now)
  then (negb (sack_list_last (d_sl s) =? max64), s, wake)
  else (false, s, wake).

(** picoquic/frames.c 3836-3838: the delay field. *)
Definition delay_field (s : dly) (now : N) : N :=
  if d_stamp s <? now then N.shiftr (now - d_stamp s) (d_exp s) else 0.

(** picoquic/frames.c 3815-3956, picoquic_format_ack_frame_in_context with its
    bookkeeping, not opportunistic, without time stamp frame.  [ecn]: the ECN
    totals if they are sent. *)
Definition write_ack (s : dly) (ecn : option (N * N * N)) (now room : N) : dly * list N * bool :=
  let '(bytes, sl2, more) := format_ack_frame (d_sl s) false (d_needed s) ecn None (delay_field s now) room in
  match bytes with
  | [] => (s, [], more)
  | _ =>
    (mk_dly false false false false (d_oldest s) (sack_list_last sl2) now (d_stamp s)
         sl2 (d_nb s) (d_gap s) (d_delay s) (d_ignore s) (d_seq s) (d_neg s) (d_min s) (d_exp s) (d_max s),
     bytes, more)
  end.

(** The three ways in which picoquic_prepare_packet_ready reaches the ACK code
    (picoquic/sender.c 3305-3372): a packet is repeated, and an ACK is added if
    more than 256 bytes are left; nothing may be sent (pacing, unverified
    address, multipath probe); or a new packet is prepared, with [room] bytes left. *)
Inductive chance :=
| CRepeat (room : N)
| CBlocked
| CNew (room : N).

(** picoquic/sender.c 3305-3372 and 3663-3665: one call, as far as ACKs are
    concerned: the new state, the ACK frame or nothing, whether more_data was
    set, and the wake time ([now] when a packet is sent).  The other parts of
    the function can only lower the wake time. *)
Definition poll (s : dly) (c : chance) (ecn : option (N * N * N)) (now wake : N) : dly * list N * bool * N :=
  match c with
  | CRepeat room =>
    if 256 <? room then
      let '(s1, bytes, more) := write_ack s ecn now room in (s1, bytes, more, now)
    else (s, [], false, now)
  | CBlocked => (s, [], false, wake)
  | CNew room =>
    let '(needed, s1, wake1) := is_ack_needed s now wake in
    if needed then
      let '(s2, bytes, more) := write_ack s1 ecn now room in
      (s2, bytes, more, match bytes with [] => if more then now else wake1 | _ => now end)
    else (s1, [], false, wake1)
  end.

(** picoquic/sacks.c 347-380: the peer acknowledged an ACK with the range
    [a, b] (frames.c 2997-3094). *)
Definition ack_of_ack (s : dly) (a b : N) : dly :=
  mk_dly (d_needed s) (d_fin s) (d_ooo s) (d_imm s) (d_oldest s) (d_high s) (d_high_time s) (d_stamp s)
         (process_ack_of_ack_range (d_sl s) a b) (d_nb s) (d_gap s) (d_delay s) (d_ignore s) (d_seq s)
         (d_neg s) (d_min s) (d_exp s) (d_max s).

(** ** The values chosen without ACK_FREQUENCY *)

(** The fields of path[0] and of the connection that are read by
    picoquic/frames.c 2719-2875. *)
Record pathv := mk_pathv {
  v_neg : bool;             (* is_ack_frequency_negotiated *)
  v_cwin : N; v_mtu : N; v_srtt : N; v_rttmin : N;
  v_ss : bool;              (* is_ssthresh_initialized *)
  v_few : bool;             (* multipath, or no congestion control, or NewReno or FAST *)
  v_rcvmax : N;             (* receive_rate_max *)
  v_bw : N                  (* bandwidth_estimate *)
}.

(** picoquic/frames.c 2719-2742, picoquic_compute_packets_in_window; [None]:
    division by zero. *)
Definition packets_in_window (v : pathv) (rate : N) : option N :=
  if v_mtu v =? 0 then None
  else
    let nb := if v_neg v then v_cwin v / v_mtu v
              else u64 (u64 (rate * v_srtt v) / v_mtu v + 999999) / 1000000 in
    Some (if nb <? 2 then 2 else nb).

(** picoquic/frames.c 2744-2790, picoquic_compute_ack_gap
    (PICOQUIC_BANDWIDTH_MEDIUM is 2000000 bytes per second and
    PICOQUIC_TARGET_RENO_RTT 100000 microseconds). *)
Definition compute_ack_gap (v : pathv) (rate nb0 : N) : N :=
  let nb1 := if v_neg v && negb (v_ss v) then nb0 / 2 else nb0 in
  let nb := if v_rttmin v <? 4 * ack_delay_min then
              u64 (nb1 * (if ack_delay_min <? v_rttmin v then 4 * ack_delay_min / v_rttmin v else 4))
            else nb1 in
  let gap := u64 (nb + 3) / 4 in
  let gmin := if 2000000 <? rate then (if 100000 <? v_rttmin v then 10 else 4) else 2 in
  if gap <? gmin then gmin
  else if 32 <? gap then
    (if v_few v then 32
     else let g := u64 (32 + u64 (nb + two64 - 128) / 8) in if 64 <? g then 64 else g)
  else gap.

(** picoquic/frames.c 2792-2810, picoquic_compute_ack_delay_max. *)
Definition compute_ack_delay_max (v : pathv) (rtt remote_min : N) : N :=
  let d := rtt / 4 in
  let d := if negb (v_neg v) && negb (v_ss v) then d / 2 else d in
  let d := if ack_delay_max <? d then ack_delay_max else d in
  if d <? remote_min then remote_min else d.

(** picoquic/frames.c 2812-2875, picoquic_compute_ack_gap_and_delay; [None]:
    division by zero.  The result is (gap, delay). *)
Definition compute_gap_and_delay (v : pathv) (rtt remote_min rate : N) : option (N * N) :=
  match packets_in_window v rate with
  | None => None
  | Some nb0 =>
    let delay := compute_ack_delay_max v rtt remote_min in
    let gap := compute_ack_gap v rate nb0 in
    let fix_up (gd : N * N) : N * N :=
      let '(g, d) := gd in ((if (v_rttmin v <? u64 (d * 4)) && (32 <? g) then 32 else g), d) in
    if u64 (3 * v_rttmin v) <? u64 (2 * v_srtt v) then
      let back := if v_neg v then v_rcvmax v else v_bw v in
      let nb1 := if nb0 <? 2 then 2 else nb0 in
      if 0 <? back then
        let at_ := 115000000 / back in
        let delay2 := if delay <? at_ then (if ack_delay_max <? at_ then ack_delay_max else at_) else delay in
        let target := u64 (v_srtt v + v_rttmin v) / 2 in
        let nb := if v_ss v then nb1 else nb1 / 2 in
        let per := if 0 <? gap then u64 (nb + gap - 1) / gap else nb in
        if target <? u64 (per * delay2) then
          if delay2 =? 0 then None
          else
            let most := v_srtt v / delay2 in
            if most <=? 1 then Some (fix_up (nb, delay2))
            else
              let least := u64 (nb + most - 1) / most in
              Some (fix_up ((if gap <? least then least else gap), delay2))
        else Some (fix_up (gap, delay2))
      else Some (fix_up (gap, delay))
    else Some (fix_up (gap, delay))
  end.

(** picoquic/packet.c 1973-1976, timing.c 284-290 and sender.c 2704-2710: the own values are
    computed again, unless ACK_FREQUENCY was negotiated. *)
Definition tune (s : dly) (v : pathv) : option dly :=
  if d_neg s then Some s
  else
    match compute_gap_and_delay v (v_rttmin v) ack_delay_min (v_rcvmax v) with
    | None => None
    | Some (g, d) =>
      Some (mk_dly (d_needed s) (d_fin s) (d_ooo s) (d_imm s) (d_oldest s) (d_high s) (d_high_time s) (d_stamp s)
         (d_sl s) (d_nb s) g d (d_ignore s) (d_seq s) (d_neg s) (d_min s) (d_exp s) (d_max s))
    end.
