(** Model of ACK frame construction and processing, picoquic/frames.c
    (definitions only). *)
From Verif Require Import Base Varint_model Sack_model.

(** picoquic/picoquic_internal.h 127-128 and 160-161, frame types. *)
Definition ft_ack : N := 2.
Definition ft_ack_ecn : N := 3.
Definition ft_path_ack : N := 354585600.       (* 0x15228c00 *)
Definition ft_path_ack_ecn : N := 354585601.   (* 0x15228c01 *)

(** ** Construction *)

(** picoquic/frames.c 3885-3911: the loop over the lower ranges, highest first.
    [desc] are the ranges below [lowest] in decreasing order; the result is the
    bytes written, the ranges after accounting (same order), the counters, the
    number of blocks and whether the room was exhausted.  The subtraction of the
    gap is on uint64_t. *)
Fixpoint format_ranges (r : bool) (desc : list sack_item) (c : counts) (room num_block : N)
    (nb_max : N) (skip : Z) (lowest : N) : list N * list sack_item * counts * N * bool :=
  match desc with
  | [] => ([], [], c, num_block, false)
  | it :: d' =>
    if num_block <? 32 then
      let nb := if r then nb1 it else nb0 it in
      if nb <=? nb_max then
        if (nb =? nb_max) && (0 <? skip)%Z then
          let '(b, d2, c2, n2, m) := format_ranges r d' c room num_block nb_max (skip - 1)%Z lowest in
          (b, it :: d2, c2, n2, m)
        else
          let ack_gap := u64 (lowest + two64 + two64 - se it - 2) in
          let ack_range := u64 (se it + two64 - ss it) in
          match (frames_varint_encode ack_gap >>> frames_varint_encode ack_range) room with
          | None => ([], desc, c, num_block, true)
          | Some x =>
            let '(b, d2, c2, n2, m) :=
              format_ranges r d' (count_sent r c it) (room - blen x) (num_block + 1) nb_max skip (ss it) in
            (x ++ b, item_sent r it :: d2, c2, n2, m)
          end
      else
        let '(b, d2, c2, n2, m) := format_ranges r d' c room num_block nb_max skip lowest in
        (b, it :: d2, c2, n2, m)
    else ([], desc, c, num_block, false)
  end.

(** picoquic/frames.c 3853-3862: the bytes before the number of blocks. *)
Definition ack_prefix (is_ecn : bool) (mp : option N) (largest ack_delay : N) : writer :=
  match mp with
  | None => frames_varint_encode (if is_ecn then ft_ack_ecn else ft_ack)
            >>> frames_varint_encode largest >>> frames_varint_encode ack_delay
  | Some p => frames_varint_encode (if is_ecn then ft_path_ack_ecn else ft_path_ack)
            >>> frames_varint_encode p
            >>> frames_varint_encode largest >>> frames_varint_encode ack_delay
  end.

(** picoquic/frames.c 3815-3956, picoquic_format_ack_frame_in_context, without
    the optional time stamp frame and the bookkeeping of ack times.  [r] is
    is_opportunistic, [ack_needed] is act[r].ack_needed, [ecn] the three ECN
    totals when sending_ecn_ack is set, [mp] the path id in multipath mode and
    [ack_delay] the scaled delay.  Returns the bytes written (empty when
    nothing is written), the new list, and more_data. *)
Definition format_ack_frame (s : sack_list) (r ack_needed : bool) (ecn : option (N * N * N))
    (mp : option N) (ack_delay room : N) : list N * sack_list * bool :=
  match rev (sl_items s) with
  | [] => ([], s, false)
  | last :: desc =>
    if negb ack_needed && (length (sl_items s) =? 1)%nat
       && (max_ack_range_repeat <=? (if r then nb1 last else nb0 last))
    then ([], s, false)
    else
      let is_ecn := match ecn with Some _ => true | None => false end in
      match ack_prefix is_ecn mp (se last) ack_delay room with
      | None => ([], s, true)
      | Some pre =>
        (* one byte is reserved for the number of blocks without test; when there is no
           room for it the next encoding fails, frames.c 3859-3862 *)
        let room1 := room - blen pre in
        match (if room1 <? 1 then None
               else frames_varint_encode (u64 (se last + two64 - ss last)) (room1 - 1)) with
        | None => ([], s, true)
        | Some fr =>
          let c1 := count_sent r (sl_rc s) last in
          let last1 := item_sent r last in
          let '(nb_max, skip) :=
            select_ack_ranges (if r then rc1 c1 else rc0 c1) (if r then nb1 last1 else nb0 last1) 32 in
          let '(body, desc2, c2, num_block, more) :=
            format_ranges r desc c1 (room1 - 1 - blen fr) 0 nb_max skip (ss last) in
          let bytes := pre ++ [u8 num_block] ++ fr ++ body in
          let s2 := mk_sl (rev (last1 :: desc2)) (sl_horizon s) (sl_delay s) c2 in
          match ecn with
          | None => (bytes, s2, more)
          | Some (e0, e1, ce) =>
            match (frames_varint_encode e0 >>> frames_varint_encode e1 >>> frames_varint_encode ce)
                    (room - blen bytes) with
            | Some e => (bytes ++ e, s2, more)
            | None => (ft_ack :: tl bytes, s2, true)
            end
          end
        end
      end
  end.

(** ** Parsing *)

(** picoquic/frames.c 2456-2499, picoquic_parse_ack_header, first called on the
    type varint (2462: skipped by the length of its first byte).  The result
    is (path_id, largest, ack_delay, num_block) and the remaining bytes; the
    delay is shifted by the exponent on uint64_t.  An absent path id reads as 0. *)
Definition parse_ack_header (has_path_id : bool) (exponent : N) : reader (N * N * N * N) := fun l =>
  match l with
  | [] => None
  | b :: _ =>
    let skip := decode_varint_length b in
    if blen l <? skip then None
    else
      let l0 := skipn (N.to_nat skip) l in
      let vd := fun l => match varint_decode l with
                         | Ok (0, _) => None
                         | Ok (n, v) => Some (v, skipn (N.to_nat n) l)
                         | _ => None end in
      match (if has_path_id then vd l0 else Some (0, l0)) with
      | None => None
      | Some (path_id, l1) =>
        match vd l1 with
        | None => None
        | Some (largest, l2) =>
          match vd l2 with
          | None => None
          | Some (delay, l3) =>
            match vd l3 with
            | None => None
            | Some (nb, l4) => Some ((path_id, largest, u64 (N.shiftl delay exponent), nb), l4)
            end
          end
        end
      end
  end.

(** Outcome of the range loop: the ranges in frame order (low, high) and the
    remaining bytes, a frame error, or fuel exhaustion (never reached, see
    Ack_proofs.v). *)
Inductive ranges_result :=
| RangesOk (ranges : list (N * N)) (rest : list N)
| RangesErr (ranges : list (N * N))
| RangesFuel.

(** picoquic/frames.c 3730-3783 (the same walk is at 3006-3070): the do-while loop
    that reads the ranges.  [ranges] in an error result are those already
    handed to the processing functions. *)
Fixpoint read_ranges (fuel : nat) (largest num_block : N) (l : list N) : ranges_result :=
  match fuel with
  | O => RangesFuel
  | S f =>
    match frames_varint_decode l with
    | None => RangesErr []
    | Some (range0, l1) =>
      let range := u64 (range0 + 1) in
      if u64 (largest + 1) <? range then RangesErr []
      else
        let this := (largest + 1 - range, largest) in
        if num_block =? 0 then RangesOk [this] l1
        else
          match frames_varint_decode l1 with
          | None => RangesErr [this]
          | Some (gap, l2) =>
            let block_to_block := u64 (u64 (gap + 1) + range) in
            if largest <? block_to_block then RangesErr [this]
            else
              match read_ranges f (largest - block_to_block) (num_block - 1) l2 with
              | RangesOk rs rest => RangesOk (this :: rs) rest
              | RangesErr rs => RangesErr (this :: rs)
              | RangesFuel => RangesFuel
              end
          end
    end
  end.

(** picoquic/frames.c 3786-3790: the three ECN counters. *)
Definition read_ecn (is_ecn : bool) (l : list N) : option (list N) :=
  if is_ecn then sbind frames_varint_skip (sbind frames_varint_skip frames_varint_skip) l
  else Some l.

(** ** Processing of a received ACK *)

(** A packet waiting for acknowledgement: its number and whether it is a hole
    inserted as a trap (picoquic/picoquic_internal.h 386-430, fields
    sequence_number and is_ack_trap; picoquic/sender.c 1083-1092). *)
Record sent_packet := mk_sent { p_seq : N; p_trap : bool }.

(** picoquic/frames.c 2976-2995, picoquic_find_acked_packet.  The queue is in
    sending order; the result is the packet pointed to followed by the older
    packets (nearest first), the newer packets in order, and is_new_ack. *)
Fixpoint advance (older newer : list sent_packet) (largest : N) : list sent_packet * list sent_packet :=
  match older, newer with
  | p :: _, n :: newer' =>
    if p_seq p <? largest then advance (n :: older) newer' largest else (older, newer)
  | _, _ => (older, newer)
  end.

(** picoquic/frames.c 2976-2995. *)
Definition find_acked_packet (queue : list sent_packet) (highest_acknowledged largest : N)
  : list sent_packet * list sent_packet * bool :=
  match queue with
  | [] => ([], [], (highest_acknowledged <? largest) || (highest_acknowledged =? max64))
  | first :: rest =>
    if (highest_acknowledged <? largest) || (highest_acknowledged =? max64)
    then let '(o, n) := advance [first] rest largest in (o, n, true)
    else ([first], rest, false)
  end.

(** Result of processing one range: packets passed over (newest first), the
    packets still to examine, the packets acknowledged, and whether a trap was
    acknowledged. *)
Record range_result := mk_rr {
  rr_passed : list sent_packet; rr_left : list sent_packet;
  rr_acked : list N; rr_error : bool }.

(** picoquic/frames.c 3593-3659, picoquic_process_ack_range.  The C loop
    decrements [highest] and [range] one by one while the packet number is
    below [highest]; here this is done in one subtraction. *)
Fixpoint process_ack_range (ds : list sent_packet) (highest range : N) : range_result :=
  match ds with
  | [] => mk_rr [] [] [] false
  | p :: older =>
    if range =? 0 then mk_rr [] ds [] false
    else if highest <? p_seq p then
      let r := process_ack_range older highest range in
      mk_rr (p :: rr_passed r) (rr_left r) (rr_acked r) (rr_error r)
    else
      let d := highest - p_seq p in
      if range <=? d then mk_rr [] ds [] false
      else if p_trap p then mk_rr [] ds [] true
      else
        let r := process_ack_range older (p_seq p - 1) (range - d - 1) in
        mk_rr (rr_passed r) (rr_left r) (p_seq p :: rr_acked r) (rr_error r)
  end.

(** picoquic/frames.c 3730-3783: all the ranges of a frame, in order.  [passed]
    accumulates the packets passed over, oldest first. *)
Fixpoint process_ranges (ds passed : list sent_packet) (rs : list (N * N))
  : list sent_packet * list N * bool :=
  match rs with
  | [] => (rev ds ++ passed, [], false)
  | (low, high) :: rs' =>
    let r := process_ack_range ds high (high + 1 - low) in
    let passed' := rev (rr_passed r) ++ passed in
    if rr_error r then (rev (rr_left r) ++ passed', rr_acked r, true)
    else
      let '(q, acked, err) := process_ranges (rr_left r) passed' rs' in
      (q, rr_acked r ++ acked, err)
  end.

(** Outcome of an ACK frame: new queue, numbers released and remaining bytes
    ([None]: connection error). *)
Record ack_outcome := mk_ao { ao_queue : list sent_packet; ao_acked : list N; ao_rest : option (list N) }.

(** picoquic/frames.c 3661-3812, picoquic_decode_ack_frame in single path mode;
    RTT, congestion control and spurious loss detection are not modelled. *)
Definition decode_ack_frame (queue : list sent_packet) (highest_acknowledged send_sequence : N)
    (is_ecn : bool) (exponent : N) (l : list N) : ack_outcome :=
  match parse_ack_header false exponent l with
  | None => mk_ao queue [] None
  | Some ((_, largest, _, num_block), l1) =>
    if send_sequence <=? largest then mk_ao queue [] None
    else
      let '(ds, newer, _) := find_acked_packet queue highest_acknowledged largest in
      match read_ranges (S (length l1)) largest num_block l1 with
      | RangesFuel => mk_ao queue [] None
      | RangesErr rs =>
        let '(q, acked, _) := process_ranges ds newer rs in mk_ao q acked None
      | RangesOk rs rest =>
        let '(q, acked, err) := process_ranges ds newer rs in
        mk_ao q acked (if err then None else read_ecn is_ecn rest)
      end
  end.
