(** Repetition of the STREAM frames of lost packets: picoquic/frames.c 1941-2245.

    The payload of a lost packet is kept in clear; [lp_bytes] is the part of
    packet->bytes between packet->offset and packet->length, so that positions
    count from packet->offset.  The splay tree of lost packets is the list of its
    packets in tree order.  Where a packet lands when it is inserted depends on
    keys that change while packets are in the tree (comment at frames.c
    1893-1895); the position is therefore a parameter ([pos]) of the model, and
    theorems hold for all positions. *)
From Verif Require Import Base Varint_model Sack_model Frames_model Send_model.

(** A lost packet waiting for repetition: picoquic/picoquic_internal.h 386-430,
    picoquic_packet_t, fields bytes, data_repeat_frame, data_repeat_index and
    data_repeat_priority. *)
Record lost := mk_lost { lp_bytes : list N; lp_frame : N; lp_index : N; lp_prio : N }.

(** What the repetition consults of a stream: picoquic/picoquic_internal.h
    803-849, stream_id, reset_sent, sack_list and stream_priority. *)
Record rstream := mk_rs { rs_id : N; rs_reset_sent : bool; rs_sack : sack_list; rs_prio : N }.

(** picoquic/quicctx.c 3425, picoquic_find_stream. *)
Definition rs_find (streams : list rstream) (id : N) : option rstream :=
  find (fun s => rs_id s =? id) streams.

(** picoquic/frames.c 2070-2078: are the bytes [off, off + avail), and the FIN
    counted as one more byte, still needed? *)
Definition repeat_needed (streams : list rstream) (id off avail : N) (fin : bool) : bool :=
  match rs_find streams id with
  | None => false
  | Some s =>
    negb (rs_reset_sent s) &&
    negb (check_sack_list (rs_sack s) off (sub64 (off + avail) (if fin then 0 else 1)))
  end.

(** picoquic/frames.c 2079-2128: what is written in [room] bytes for the data [d]
    at [off], with the log of the frame, and the number of bytes not sent. *)
Definition repeat_write (id off : N) (fin : bool) (d : list N) (room : N) : list N * list item * N :=
  let nothing := ([], [], blen d) in
  match stream_frame_header id off room with
  | None => nothing
  | Some hdr =>
    if blen hdr =? room then nothing
    else
      let space := room - blen hdr in
      let whole := [IStream id off fin d] in
      let with_fin := if fin then set_flag hdr 1 else hdr in
      let no_length :=
        if blen d <=? space then (repeat 0 (N.to_nat (space - blen d)) ++ with_fin ++ d, whole, 0)
        else if space <? 512 then nothing
        else (hdr ++ firstn (N.to_nat space) d,
              [IStream id off false (firstn (N.to_nat space) d)], blen d - space) in
      match frames_varint_encode (blen d) space with
      | Some v => if blen v + blen d <=? space then (set_flag with_fin 2 ++ v ++ d, whole, 0) else no_length
      | None => no_length
      end
  end.

(** Result of a copy: [CNull] is the NULL pointer (malformed frame), [CUb] a read
    after the end of the packet. *)
Inductive copied :=
| CNull
| CUb
| COk (bytes : list N) (items : list item) (p : lost).

(** picoquic/frames.c 2024-2141, picoquic_copy_stream_frame_for_retransmit with a
    non-null connection.  [parse_stream] models picoquic_parse_stream_header and
    the extraction of the data; [consumed] is the length of the header. *)
Definition copy_frame (streams : list rstream) (p : lost) (room : N) : copied :=
  match skipn (N.to_nat (lp_frame p)) (lp_bytes p) with
  | [] => CUb
  | b0 :: l =>
    match parse_stream b0 l with
    | None => CNull
    | Some ((id, off0, fin, data), rest) =>
      let consumed := 1 + (blen l - blen rest - blen data) in
      let start := lp_frame p + consumed in
      let sent := if start <? lp_index p
                  then (if lp_index p - start <=? blen data then lp_index p - start else blen data)
                  else 0 in
      let off := off0 + sent in
      let d := skipn (N.to_nat sent) data in
      let '(bytes, items, not_sent) :=
        if repeat_needed streams id off (blen d) fin then repeat_write id off fin d room
        else ([], [], 0) in
      let p' :=
        if not_sent =? 0 then mk_lost (lp_bytes p) (start + blen data) (start + blen data) (lp_prio p)
        else if not_sent <? blen data then
          mk_lost (lp_bytes p) (lp_frame p) (start + blen data - not_sent) (lp_prio p)
        else p in
      COk bytes items p'
    end
  end.

(** picoquic/frames.c 1947-1996, picoquic_queue_data_repeat_adjust: advance to the
    next STREAM frame.  The boolean is ret == 0; [None]: fuel exhausted, or
    undefined behaviour in the skipping of a frame (both excluded by theorem).
    Of the fields of the sorting key only the priority is kept. *)
Fixpoint adjust (fuel : nat) (streams : list rstream) (p : lost) : option (lost * bool) :=
  match skipn (N.to_nat (lp_frame p)) (lp_bytes p) with
  | [] => Some (p, true)
  | b0 :: l =>
    if is_stream_type b0 then
      match parse_stream b0 l with
      | Some ((id, _, _, _), _) =>
        let prio := match rs_find streams id with Some s => rs_prio s | None => 0 end in
        Some (mk_lost (lp_bytes p) (lp_frame p) (lp_index p) prio, true)
      | None => Some (mk_lost (lp_bytes p) (lp_frame p) (lp_index p) 0, false)
      end
    else
      match fst (skip_frame (b0 :: l)) with
      | Ok rest =>
        match fuel with
        | O => None
        | S f =>
          let next := lp_frame p + (blen (b0 :: l) - blen rest) in
          adjust f streams (mk_lost (lp_bytes p) next next (lp_prio p))
        end
      | UB => None
      | Fail => Some (p, false)
      end
  end.

(** [adjust] with enough fuel. *)
Definition adjust_all (streams : list rstream) (p : lost) : option (lost * bool) :=
  adjust (length (lp_bytes p)) streams p.

(** Insertion in the tree, at some position. *)
Definition insert_at (pos : nat) (p : lost) (q : list lost) : list lost :=
  firstn pos q ++ p :: skipn pos q.

(** picoquic/frames.c 1998-2013, picoquic_queue_data_repeat_packet, for a packet
    that is not queued yet. *)
Definition queue_lost (streams : list rstream) (payload : list N) (pos : nat) (q : list lost) : option (list lost) :=
  match adjust_all streams (mk_lost payload 0 0 0) with
  | None => None
  | Some (p, ok) => Some (if ok && (lp_frame p <? blen payload) then insert_at pos p q else q)
  end.

(** Result of one turn: NULL, or bytes; the packet after the turn; whether it was
    removed from the tree; the flag of undefined behaviour is [None] outside. *)
Record single := mk_single { sg_bytes : option (list N); sg_items : list item; sg_lost : lost; sg_gone : bool;
                             sg_moved : bool }.

(** picoquic/frames.c 2157-2204, picoquic_copy_single_stream_frame_for_retransmit;
    [sg_moved] is true when the packet is deleted from the tree and inserted
    again (2188-2199). *)
Definition copy_single (streams : list rstream) (p : lost) (room : N) : option single :=
  let len := blen (lp_bytes p) in
  let first :=
    if lp_frame p <? len then
      match skipn (N.to_nat (lp_frame p)) (lp_bytes p) with
      | b0 :: _ => if is_stream_type b0 then copy_frame streams p room else COk [] [] p
      | [] => CUb
      end
    else COk [] [] p in
  match first with
  | CUb => None
  | _ =>
    let '(bytes, items, p1) := match first with COk b i p1 => (Some b, i, p1) | _ => (None, [], p) end in
    match (if lp_frame p1 <? len then adjust_all streams p1 else Some (p1, true)) with
    | None => None
    | Some (p2, ok) =>
      Some (mk_single (if ok then bytes else None) items p2 (len <=? lp_frame p2)
              ((lp_frame p2 <? len) && (lp_frame p <? lp_frame p2)))
    end
  end.

(** picoquic/frames.c 2206-2245, picoquic_copy_stream_frames_for_retransmit: the
    bytes, the log, the new queue, and false when the internal error of
    2231-2235 is raised (then the bytes written so far are abandoned).  The loop
    goes on only while packets leave the queue, so at most one packet is
    inserted again, at [pos]. *)
Fixpoint copy_loop (streams : list rstream) (q : list lost) (room prio : N) (pos : nat)
    (bytes : list N) (items : list item) : option (list N * list item * list lost * bool) :=
  match q with
  | [] => Some (bytes, items, [], true)
  | p :: q' =>
    if prio <? lp_prio p then Some (bytes, items, q, true)
    else
      match copy_single streams p room with
      | None => None
      | Some s =>
        let q'' := if sg_gone s then q' else if sg_moved s then insert_at pos (sg_lost s) q' else sg_lost s :: q' in
        match sg_bytes s with
        | None => Some ([], [], q'', false)
        | Some b =>
          let room' := room - blen b in
          if sg_gone s && (0 <? room') then copy_loop streams q' room' prio pos (bytes ++ b) (items ++ sg_items s)
          else Some (bytes ++ b, items ++ sg_items s, q'', true)
        end
      end
  end.

(** The call at picoquic/sender.c 2854. *)
Definition copy_frames (streams : list rstream) (q : list lost) (room : N) (pos : nat)
    : option (list N * list item * list lost * bool) :=
  copy_loop streams q room max64 pos [] [].
