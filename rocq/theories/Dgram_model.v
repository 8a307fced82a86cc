(** Model of the sending of datagrams: picoquic/frames.c 4547-4563, 5003-5203, picoquic/quicctx.c
    4504-4550 and picoquic/sender.c 98-112, 2724-2747 (definitions only). *)
From Verif Require Import Base Varint_model.

(** A write of the bytes [b] at the offset [off] of the memory [m]; [None]: a write outside of it
    (undefined behaviour).  Stands for the stores, memset and memcpy of picoquic/frames.c 5003-5130. *)
Definition put (off : N) (b m : list N) : option (list N) :=
  if off + blen b <=? blen m then
    Some (firstn (N.to_nat off) m ++ b ++ skipn (N.to_nat (off + blen b)) m)
  else None.

(** picoquic/frames.c 5074-5085, picoquic_datagram_buffer_argument_t, and the two flags
    is_datagram_ready (picoquic/picoquic_internal.h 1132 and 1326, one bit each).  [pv_mem]: the bytes
    from bytes0 to bytes_max; [pv_after]: after_data - bytes0.  is_old_api is never set
    (picoquic/frames.c 5177) and left out. *)
Record prov := mk_prov { pv_mem : list N; pv_after : N; pv_active : bool; pv_called : bool; pv_cnx : bool; pv_path : bool }.

(** picoquic/frames.c 5114-5126: the frame without a length, after padding; the second part of the
    result is the offset of the buffer. *)
Definition provide_long (len : N) (m : list N) : option (list N * N) :=
  match put 0 [48] m with
  | None => None
  | Some m1 =>
    let tail := 1 + len in
    if tail <? blen m then
      let delta := blen m - tail in
      match put 0 (repeat 0 (N.to_nat delta)) m1 with
      | None => None
      | Some m2 =>
        match put delta [48] m2 with
        | None => None
        | Some m3 => Some (m3, delta + 1)
        end
      end
    else Some (m1, 1)
  end.

(** picoquic/frames.c 5087-5135, picoquic_provide_datagram_buffer_ex: [allowed] is allowed_space, [act]
    the activity (0 to 3, picoquic/picoquic.h 1462-1467).  The second part of the result is the offset
    of the buffer, or [None] for NULL. *)
Definition provide (allowed len act : N) (p : prov) : option (prov * option N) :=
  let done m after :=
    mk_prov m after (N.testbit act 0) true (N.testbit act 0) (N.testbit act 1) in
  if (0 <? len) && (len <=? allowed) then
    let long m :=
      match provide_long len m with
      | None => None
      | Some (m', buffer) => Some (done m' (buffer + len), Some buffer)
      end in
    match frames_varint_encode len (blen (pv_mem p) - 1) with
    | None => long (pv_mem p)
    | Some v =>
      match put 1 v (pv_mem p) with
      | None => None
      | Some m =>
        let after_length := 1 + blen v in
        if blen m <? after_length + len then long m
        else Some (done m (after_length + len), Some after_length)
      end
    end
  else Some (done (pv_mem p) (pv_after p), None).

(** What the application does in one callback picoquic_callback_prepare_datagram (picoquic/picoquic.h
    1400-1460): the datagrams it asks a buffer for, with the activity it declares, and the code it
    returns.  Simplified: the application writes all of the bytes it asked for, and these only; it does
    not call picoquic_mark_datagram_ready from the callback. *)
Record answer := mk_answer { an_calls : list (list N * N); an_error : bool }.

(** picoquic/frames.c 5180, the calls of the application. *)
Fixpoint calls (allowed : N) (l : list (list N * N)) (p : prov) : option prov :=
  match l with
  | [] => Some p
  | (data, act) :: l' =>
    match provide allowed (blen data) act p with
    | None => None
    | Some (p1, None) => calls allowed l' p1
    | Some (p1, Some off) =>
      match put off data (pv_mem p1) with
      | None => None
      | Some m => calls allowed l' (mk_prov m (pv_after p1) (pv_active p1) (pv_called p1) (pv_cnx p1) (pv_path p1))
      end
    end
  end.

(** The flags: is_datagram_ready of the connection and of the path, more_data, is_pure_ack, and whether
    the connection is in error (picoquic/sender.c 2725-2747). *)
Record ready := mk_ready { r_cnx : bool; r_path : bool; r_more : bool; r_pure : bool; r_error : bool }.

(** picoquic/frames.c 5150-5203, picoquic_format_ready_datagram_frame in the memory [m] (from bytes to
    bytes_max), for a peer whose max_datagram_frame_size is [limit]: the memory, the number of bytes
    taken and the flags. *)
Definition format_ready (limit : N) (an : answer) (m : list N) (r : ready) : option (list N * N * ready) :=
  let full m' := Some (m', 0, mk_ready (r_cnx r) (r_path r) true (r_pure r) (r_error r)) in
  if blen m <? 1 then full m
  else
    match put 0 [49] m with
    | None => None
    | Some m1 =>
      if blen m <? 17 then full m1
      else
        let allowed := if limit <? blen m - 1 then limit else blen m - 1 in
        match calls allowed (an_calls an) (mk_prov m1 0 false false (r_cnx r) (r_path r)) with
        | None => None
        | Some p =>
          if an_error an then Some (pv_mem p, 0, mk_ready (pv_cnx p) (pv_path p) (r_more r) (r_pure r) true)
          else
            Some (pv_mem p, pv_after p,
              mk_ready (pv_cnx p) (pv_path p)
                (r_more r || (if pv_called p then pv_active p else pv_cnx p))
                (if 0 <? pv_after p then false else r_pure r) (r_error r))
        end
    end.

(** Outcomes of the loop: a write outside of the packet, too many turns (excluded by theorem C67_loop),
    or the bytes added to the packet and the flags (picoquic/sender.c 2735-2742). *)
Inductive loop_end := LUB | LFuel | LDone (bytes : list N) (r : ready).

(** picoquic/sender.c 2735-2742: the application is asked again as long as it is ready; [app k] is its
    answer to the k-th callback. *)
Fixpoint ready_loop (fuel : nat) (limit : N) (app : nat -> answer) (k : nat) (m : list N) (r : ready) : loop_end :=
  match fuel with
  | O => LFuel
  | S f =>
    if r_cnx r || r_path r then
      match format_ready limit (app k) m r with
      | None => LUB
      | Some (m', after, r') =>
        if after =? 0 then LDone [] r'
        else
          match ready_loop f limit app (S k) (skipn (N.to_nat after) m') r' with
          | LDone bytes r'' => LDone (firstn (N.to_nat after) m' ++ bytes) r''
          | e => e
          end
      end
    else LDone [] r
  end.

(** picoquic/frames.c 5022-5044, picoquic_queue_datagram_frame, and picoquic/quicctx.c 4525-4550: the
    queue is the list of the frames, first to last; [None]: PICOQUIC_ERROR_DATAGRAM_TOO_LONG or
    PICOQUIC_ERROR_FRAME_BUFFER_TOO_SMALL.  Memory is assumed available. *)
Definition queue_datagram (data : list N) (q : list (list N)) : option (list (list N)) :=
  if 1200 <? blen data then None
  else
    match frames_varint_encode (blen data) 1535 with
    | None => None
    | Some v =>
      if 1536 <? 1 + blen v + blen data then None
      else Some (q ++ [49 :: v ++ data])
    end.

(** picoquic/sender.c 2730-2733 with picoquic/frames.c 5046-5058 and 4547-4563: one packet of a queue
    that is not empty, with [room] bytes: the bytes added, the queue and more_data. *)
Definition send_queued (room : N) (q : list (list N)) (more : bool) : list N * list (list N) * bool :=
  match q with
  | [] => ([], [], more)
  | f :: q' =>
    if room <? blen f then ([], q, true)
    else (f, q', more || negb (match q' with [] => true | _ => false end))
  end.
(** Packets in a row, with the room of each (picoquic/sender.c 2724-2747). *)
Fixpoint send_all (rooms : list N) (q : list (list N)) : list (list N) * list (list N) :=
  match rooms with
  | [] => ([], q)
  | room :: rooms' =>
    match send_queued room q false with
    | (b, q', _) => match send_all rooms' q' with (bs, q'') => (b :: bs, q'') end
    end
  end.
