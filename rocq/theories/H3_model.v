(** Model of the HTTP/3 frame parser of the data streams, picohttp/h3zero_common.c and
    h3zero.c (definitions only).  Buffers are lists of bytes; memory allocations succeed;
    an access outside of a buffer is [Undef]. *)
From Verif Require Import Base Mem Qpack_model.

(** Sequence of two steps; undefined behaviour and lack of steps propagate. *)
Definition bind {A B} (x : outcome A) (f : A -> outcome B) : outcome B :=
  match x with Undef => Undef | NoFuel => NoFuel | Ret a => f a end.

Notation "'let!' x := a 'in' b" := (bind a (fun x => b)) (at level 200, x pattern, right associativity).

(** An access to memory: out of bounds is undefined. *)
Definition mem {A} (x : option A) : outcome A := match x with None => Undef | Some a => Ret a end.

(** picohttp/h3zero.h 28-46, the error codes in use. *)
(** h3zero.h:29 *) Definition err_general : N := 257.
(** h3zero.h:30 *) Definition err_internal : N := 258.
(** h3zero.h:33 *) Definition err_unexpected : N := 261.
(** h3zero.h:34 *) Definition err_frame : N := 262.
(** h3zero.h:37 *) Definition err_settings : N := 265.
(** h3zero.h:38 *) Definition err_missing : N := 266.

(** picohttp/h3zero.h 56-67, h3zero_frame_type_enum_t. *)
(** h3zero.h:57 *) Definition frame_data : N := 0.
(** h3zero.h:58 *) Definition frame_header : N := 1.
(** h3zero.h:59 *) Definition frame_cancel_push : N := 3.
(** h3zero.h:60 *) Definition frame_settings : N := 4.
(** h3zero.h:61 *) Definition frame_push_promise : N := 5.
(** h3zero.h:62 *) Definition frame_goaway : N := 7.
(** h3zero.h:63 *) Definition frame_max_push_id : N := 13.
(** h3zero.h:66 *) Definition frame_webtransport : N := 65.

(** picohttp/h3zero.c 52-55, h3zero_varint_skip, on the first byte. *)
Definition varint_skip (b : N) : N := N.shiftl 1 (N.shiftr (N.land b 192) 6).

(** picohttp/h3zero.c 68-71, the loop over the bytes after the first. *)
Fixpoint varint_tail (n : nat) (l : list N) (v : N) : outcome N :=
  match n with
  | O => Ret v
  | S m =>
    match l with
    | [] => Undef
    | b :: r => varint_tail m r (u64 (u64 (N.shiftl v 8) + b))
    end
  end.

(** picohttp/h3zero.c 57-77, h3zero_varint_decode: the value left in [*n64]; [l] is the
    memory from [bytes] on.  The callers do not use the length returned. *)
Definition varint_decode (l : list N) (max_bytes : N) : outcome N :=
  match l with
  | [] => Undef
  | b :: r =>
    if max_bytes <? varint_skip b then Ret 0
    else varint_tail (N.to_nat (varint_skip b) - 1) r (N.land b 63)
  end.

(** picohttp/h3zero.h 260-283, h3zero_data_stream_state_t: the members in use by the
    parser of data streams.  [current_frame] is NULL or the memory allocated. *)
Record dstate := mk_d {
  d_header : parts;
  d_trailer : parts;
  d_frame : option (list N);
  d_type : N;
  d_length : N;
  d_read : N;
  d_control : N;
  d_hdr : list N;
  d_hread : N;
  d_web : bool;
  d_parsed : bool;
  d_hfound : bool;
  d_dfound : bool;
  d_tfound : bool
}.

(** sizeof(frame_header), picohttp/h3zero.h 270. *)
Definition hdr_size : N := 16.

(** picohttp/h3zero_common.c 140-147, the state of a new stream: zeros, except for the
    control stream. *)
Definition dstate0 : dstate :=
  mk_d no_parts no_parts None 0 0 0 max64 (mem_fill 0 hdr_size) 0 false false false false false.

(** picohttp/h3zero_common.c 639, 644, 658 and 668: [frame_header] and
    [frame_header_read] after some bytes were added. *)
Definition set_hdr (s : dstate) (h : list N) (n : N) : dstate :=
  mk_d (d_header s) (d_trailer s) (d_frame s) (d_type s) (d_length s) (d_read s) (d_control s)
    h n (d_web s) (d_parsed s) (d_hfound s) (d_dfound s) (d_tfound s).

(** picohttp/h3zero_common.c 652-653: the type of the current frame. *)
Definition set_type (s : dstate) (t : N) : dstate :=
  mk_d (d_header s) (d_trailer s) (d_frame s) t (d_length s) (d_read s) (d_control s)
    (d_hdr s) (d_hread s) (d_web s) (d_parsed s) (d_hfound s) (d_dfound s) (d_tfound s).

(** picohttp/h3zero_common.c 672-675: length of the frame, nothing read, header parsed. *)
Definition set_length (s : dstate) (n : N) : dstate :=
  mk_d (d_header s) (d_trailer s) (d_frame s) (d_type s) n 0 (d_control s)
    (d_hdr s) (d_hread s) (d_web s) true (d_hfound s) (d_dfound s) (d_tfound s).

(** picohttp/h3zero_common.c 702-706: a web transport stream. *)
Definition set_web (s : dstate) : dstate :=
  mk_d (d_header s) (d_trailer s) (d_frame s) (d_type s) 0 (d_read s) (d_length s)
    (d_hdr s) (d_hread s) true true true (d_dfound s) (d_tfound s).

(** picohttp/h3zero_common.c 749-750, 781 and 790: bytes of the current frame were read. *)
Definition set_read (s : dstate) (f : option (list N)) (n : N) : dstate :=
  mk_d (d_header s) (d_trailer s) f (d_type s) (d_length s) n (d_control s)
    (d_hdr s) (d_hread s) (d_web s) (d_parsed s) (d_hfound s) (d_dfound s) (d_tfound s).

(** picohttp/h3zero_common.c 755-757 and 770-773: a header or a trailer was read, and
    its frame released. *)
Definition set_parts (s : dstate) (p : parts) : dstate :=
  mk_d (if d_hfound s then d_header s else p) (if d_hfound s then p else d_trailer s) None
    (d_type s) (d_length s) (d_read s) (d_control s)
    (d_hdr s) 0 (d_web s) false true (d_dfound s) (d_hfound s).

(** picohttp/h3zero_common.c 783-785 and 793-794: the frame is complete; [data]: it is a
    data frame. *)
Definition set_done (s : dstate) (data : bool) : dstate :=
  mk_d (d_header s) (d_trailer s) (d_frame s) (d_type s) (d_length s) (d_read s) (d_control s)
    (d_hdr s) 0 (d_web s) false (d_hfound s) (d_dfound s || data) (d_tfound s).

(** What a call returns: the pointer ([None]: NULL), the state, [*available_data] and
    [*error_found]. *)
Record dres := mk_r { r_rest : option (list N); r_state : dstate; r_avail : N; r_error : N }.

(** picohttp/h3zero_common.c 643-645, 657-659 and 667-669: bytes are moved to
    [frame_header] until there are [target]. *)
Fixpoint fill (target : N) (l h : list N) (n : N) : outcome (list N * list N * N) :=
  match l with
  | [] => Ret ([], h, n)
  | b :: r =>
    if n <? target then
      let! h' := mem (mem_write n [b] h) in
      fill target r h' (n + 1)
    else Ret (l, h, n)
  end.

(** picohttp/h3zero_common.c 671-719: the frame header is complete. *)
Definition check_frame (l : list N) (s : dstate) : dres :=
  if d_type s =? frame_data then
    if negb (d_hfound s) || d_tfound s || d_web s then mk_r None s 0 err_unexpected
    else mk_r (Some l) s 0 0
  else if d_type s =? frame_header then
    if d_hfound s && (negb (d_dfound s) || d_tfound s || d_web s) then mk_r None s 0 err_unexpected
    else if 65536 <? d_length s then mk_r None s 0 err_internal
    else mk_r (Some l) s 0 0
  else if d_type s =? frame_webtransport then
    if d_hfound s then mk_r None s 0 err_unexpected
    else mk_r (Some l) (set_web s) 0 0
  else if (d_type s =? frame_cancel_push) || (d_type s =? frame_goaway) || (d_type s =? frame_max_push_id)
  then mk_r None s 0 err_general
  else if d_type s =? frame_settings then mk_r None s 0 err_unexpected
  else mk_r (Some l) s 0 0.

(** picohttp/h3zero_common.c 633-722: the frame header is not complete yet; [l] has a
    byte at least.  The byte that gives the length of the second number is read even if
    it was not received (line 661): it is then a byte of an earlier header, or zero. *)
Definition read_frame_header (l : list N) (s : dstate) : outcome dres :=
  let! (l, h, n) :=
    (if d_hread s <? 1 then
       match l with
       | [] => Undef
       | b :: r => let! h' := mem (mem_write (d_hread s) [b] (d_hdr s)) in Ret (r, h', d_hread s + 1)
       end
     else Ret (l, d_hdr s, d_hread s)) in
  let! b0 := mem (mem_get 0 h) in
  let type_length := varint_skip b0 in
  let! (l, h, n) := fill type_length l h n in
  if n <? type_length then Ret (mk_r (Some l) (set_hdr s h n) 0 0)
  else
    let! ty := varint_decode h type_length in
    let! (l, h, n) := fill (type_length + 1) l h n in
    let! b1 := mem (mem_get type_length h) in
    let header_length := varint_skip b1 + type_length in
    if hdr_size <? header_length
    then Ret (mk_r None (set_type (set_hdr s h n) ty) 0 err_internal)
    else
      let! (l, h, n) := fill header_length l h n in
      let s := set_type (set_hdr s h n) ty in
      if header_length <=? n then
        let! len := varint_decode (skipn (N.to_nat type_length) h) (header_length - type_length) in
        Ret (check_frame l (set_length s len))
      else Ret (mk_r (Some l) s 0 0).

(** picohttp/h3zero_common.c 734-778: some bytes of a header frame. *)
Definition read_header (l : list N) (s : dstate) (available : N) : outcome dres :=
  match (match d_frame s with
         | Some f => Some f
         | None => if d_length s <=? 65536 then Some (mem_fill 0 (d_length s)) else None
         end) with
  | None => Ret (mk_r None s 0 err_internal)
  | Some f =>
    let! f := mem (mem_write (d_read s) (firstn (N.to_nat available) l) f) in
    let s := set_read s (Some f) (d_read s + available) in
    let l := skipn (N.to_nat available) l in
    if d_length s <=? d_read s then
      let! (ok, p) := parse_header_frame (firstn (N.to_nat (d_length s)) f) in
      if ok then Ret (mk_r (Some l) (set_parts s p) 0 0)
      else Ret (mk_r None (set_parts s p) 0 err_frame)
    else Ret (mk_r (Some l) s 0 0)
  end.

(** picohttp/h3zero_common.c 622-801, h3zero_parse_data_stream. *)
Definition parse_data_stream (l : list N) (s : dstate) : outcome dres :=
  match l with
  | [] => Ret (mk_r None s 0 err_internal)
  | _ :: _ =>
    if negb (d_parsed s) then read_frame_header l s
    else if d_web s then Ret (mk_r (Some l) s (blen l) 0)
    else
      let available := if d_length s <? u64 (d_read s + blen l) then d_length s - d_read s else blen l in
      if d_type s =? frame_header then read_header l s available
      else if d_type s =? frame_data then
        let s := set_read s (d_frame s) (d_read s + available) in
        Ret (mk_r (Some l) (if d_length s <=? d_read s then set_done s true else s) available 0)
      else
        let s := set_read s (d_frame s) (d_read s + available) in
        Ret (mk_r (Some (skipn (N.to_nat available) l)) (if d_length s <=? d_read s then set_done s false else s) 0 0)
  end.

(** What the callers do: data given to the application, close of the connection with an
    error, and, for clients, the answer to a request. *)
Inductive hev :=
| Data (l : list N)
| Close (code : N)
| Told (accepted : bool).

(** picohttp/h3zero_common.c 1217-1278, the loop of h3zero_process_h3_server_data; what
    the application does with the data is not modelled. *)
Fixpoint server_loop (fuel : nat) (l : list N) (s : dstate) : outcome (list hev * dstate) :=
  match fuel with
  | O => NoFuel
  | S f =>
    match l with
    | [] => Ret ([], s)
    | _ :: _ =>
      let! r := parse_data_stream l s in
      match r_rest r with
      | None => Ret ([Close (r_error r)], r_state r)
      | Some l' =>
        if 0 <? r_avail r then
          let! (e, s') := server_loop f (skipn (N.to_nat (r_avail r)) l') (r_state r) in
          Ret (Data (firstn (N.to_nat (r_avail r)) l') :: e, s')
        else server_loop f l' (r_state r)
      end
    end
  end.

(** A piece of the stream: every turn of the loop takes a byte or ends a frame, the
    steps granted are enough (theorem C56_defined). *)
Definition server_data (l : list N) (s : dstate) : outcome (list hev * dstate) :=
  server_loop (2 * length l + 2) l s.

(** picohttp/h3zero_common.c 1316-1359, the loop of h3zero_process_h3_client_data;
    [required] is header_required, computed before the loop (line 1315).  Flow control and the
    file are not modelled. *)
Fixpoint client_loop (fuel : nat) (required : bool) (l : list N) (s : dstate) : outcome (list hev * dstate) :=
  match fuel with
  | O => NoFuel
  | S f =>
    match l with
    | [] => Ret ([], s)
    | _ :: _ =>
      let! r := parse_data_stream l s in
      match r_rest r with
      | None => Ret ([Close (r_error r)], r_state r)
      | Some l' =>
        let st := p_status (d_header (r_state r)) in
        let told := if required && d_hfound (r_state r)
                    then [Told ((200 <=? st) && (st <? 300))%Z] else [] in
        if 0 <? r_avail r then
          let! (e, s') := client_loop f required (skipn (N.to_nat (r_avail r)) l') (r_state r) in
          Ret (told ++ Data (firstn (N.to_nat (r_avail r)) l') :: e, s')
        else
          let! (e, s') := client_loop f required l' (r_state r) in
          Ret (told ++ e, s')
      end
    end
  end.

(** picohttp/h3zero_common.c 1311-1315, a piece of the stream, for a client. *)
Definition client_data (l : list N) (s : dstate) : outcome (list hev * dstate) :=
  client_loop (2 * length l + 2) (negb (d_hfound s)) l s.

(** A connection that was closed takes no more pieces (picoquic_close, picoquic/sender.c
    4091-4126). *)
Definition closed (e : list hev) : bool :=
  existsb (fun x => match x with Close _ => true | _ => false end) e.

(** Successive pieces of a stream, as the stack delivers them. *)
Fixpoint pieces (data : list N -> dstate -> outcome (list hev * dstate)) (cs : list (list N)) (s : dstate) :
    outcome (list hev * dstate) :=
  match cs with
  | [] => Ret ([], s)
  | c :: r =>
    let! (e, s') := data c s in
    if closed e then Ret (e, s')
    else let! (e', s'') := pieces data r s' in Ret (e ++ e', s'')
  end.

(** picohttp/h3zero_common.c 1367-1372: the end of the stream, for a client without a
    path callback; [None]: no error. *)
Definition client_fin (s : dstate) : option N :=
  if d_read s <? d_length s then Some err_frame else None.

(** picohttp/h3zero_common.c 1280-1298: the end of the stream, for a server; whether the
    request is processed. *)
Definition server_fin (s : dstate) : bool := d_hfound s.

(** picohttp/h3zero_common.c 1263-1265: the data of a request other than POST, as the callback of the
    application gets them, each with the mark of the end of the stream; [fin]: the piece
    is the last one. *)
Definition marked (fin : bool) (e : list hev) : list (list N * bool) :=
  flat_map (fun x => match x with Data l => [(l, fin)] | _ => [] end) e.
