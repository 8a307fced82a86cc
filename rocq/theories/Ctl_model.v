(** Model of the parsers of HTTP/3 control streams and of web transport streams opened by the
    peer, picohttp/h3zero_common.c and h3zero.c (definitions only).  Memory allocations
    succeed; an access outside of a buffer is [Undef]. *)
From Verif Require Varint_model.
From Verif Require Import Base Mem Qpack_model H3_model.

(** picohttp/h3zero.h 212-220, h3zero_settings_t; max_header_list_size is never set. *)
Record settings := mk_set {
  se_sessions : N;
  se_table : N;
  se_blocked : N;
  se_connect : N;
  se_datagram : N;
  se_received : bool
}.

(** picohttp/h3zero_common.c, the context is created with zeros. *)
Definition settings0 : settings := mk_set 0 0 0 0 0 false.

(** picohttp/h3zero.h 260-283: the members of h3zero_data_stream_state_t in use for the
    streams opened by the peer. *)
Record ustate := mk_u {
  u_stream : N;
  u_type : N;
  u_length : N;
  u_read : N;
  u_frame : option (list N);
  u_control : N;
  u_hdr : list N;
  u_hread : N;
  u_ignored : bool
}.

(** picohttp/h3zero_common.c 140-147: a new stream; all members are zero, except the
    type of the stream and the control stream. *)
Definition ustate0 : ustate := mk_u max64 0 0 0 None max64 (mem_fill 0 hdr_size) 0 false.

(** picohttp/h3zero.c 1053-1060 on [u_hdr] and [u_hread]: bytes buffered. *)
Definition set_buf (s : ustate) (h : list N) (n : N) : ustate :=
  mk_u (u_stream s) (u_type s) (u_length s) (u_read s) (u_frame s) (u_control s) h n (u_ignored s).
(** picohttp/h3zero_common.c 557: the type of the stream. *)
Definition set_stream (s : ustate) (v : N) : ustate :=
  mk_u v (u_type s) (u_length s) (u_read s) (u_frame s) (u_control s) (u_hdr s) (u_hread s) (u_ignored s).
(** picohttp/h3zero_common.c 419: the type of the frame. *)
Definition set_ftype (s : ustate) (v : N) : ustate :=
  mk_u (u_stream s) v (u_length s) (u_read s) (u_frame s) (u_control s) (u_hdr s) (u_hread s) (u_ignored s).
(** picohttp/h3zero_common.c 450: the length of the frame. *)
Definition set_flength (s : ustate) (v : N) : ustate :=
  mk_u (u_stream s) (u_type s) v (u_read s) (u_frame s) (u_control s) (u_hdr s) (u_hread s) (u_ignored s).
(** picohttp/h3zero_common.c 364-366 and 379: content was read. *)
Definition set_fread (s : ustate) (f : option (list N)) (v : N) : ustate :=
  mk_u (u_stream s) (u_type s) (u_length s) v f (u_control s) (u_hdr s) (u_hread s) (u_ignored s).
(** picohttp/h3zero_common.c 497: the control stream. *)
Definition set_control (s : ustate) (v : N) : ustate :=
  mk_u (u_stream s) (u_type s) (u_length s) (u_read s) (u_frame s) v (u_hdr s) (u_hread s) (u_ignored s).
(** picohttp/h3zero_common.c 444. *)
Definition set_ignored (s : ustate) : ustate :=
  mk_u (u_stream s) (u_type s) (u_length s) (u_read s) (u_frame s) (u_control s) (u_hdr s) (u_hread s) true.

(** picohttp/h3zero_common.c 401-410, h3zero_reset_control_stream_state. *)
Definition reset_control (s : ustate) : ustate :=
  mk_u (u_stream s) max64 max64 0 None (u_control s) (u_hdr s) (u_hread s) (u_ignored s).

(** picohttp/h3zero.c 1036-1062, h3zero_varint_from_stream: the bytes that remain, the
    result, the buffer and the number of bytes in it.  [result] is left alone if the
    number is not complete. *)
Definition from_stream (l : list N) (result : N) (h : list N) (n : N) : outcome (list N * N * list N * N) :=
  match l with
  | [] => Ret ([], result, h, n)
  | b :: r =>
    let! (l, h, n) :=
      (if n =? 0 then let! h' := mem (mem_write 0 [b] h) in Ret (r, h', 1) else Ret (l, h, n)) in
    let! b0 := mem (mem_get 0 h) in
    let be := varint_skip b0 in
    let! (l, h, n) := fill be l h n in
    if be <=? n then
      let! v := varint_decode h n in
      if 0 <? n - be then
        let! m := mem (mem_read be (n - be) h) in
        let! h := mem (mem_write 0 m h) in
        Ret (l, v, h, n - be)
      else Ret (l, v, h, n - be)
    else Ret (l, result, h, n)
  end.

(** picohttp/h3zero_common.c 1942-1961: one setting; a bit field keeps the lowest bit. *)
Definition set_one (st : settings) (key value : N) : settings :=
  if key =? 1 then mk_set (se_sessions st) value (se_blocked st) (se_connect st) (se_datagram st) (se_received st)
  else if key =? 7 then mk_set (se_sessions st) (se_table st) value (se_connect st) (se_datagram st) (se_received st)
  else if key =? 8 then mk_set (se_sessions st) (se_table st) (se_blocked st) (value mod 2) (se_datagram st) (se_received st)
  else if key =? 51 then mk_set (se_sessions st) (se_table st) (se_blocked st) (se_connect st) (value mod 2) (se_received st)
  else if key =? 3329323114 then mk_set value (se_table st) (se_blocked st) (se_connect st) (se_datagram st) (se_received st)
  else st.

(** picohttp/h3zero_common.c 1933-1966, h3zero_settings_components_decode on a buffer that
    is not NULL: [true] if the result is not NULL.  Every turn takes two bytes at least. *)
Fixpoint components (fuel : nat) (l : list N) (st : settings) : outcome (bool * settings) :=
  match fuel with
  | O => NoFuel
  | S f =>
    match l with
    | [] => Ret (true, st)
    | _ :: _ =>
      match Varint_model.frames_varint_decode_o l with
      | Varint_model.UB => Undef
      | Varint_model.Fail => Ret (false, st)
      | Varint_model.Ok (key, l1) =>
        match Varint_model.frames_varint_decode_o l1 with
        | Varint_model.UB => Undef
        | Varint_model.Fail => Ret (false, st)
        | Varint_model.Ok (value, l2) => components f l2 (set_one st key value)
        end
      end
    end
  end.

(** picohttp/h3zero_common.c 1933-1966 and 471-473: a buffer that is NULL gives NULL. *)
Definition components_decode (frame : option (list N)) (length : N) (st : settings) : outcome (bool * settings) :=
  match frame with
  | None => Ret (false, st)
  | Some f =>
    let! l := mem (mem_read 0 length f) in
    components (S (List.length l)) l st
  end.

(** What a parser returns: the pointer ([None]: NULL), the state, the settings and
    [*error_found]. *)
Record cres := mk_c { k_rest : option (list N); k_state : ustate; k_set : settings; k_error : N }.

(** picohttp/h3zero_common.c 425-446: the type of a frame of the control stream; [Some]:
    refused with that code. *)
Definition type_error (received : bool) (ty : N) : option N :=
  if received && (ty =? frame_settings) then Some err_unexpected
  else if negb received && negb (ty =? frame_settings) then Some err_missing
  else if (ty =? frame_data) || (ty =? frame_header) || (ty =? frame_push_promise) || (ty =? frame_webtransport)
  then Some err_internal
  else None.

(** picohttp/h3zero_common.c 360-362 and 375-377: the bytes of the frame that are there. *)
Definition frame_part (l : list N) (s : ustate) : N :=
  if u_length s <? u64 (u_read s + blen l) then u_length s - u_read s else blen l.

(** picohttp/h3zero_common.c 342-369, h3zero_load_frame_content: the rest, or an error. *)
Definition load_content (l : list N) (s : ustate) : outcome (option (list N) * ustate * N) :=
  if 65536 <? u_length s then Ret (None, s, err_internal)
  else
    let f := match u_frame s with Some f => f | None => mem_fill 0 (u_length s) end in
    let available := frame_part l s in
    let! f := mem (mem_write (u_read s) (firstn (N.to_nat available) l) f) in
    Ret (Some (skipn (N.to_nat available) l), set_fread s (Some f) (u_read s + available), 0).

(** picohttp/h3zero_common.c 371-383, h3zero_skip_frame_content. *)
Definition skip_content (l : list N) (s : ustate) : outcome (option (list N) * ustate * N) :=
  let available := frame_part l s in
  Ret (Some (skipn (N.to_nat available) l), set_fread s (u_frame s) (u_read s + available), 0).

(** picohttp/h3zero_common.c 456-484: the content of a frame and its end; the rest, the
    state, the settings and the error.  The frame is processed even if its content could
    not be loaded, if nothing is missing (it cannot happen). *)
Definition control_content (l : list N) (s : ustate) (st : settings) : outcome cres :=
  let! (l, s, e) :=
    (if u_read s <? u_length s then if u_ignored s then skip_content l s else load_content l s
     else Ret (Some l, s, 0)) in
  if u_length s <=? u_read s then
    if u_type s =? frame_settings then
      let! (ok, st) := components_decode (u_frame s) (u_length s) st in
      if ok then
        Ret (mk_c l (reset_control s)
          (mk_set (se_sessions st) (se_table st) (se_blocked st) (se_connect st) (se_datagram st) true) e)
      else Ret (mk_c None (reset_control s) st err_settings)
    else Ret (mk_c l (reset_control s) st e)
  else Ret (mk_c l s st e).

(** picohttp/h3zero_common.c 447-485: the length of the frame and its content; [false]: the
    function returns (line 453). *)
Definition control_length (l : list N) (s : ustate) (st : settings) : outcome (bool * cres) :=
  if u_length s =? max64 then
    let! (l, v, h, n) := from_stream l (u_length s) (u_hdr s) (u_hread s) in
    let s := set_flength (set_buf s h n) v in
    if v =? max64 then Ret (false, mk_c (Some l) s st 0)
    else let! r := control_content l s st in Ret (true, r)
  else let! r := control_content l s st in Ret (true, r).

(** picohttp/h3zero_common.c 412-488, h3zero_parse_control_stream; every turn of the loop takes
    a byte. *)
Fixpoint parse_control (fuel : nat) (l : list N) (s : ustate) (st : settings) : outcome cres :=
  match fuel with
  | O => NoFuel
  | S f =>
    match l with
    | [] => Ret (mk_c (Some []) s st 0)
    | _ :: _ =>
      let next l s :=
        let! (continues, r) := control_length l s st in
        match k_rest r with
        | None => Ret r
        | Some l' => if continues then parse_control f l' (k_state r) (k_set r) else Ret r
        end in
      if u_type s =? max64 then
        let! (l, v, h, n) := from_stream l (u_type s) (u_hdr s) (u_hread s) in
        let s := set_ftype (set_buf s h n) v in
        if v =? max64 then parse_control f l s st
        else
          match type_error (se_received st) v with
          | Some e => Ret (mk_c None s st e)
          | None => next l (if v =? frame_settings then s else set_ignored s)
          end
      else next l s
    end
  end.

(** picohttp/h3zero_common.c 490-516, h3zero_wt_parse_control_stream_id; [known]: whether
    h3zero_find_stream_prefix finds the number of a control stream. *)
Definition parse_session (known : N -> bool) (l : list N) (s : ustate) (st : settings) : outcome cres :=
  if u_control s =? max64 then
    let! (l, v, h, n) := from_stream l (u_control s) (u_hdr s) (u_hread s) in
    let s := set_control (set_buf s h n) v in
    if v =? max64 then Ret (mk_c (Some l) s st 0)
    else if known v then Ret (mk_c (Some l) s st 0) else Ret (mk_c None s st 0)
  else Ret (mk_c (Some l) s st 0).

(** picohttp/h3zero_common.c 523-546, h3zero_parse_remote_bidir_stream.  The test at line 535
    is on the type of the frame, which is zero. *)
Definition parse_bidir (known : N -> bool) (l : list N) (s : ustate) (st : settings) : outcome cres :=
  let after l s :=
    if u_stream s =? frame_webtransport then parse_session known l s st
    else Ret (mk_c None s st 0) in
  if u_stream s =? max64 then
    let! (l, v, h, n) := from_stream l (u_stream s) (u_hdr s) (u_hread s) in
    let s := set_stream (set_buf s h n) v in
    if u_type s =? max64 then Ret (mk_c (Some l) s st 0) else after l s
  else after l s.

(** picohttp/h3zero_common.c 548-590, h3zero_parse_remote_unidir_stream. *)
Definition parse_unidir (known : N -> bool) (l : list N) (s : ustate) (st : settings) : outcome cres :=
  let after l s :=
    if u_stream s =? 0 then parse_control (S (List.length l)) l s st
    else if u_stream s =? 84 then parse_session known l s st
    else Ret (mk_c (Some []) s st 0) in
  if u_stream s =? max64 then
    let! (l, v, h, n) := from_stream l (u_stream s) (u_hdr s) (u_hread s) in
    let s := set_stream (set_buf s h n) v in
    if v =? max64 then Ret (mk_c (Some l) s st 0)
    else after l (if v =? 0 then reset_control s else s)
  else after l s.

(** What is done with a piece: data for the application, or STOP_SENDING with a code. *)
Inductive uev :=
| UData (l : list N)
| UStop (code : N).

(** picohttp/h3zero_common.c 845-875, h3zero_process_remote_stream without the end of the
    stream; [bidir]: by the number of the stream. *)
Definition remote_data (bidir : bool) (known : N -> bool) (l : list N) (s : ustate) (st : settings) :
    outcome (list uev * ustate * settings) :=
  let! r := (if bidir then parse_bidir known l s st else parse_unidir known l s st) in
  match k_rest r with
  | None => Ret ([UStop (k_error r)], k_state r, k_set r)
  | Some [] => Ret ([], k_state r, k_set r)
  | Some l' => Ret ([UData l'], k_state r, k_set r)
  end.

(** Successive pieces of a stream; after STOP_SENDING was requested, the stream
    delivers nothing more (picoquic/frames.c 1065). *)
Definition stopped (e : list uev) : bool := existsb (fun x => match x with UStop _ => true | _ => false end) e.

(** The pieces of a stream, one after the other (picohttp/h3zero_common.c 845-875). *)
Fixpoint remote_pieces (bidir : bool) (known : N -> bool) (cs : list (list N)) (s : ustate) (st : settings) :
    outcome (list uev * ustate * settings) :=
  match cs with
  | [] => Ret ([], s, st)
  | c :: r =>
    let! (e, s', st') := remote_data bidir known c s st in
    if stopped e then Ret (e, s', st')
    else let! (e', s'', st'') := remote_pieces bidir known r s' st' in Ret (e ++ e', s'', st'')
  end.
