(** Model of the reception and sending of capsules (RFC 9297) for web transport,
    picohttp/h3zero_common.c and webtransport.c (definitions only).  An access outside
    of a buffer is [Undef]; [alloc]: whether an allocation of that size succeeds. *)
From Verif Require Varint_model.
From Verif Require Import Base Mem Qpack_model H3_model.

(** picohttp/h3zero_common.h 144-156, h3zero_capsule_t. *)
Record capsule := mk_cap {
  cp_hdr : list N;
  cp_hlen : N;
  cp_hread : N;
  cp_vread : N;
  cp_size : N;
  cp_type : N;
  cp_length : N;
  cp_buf : option (list N);
  cp_known : bool;
  cp_stored : bool
}.

(** picohttp/h3zero_common.c 2006: all zero. *)
Definition capsule0 : capsule := mk_cap (mem_fill 0 hdr_size) 0 0 0 0 0 0 None false false.

(** picohttp/h3zero_common.c 2011-2018: after a capsule was stored.  value_read,
    is_length_known, the buffer and its size are left alone. *)
Definition restart (c : capsule) : capsule :=
  if cp_stored c then mk_cap (cp_hdr c) 0 0 (cp_vread c) (cp_size c) 0 0 (cp_buf c) (cp_known c) false else c.

(** picohttp/h3zero_common.c 2022-2036 and 2048: bytes of the header. *)
Definition set_chdr (c : capsule) (h : list N) (n : N) : capsule :=
  mk_cap h (cp_hlen c) n (cp_vread c) (cp_size c) (cp_type c) (cp_length c) (cp_buf c) (cp_known c) (cp_stored c).
(** picohttp/h3zero_common.c 2032: the type. *)
Definition set_ctype (c : capsule) (v : N) : capsule :=
  mk_cap (cp_hdr c) (cp_hlen c) (cp_hread c) (cp_vread c) (cp_size c) v (cp_length c) (cp_buf c) (cp_known c) (cp_stored c).
(** picohttp/h3zero_common.c 2043: the length of the header. *)
Definition set_chlen (c : capsule) (v : N) : capsule :=
  mk_cap (cp_hdr c) v (cp_hread c) (cp_vread c) (cp_size c) (cp_type c) (cp_length c) (cp_buf c) (cp_known c) (cp_stored c).
(** picohttp/h3zero_common.c 2048-2051: the length of the capsule. *)
Definition set_clength (c : capsule) (v : N) : capsule :=
  mk_cap (cp_hdr c) (cp_hlen c) (cp_hread c) (cp_vread c) (cp_size c) (cp_type c) v (cp_buf c) true (cp_stored c).
(** picohttp/h3zero_common.c 2057-2070 and 2076-2080: the value. *)
Definition set_value (c : capsule) (b : option (list N)) (size vread : N) (stored : bool) : capsule :=
  mk_cap (cp_hdr c) (cp_hlen c) (cp_hread c) vread size (cp_type c) (cp_length c) b (cp_known c) stored.

(** picoquic/util.c, picoquic_frames_varint_decode within the header buffer; the result
    is ignored, and [d] is left in place if the number is not complete. *)
Definition header_number (off n : N) (h : list N) (d : N) : outcome N :=
  let! m := mem (mem_read off n h) in
  match Varint_model.frames_varint_decode_o m with
  | Varint_model.UB => Undef
  | Varint_model.Fail => Ret d
  | Varint_model.Ok (v, _) => Ret v
  end.

(** picohttp/h3zero_common.c 2019-2055: the type and the length. *)
Definition cap_header (l : list N) (c : capsule) : outcome (list N * capsule) :=
  let! (l, h, n) :=
    (if cp_hread c <? 1 then
       match l with
       | [] => Undef
       | b :: r => let! h' := mem (mem_write (cp_hread c) [b] (cp_hdr c)) in Ret (r, h', cp_hread c + 1)
       end
     else Ret (l, cp_hdr c, cp_hread c)) in
  let! b0 := mem (mem_get 0 h) in
  let lt := varint_skip b0 in
  let! (l, h, n) := fill lt l h n in
  if lt <=? n then
    let! ty := header_number 0 lt h (cp_type c) in
    let! (l, h, n) := fill (lt + 1) l h n in
    let c := set_ctype c ty in
    if lt + 1 <=? n then
      let! b1 := mem (mem_get lt h) in
      let ll := varint_skip b1 in
      let! (l, h, n) := fill (lt + ll) l h n in
      let c := set_chlen (set_chdr c h n) (lt + ll) in
      if lt + ll <=? n then
        let! len := header_number lt ll h 0 in
        Ret (l, set_clength c len)
      else Ret (l, c)
    else Ret (l, set_chdr c h n)
  else Ret (l, set_chdr c h n).

(** picohttp/h3zero_common.c 2057-2068: a buffer for the value; the bytes read are copied. *)
Definition cap_buffer (alloc : N -> bool) (c : capsule) : outcome capsule :=
  if cp_size c <? cp_length c then
    if alloc (cp_length c) then
      if 0 <? cp_vread c then
        let! old := mem (match cp_buf c with Some b => mem_read 0 (cp_vread c) b | None => None end) in
        let! b := mem (mem_write 0 old (mem_fill 0 (cp_length c))) in
        Ret (set_value c (Some b) (cp_length c) (cp_vread c) (cp_stored c))
      else Ret (set_value c (Some (mem_fill 0 (cp_length c))) (cp_length c) (cp_vread c) (cp_stored c))
    else Ret (set_value c None (cp_length c) (cp_vread c) (cp_stored c))
  else Ret c.

(** picohttp/h3zero_common.c 2069-2086: bytes of the value; [None]: NULL.  The number of
    bytes to copy is computed modulo 2^64; copying more bytes than there are is undefined. *)
Definition cap_value (l : list N) (c : capsule) : outcome (option (list N) * capsule) :=
  match cp_buf c with
  | None => Ret (None, set_value c None 0 0 (cp_stored c))
  | Some b =>
    let available :=
      if cp_length c <? u64 (cp_vread c + blen l) then u64 (cp_length c + (two64 - cp_vread c)) else blen l in
    if blen l <? available then Undef
    else
      let! b := mem (mem_write (cp_vread c) (firstn (N.to_nat available) l) b) in
      let v := u64 (cp_vread c + available) in
      Ret (Some (skipn (N.to_nat available) l), set_value c (Some b) (cp_size c) v (if cp_length c <=? v then true else cp_stored c))
  end.

(** picohttp/h3zero_common.c 2009-2089, h3zero_accumulate_capsule. *)
Definition accumulate (alloc : N -> bool) (l : list N) (c : capsule) : outcome (option (list N) * capsule) :=
  let c := restart c in
  let! (l, c) := (if cp_known c then Ret (l, c) else cap_header l c) in
  if cp_known c then
    let! c := cap_buffer alloc c in
    cap_value l c
  else Ret (Some l, c).

(** What the application gets: a datagram, or the end of the session: the type of the
    capsule, the code and the message. *)
Inductive wev :=
| WDatagram (l : list N)
| WEnd (ty code : N) (msg : list N).

(** picohttp/webtransport.c 385-413: a capsule is stored; [None]: an error. *)
Definition dispatch (c : capsule) : outcome (option wev) :=
  let content := mem (match cp_buf c with Some b => mem_read 0 (cp_length c) b | None => None end) in
  if cp_type c =? 0 then let! x := content in Ret (Some (WDatagram x))
  else if (cp_type c =? 30894) || (cp_type c =? 10307) then
    if cp_length c <? 4 then Ret None
    else
      let! x := content in
      match x with
      | a :: b :: d :: e :: msg => Ret (Some (WEnd (cp_type c) (a * 16777216 + b * 65536 + d * 256 + e) msg))
      | _ => Undef
      end
  else Ret None.

(** picohttp/webtransport.c 371-416, picowt_receive_capsule: the events, the state, and
    whether the result is zero.  Every turn takes a byte. *)
Fixpoint receive (alloc : N -> bool) (fuel : nat) (l : list N) (c : capsule) : outcome (list wev * capsule * bool) :=
  match fuel with
  | O => NoFuel
  | S f =>
    match l with
    | [] => Ret ([], c, true)
    | _ :: _ =>
      let! (r, c) := accumulate alloc l c in
      match r with
      | None => Ret ([], c, false)
      | Some l =>
        if cp_stored c then
          let! e := dispatch c in
          match e with
          | None => Ret ([], c, false)
          | Some e => let! (es, c, ok) := receive alloc f l c in Ret (e :: es, c, ok)
          end
        else receive alloc f l c
      end
    end
  end.

(** The pieces of a control stream (picohttp/wt_baton.c 345-346); nothing is received
    after an error. *)
Fixpoint receive_pieces (alloc : N -> bool) (cs : list (list N)) (c : capsule) : outcome (list wev * capsule * bool) :=
  match cs with
  | [] => Ret ([], c, true)
  | x :: r =>
    let! (e, c, ok) := receive alloc (S (List.length x)) x c in
    if ok then let! (e', c, ok) := receive_pieces alloc r c in Ret (e ++ e', c, ok) else Ret (e, c, false)
  end.

(** picohttp/webtransport.c 287-332, picowt_send_close_session_message: the capsule, in a
    buffer of 512 bytes; [None]: an error. *)
Definition close_message (code : N) (msg : list N) : option (list N) :=
  match Varint_model.frames_varint_encode 10307 512 with
  | None => None
  | Some a =>
    match Varint_model.frames_varint_encode (4 + blen msg) (512 - blen a) with
    | None => None
    | Some b =>
      if 512 <? blen a + blen b + 4 then None
      else if 512 <? blen a + blen b + 4 + blen msg then None
      else Some (a ++ b ++ [code / 16777216 mod 256; code / 65536 mod 256; code / 256 mod 256; code mod 256] ++ msg)
    end
  end.

(** picohttp/webtransport.c 342-362, picowt_send_drain_session_message. *)
Definition drain_message : list N := [128; 0; 30894 / 256; 30894 mod 256; 0].
