(** Model of the byte streams of picoquic/bytestream.c (definitions only): sequential writing and
    reading of integers, buffers, connection ids, strings and addresses, as in the binary logs. *)
From Verif Require Import Base Varint_model.

(** picoquic/bytestream.h 33-37: the data, whose length is [size], and [ptr]. *)
Record bstream := mk_bs { b_data : list N; b_ptr : N }.

(** The field [size] (bytestream.h 35). *)
Definition b_size (s : bstream) : N := blen (b_data s).

(** bytestream.c 433-437, bytestream_error; the result -1 is given by the callers. *)
Definition b_error (s : bstream) : bstream := mk_bs (b_data s) (b_size s).

(** The difference [s->size - s->ptr] of two size_t (bytestream.c 92-95 and in every function). *)
Definition b_room (s : bstream) : N := u64 (b_size s + two64 - b_ptr s).

(** The bytes from [s->data + s->ptr] on (bytestream.c 77-80). *)
Definition b_rest (s : bstream) : list N := skipn (N.to_nat (b_ptr s)) (b_data s).

(** bytestream.c 97-100, bytestream_reset. *)
Definition b_reset (s : bstream) : bstream := mk_bs (b_data s) 0.

(** Bytes stored at [s->data + s->ptr], and [s->ptr] moved after them (for example bytestream.c 297,
    298); [None]: a store outside of the data, undefined. *)
Definition poke (v : list N) (s : bstream) : option bstream :=
  if b_ptr s + blen v <=? b_size s then
    Some (mk_bs (firstn (N.to_nat (b_ptr s)) (b_data s) ++ v ++ skipn (N.to_nat (b_ptr s + blen v)) (b_data s))
            (b_ptr s + blen v))
  else None.

(** Bytes loaded from [s->data + s->ptr], and [s->ptr] moved after them (for example bytestream.c
    310, 311); [None]: a load outside of the data, undefined. *)
Definition peek (n : N) (s : bstream) : option (bstream * list N) :=
  if b_ptr s + n <=? b_size s then
    Some (mk_bs (b_data s) (b_ptr s + n), firstn (N.to_nat n) (b_rest s))
  else None.

(** What a writing function does: the stream and whether it returns 0; [None]: undefined. *)
Notation wres := (option (bstream * bool)).

(** The test of the room, then the store: bytestream.c 180-189, 213-223, 239-249, 268-278, 290-300. *)
Definition put (n : N) (v : list N) (s : bstream) : wres :=
  if b_room s <? n then Some (b_error s, false)
  else match poke v s with Some s' => Some (s', true) | None => None end.

(** bytestream.c 138-147, bytewrite_vint. *)
Definition w_vint (value : N) (s : bstream) : wres :=
  let e := varint_encode (b_room s) value in
  if blen e =? 0 then Some (b_error s, false)
  else match poke e s with Some s' => Some (s', true) | None => None end.

(** [ret |= ...]: the second function runs whatever the first returns (for example bytestream.c
    319, 320). *)
Definition w_and (f g : bstream -> wres) (s : bstream) : wres :=
  match f s with
  | None => None
  | Some (s1, a) => match g s1 with None => None | Some (s2, b) => Some (s2, a && b) end
  end.

(** bytestream.c 180-189, 213-223, 239-249, 268-278. *)
Definition w_int8 (n : N) : bstream -> wres := put 1 [u8 n].
Definition w_int16 (n : N) : bstream -> wres := put 2 (format_16 n).
Definition w_int32 (n : N) : bstream -> wres := put 4 (format_32 n).
Definition w_int64 (n : N) : bstream -> wres := put 8 (format_64 n).

(** bytestream.c 290-300, bytewrite_buffer. *)
Definition w_buffer (l : list N) : bstream -> wres := put (blen l) l.

(** bytestream.c 317-322, bytewrite_cid; [None]: a length over that of the array. *)
Definition w_cid (l : list N) (s : bstream) : wres :=
  if 20 <? blen l then None else w_and (w_int8 (blen l)) (w_buffer l) s.

(** bytestream.c 347-353, bytewrite_cstr; [l]: the characters before the final 0. *)
Definition w_cstr (l : list N) : bstream -> wres := w_and (w_vint (blen l)) (w_buffer l).

(** bytestream.c 387-400, bytewrite_addr; [ip]: the 4 bytes of sin_addr if the family is AF_INET (2),
    else the 16 bytes of sin6_addr; [port]: the field, in the order of the machine.  Simplification:
    the flow and the scope of the address are left out. *)
Definition w_addr (f : N) (ip : list N) (port : N) (s : bstream) : wres :=
  if f =? 2 then w_and (w_and (w_vint f) (put 4 ip)) (w_int16 port) s
  else w_and (w_and (w_vint f) (put 16 ip)) (w_int16 port) s.

(** What is written: one constructor for each of the functions above. *)
Inductive bitem :=
| BVint (n : N) | B8 (n : N) | B16 (n : N) | B32 (n : N) | B64 (n : N)
| BBuf (l : list N) | BCid (l : list N) | BStr (l : list N) | BAddr (f : N) (ip : list N) (port : N).

(** The function that writes it (bytestream.c 138-400). *)
Definition w_item (i : bitem) : bstream -> wres :=
  match i with
  | BVint n => w_vint n
  | B8 n => w_int8 n
  | B16 n => w_int16 n
  | B32 n => w_int32 n
  | B64 n => w_int64 n
  | BBuf l => w_buffer l
  | BCid l => w_cid l
  | BStr l => w_cstr l
  | BAddr f ip port => w_addr f ip port
  end.

(** A series of them joined by [ret |=], as in the binary logs (for example
    picoquic/bytestream.c 319-321). *)
Fixpoint w_items (l : list bitem) (s : bstream) : wres :=
  match l with
  | [] => Some (s, true)
  | i :: r => w_and (w_item i) (w_items r) s
  end.

(** What a reading function does: the stream and, if it returns 0, the value; [None]: undefined. *)
Notation rres A := (option (bstream * option A)).

(** bytestream.c 302-313, byteread_buffer. *)
Definition get (n : N) (s : bstream) : rres (list N) :=
  if b_room s <? n then Some (b_error s, None)
  else match peek n s with Some (s', l) => Some (s', Some l) | None => None end.

(** bytestream.c 149-164, byteread_vint, and byteread_vlen (171-178) with 64 bits in size_t. *)
Definition r_vint (s : bstream) : rres N :=
  if b_room s <? 1 then Some (b_error s, None)
  else
    match varint_decode (b_rest s) with
    | Ok (len, v) =>
      if len =? 0 then Some (b_error s, None) else Some (mk_bs (b_data s) (b_ptr s + len), Some v)
    | _ => None
    end.

(** The value of the bytes read, by shifts as in bytestream.c 191-200, 225-237, 251-263 ([None] does
    not arise: the number of bytes is tested), then by the loop of 280-286. *)
Definition val8 (l : list N) : option N := match l with [a] => Some a | _ => None end.
Definition val16 (l : list N) : option N :=
  match l with [a; b] => Some (N.lor (N.shiftl a 8) b) | _ => None end.
Definition val32 (l : list N) : option N :=
  match l with
  | [a; b; c; d] => Some (N.lor (N.lor (N.lor (N.shiftl a 24) (N.shiftl b 16)) (N.shiftl c 8)) d)
  | _ => None
  end.
Definition val64 (l : list N) : option N := option_map fst (be_loop 8 0 l).

(** A test of the room, then the value: bytestream.c 191-200, 225-237, 251-263, 273-288. *)
Definition r_int (n : N) (val : list N -> option N) (s : bstream) : rres N :=
  match get n s with
  | None => None
  | Some (s', None) => Some (s', None)
  | Some (s', Some l) => match val l with Some v => Some (s', Some v) | None => None end
  end.

(** [ret |= ...] for reading (for example bytestream.c 411, 412). *)
Definition r_and {A B} (f : bstream -> rres A) (g : bstream -> rres B) (s : bstream) : rres (A * B) :=
  match f s with
  | None => None
  | Some (s1, a) =>
    match g s1 with
    | None => None
    | Some (s2, b) =>
      Some (s2, match a, b with Some x, Some y => Some (x, y) | _, _ => None end)
    end
  end.

(** bytestream.c 324-336, byteread_cid; [old]: the value of cid->id_len before the call, used if the
    length cannot be read. *)
Definition r_cid (old : N) (s : bstream) : rres (list N) :=
  match r_int 1 val8 s with
  | None => None
  | Some (s1, v) =>
    let len := match v with Some x => x | None => old end in
    if 20 <? len then Some (s1, None)
    else
      match get len s1 with
      | None => None
      | Some (s2, l) => Some (s2, match v with Some _ => l | None => None end)
      end
  end.

(** bytestream.c 355-370, byteread_cstr, in an array of [max] bytes; the final 0 is in the array
    when it is written. *)
Definition r_cstr (max : N) (s : bstream) : rres (list N) :=
  match r_vint s with
  | None => None
  | Some (s1, None) => Some (s1, None)
  | Some (s1, Some l) => if max <? u64 (l + 1) then Some (s1, None) else get l s1
  end.

(** bytestream.c 402-418, byteread_addr: the family, the bytes of the address and the port. *)
Definition r_addr (s : bstream) : rres (N * list N * N) :=
  match r_vint s with
  | None => None
  | Some (s1, f) =>
    let v4 := match f with Some x => x =? 2 | None => false end in
    match r_and (get (if v4 then 4 else 16)) (r_int 2 val16) s1 with
    | None => None
    | Some (s2, a) =>
      Some (s2, match f, a with
                | Some _, Some (ip, port) => Some (if v4 then 2 else 10, ip, port)
                | _, _ => None
                end)
    end
  end.

(** What is read: one constructor for each of the functions above. *)
Inductive bkind := KVint | K8 | K16 | K32 | K64 | KBuf (n : N) | KCid (old : N) | KStr (max : N) | KAddr.

(** The value of a result. *)
Definition rmap {A} (f : A -> bitem) (r : rres A) : rres bitem :=
  match r with
  | None => None
  | Some (s, v) => Some (s, option_map f v)
  end.

(** The function that reads it (bytestream.c 149-418). *)
Definition r_item (k : bkind) (s : bstream) : rres bitem :=
  match k with
  | KVint => rmap BVint (r_vint s)
  | K8 => rmap B8 (r_int 1 val8 s)
  | K16 => rmap B16 (r_int 2 val16 s)
  | K32 => rmap B32 (r_int 4 val32 s)
  | K64 => rmap B64 (r_int 8 val64 s)
  | KBuf n => rmap BBuf (get n s)
  | KCid old => rmap BCid (r_cid old s)
  | KStr max => rmap BStr (r_cstr max s)
  | KAddr => rmap (fun a => BAddr (fst (fst a)) (snd (fst a)) (snd a)) (r_addr s)
  end.

(** A series of them joined by [ret |=]. *)
Fixpoint r_items (l : list bkind) (s : bstream) : rres (list bitem) :=
  match l with
  | [] => Some (s, Some [])
  | k :: r =>
    match r_and (r_item k) (r_items r) s with
    | None => None
    | Some (s', v) => Some (s', option_map (fun a => fst a :: snd a) v)
    end
  end.

(** bytestream.c 114-123, bytestream_skip. *)
Definition b_skip (n : N) (s : bstream) : wres :=
  if b_room s <? n then Some (b_error s, false) else Some (mk_bs (b_data s) (b_ptr s + n), true).

(** bytestream.c 125-134, byteread_skip_vint. *)
Definition skip_vint (s : bstream) : wres :=
  if b_room s <? 1 then Some (b_error s, false)
  else match b_rest s with [] => None | b :: _ => b_skip (decode_varint_length b) s end.

(** bytestream.c 338-345, 372-385, 420-431: byteskip_cid, byteskip_cstr, byteskip_addr; the other
    items are passed by bytestream_skip. *)
Definition skip_item (k : bkind) (s : bstream) : wres :=
  match k with
  | KVint => skip_vint s
  | K8 => b_skip 1 s
  | K16 => b_skip 2 s
  | K32 => b_skip 4 s
  | K64 => b_skip 8 s
  | KBuf n => b_skip n s
  | KCid _ =>
    match r_int 1 val8 s with
    | None => None
    | Some (s1, v) =>
      match b_skip (match v with Some x => x | None => 0 end) s1 with
      | None => None
      | Some (s2, b) => Some (s2, match v with Some _ => b | None => false end)
      end
    end
  | KStr _ =>
    match r_vint s with
    | None => None
    | Some (s1, None) => Some (s1, false)
    | Some (s1, Some l) => b_skip l s1
    end
  | KAddr =>
    match r_vint s with
    | None => None
    | Some (s1, f) =>
      match b_skip (if match f with Some x => x =? 2 | None => false end then 6 else 18) s1 with
      | None => None
      | Some (s2, b) => Some (s2, match f with Some _ => b | None => false end)
      end
    end
  end.
