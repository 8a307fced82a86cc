(** Model of the two variable-length integer codecs (definitions only). *)
From Verif Require Import Base.

(** picoquic/intformat.c 68-83, picoquic_encode_varint_length. *)
Definition encode_varint_length (n64 : N) : N :=
  if n64 <? 16384 then (if n64 <? 64 then 1 else 2)
  else if n64 <? 1073741824 then 4 else 8.

(** picoquic/intformat.c 85-88, picoquic_decode_varint_length; also the macros
    VARINT_LEN and VARINT_LEN_T, picoquic/picoquic_utils.h 173-174. *)
Definition varint_len (b0 : N) : N := N.shiftl 1 (N.land (N.shiftr b0 6) 3).

(** picoquic/intformat.c 85-88: the expression [1 << ((byte & 0xC0) >> 6)]. *)
Definition decode_varint_length (byte : N) : N :=
  N.shiftl 1 (N.shiftr (N.land byte 192) 6).

(** The four byte layouts shared by picoquic/intformat.c 90-126 and
    picoquic/util.c 871-920; the casts to uint8_t are [u8]. *)
Definition varint_bytes (n64 : N) : list N :=
  if n64 <? 16384 then
    if n64 <? 64 then [u8 n64]
    else [u8 (N.lor (N.shiftr n64 8) 64); u8 n64]
  else if n64 <? 1073741824 then
    [u8 (N.lor (N.shiftr n64 24) 128); u8 (N.shiftr n64 16);
     u8 (N.shiftr n64 8); u8 n64]
  else
    [u8 (N.lor (N.shiftr n64 56) 192); u8 (N.shiftr n64 48); u8 (N.shiftr n64 40);
     u8 (N.shiftr n64 32); u8 (N.shiftr n64 24); u8 (N.shiftr n64 16);
     u8 (N.shiftr n64 8); u8 n64].

(** picoquic/util.c 871-920, picoquic_frames_varint_encode: each branch tests
    [bytes + len <= bytes_max], the model compares the length with the room. *)
Definition frames_varint_encode (n64 : N) : writer := fun room =>
  if n64 <? 16384 then
    if n64 <? 64 then (if 1 <=? room then Some (varint_bytes n64) else None)
    else (if 2 <=? room then Some (varint_bytes n64) else None)
  else if n64 <? 1073741824 then
    (if 4 <=? room then Some (varint_bytes n64) else None)
  else
    (if 8 <=? room then Some (varint_bytes n64) else None).

(** picoquic/intformat.c 90-126, picoquic_varint_encode: returns the bytes
    written, the empty list standing for the return value 0 (no room). *)
Definition varint_encode (max_bytes : N) (n64 : N) : list N :=
  if n64 <? 16384 then
    if n64 <? 64 then (if 0 <? max_bytes then varint_bytes n64 else [])
    else (if 2 <=? max_bytes then varint_bytes n64 else [])
  else if n64 <? 1073741824 then
    (if 4 <=? max_bytes then varint_bytes n64 else [])
  else
    (if 8 <=? max_bytes then varint_bytes n64 else []).

(** picoquic/intformat.c 128-134, picoquic_varint_encode_16. *)
Definition varint_encode_16 (n16 : N) : list N :=
  [u8 (N.land (N.lor (N.shiftr n16 8) 64) 127); u8 n16].

(** The accumulation loop [v <<= 8; v += *bytes++], picoquic/util.c 751-754 and
    picoquic/intformat.c 152-155.  A [None] result is a read past the end. *)
Fixpoint be_loop (k : nat) (v : N) (l : list N) : option (N * list N) :=
  match k with
  | O => Some (v, l)
  | S k' =>
    match l with
    | [] => None
    | b :: l' => be_loop k' (u64 (u64 (N.shiftl v 8) + b)) l'
    end
  end.

(** Outcome of a decoder that may, in C, read past the end of the buffer. *)
Inductive outcome (A : Type) : Type :=
| Ok (a : A)
| Fail
| UB.
Arguments Ok {A} a.
Arguments Fail {A}.
Arguments UB {A}.

(** picoquic/util.c 743-763, picoquic_frames_varint_decode.  The explicit test
    [bytes + length <= bytes_max] guards the loop; reading past the end would
    give [UB]. *)
Definition frames_varint_decode_o (l : list N) : outcome (N * list N) :=
  match l with
  | [] => Fail
  | b :: l' =>
    if varint_len b <=? blen l then
      match be_loop (N.to_nat (varint_len b - 1)) (N.land b 63) l' with
      | Some r => Ok r
      | None => UB
      end
    else Fail
  end.

(** The same function seen as a reader: NULL is [None]. *)
Definition frames_varint_decode : reader N := fun l =>
  match frames_varint_decode_o l with
  | Ok r => Some r
  | _ => None
  end.

(** picoquic/util.c 724-728, picoquic_frames_fixed_skip. *)
Definition frames_fixed_skip (size : N) : skipper := fun l =>
  if size <=? blen l then Some (skipn (N.to_nat size) l) else None.

(** picoquic/util.c 731-740, picoquic_frames_varint_skip. *)
Definition frames_varint_skip : skipper := fun l =>
  match l with
  | [] => None
  | b :: _ => frames_fixed_skip (varint_len b) l
  end.

(** picoquic/intformat.c 136-162, picoquic_varint_decode: result is the length
    consumed and the value, (0,0) on short input. *)
Definition varint_decode (l : list N) : outcome (N * N) :=
  match l with
  | [] => Ok (0, 0)
  | b :: l' =>
    let length := decode_varint_length b in
    if blen l <? length then Ok (0, 0)
    else
      match be_loop (N.to_nat (length - 1)) (N.land b 63) l' with
      | Some (v, _) => Ok (length, v)
      | None => UB
      end
  end.

(** picoquic/util.c 765-771, picoquic_frames_varlen_decode, for a 64-bit size_t:
    the narrowing test never fails. *)
Definition frames_varlen_decode : reader N := frames_varint_decode.

(** picoquic/util.c 773-782, picoquic_frames_uint8_decode. *)
Definition frames_uint8_decode : reader N := fun l =>
  match l with b :: l' => Some (b, l') | [] => None end.

(** picoquic/util.c 785-795, picoquic_frames_uint16_decode, with PICOPARSE_16
    (picoquic/picoquic_internal.h 1710) on bytes: shift-or equals shift-add. *)
Definition frames_uint16_decode : reader N := fun l =>
  match l with b0 :: b1 :: l' => Some (N.lor (N.shiftl b0 8) b1, l') | _ => None end.

(** picoquic/util.c 797-807 and PICOPARSE_32, picoquic/picoquic_internal.h 1712. *)
Definition frames_uint32_decode : reader N := fun l =>
  match l with
  | b0 :: b1 :: b2 :: b3 :: l' =>
    Some (N.lor (N.shiftl (N.lor (N.shiftl b0 8) b1) 16) (N.lor (N.shiftl b2 8) b3), l')
  | _ => None
  end.

(** picoquic/util.c 809-819 and PICOPARSE_64, picoquic/picoquic_internal.h 1713. *)
Definition frames_uint64_decode : reader N := fun l =>
  match frames_uint32_decode l with
  | Some (hi, l') =>
    match frames_uint32_decode l' with
    | Some (lo, l'') => Some (N.lor (N.shiftl hi 32) lo, l'')
    | None => None
    end
  | None => None
  end.

(** picoquic/util.c 821-828, picoquic_frames_length_data_skip. *)
Definition frames_length_data_skip : skipper := fun l =>
  match frames_varint_decode l with
  | None => None
  | Some (n, l') => frames_fixed_skip n l'
  end.

(** picoquic/util.c 927-937, picoquic_frames_uint8_encode. *)
Definition frames_uint8_encode (n : N) : writer := fun room =>
  if room <? 1 then None else Some [u8 n].

(** picoquic/util.c 939-949, picoquic_frames_uint16_encode. *)
Definition frames_uint16_encode (n : N) : writer := fun room =>
  if room <? 2 then None else Some [u8 (N.shiftr n 8); u8 n].

(** picoquic/util.c 951-962, picoquic_frames_uint24_encode. *)
Definition frames_uint24_encode (n : N) : writer := fun room =>
  if room <? 3 then None else Some [u8 (N.shiftr n 16); u8 (N.shiftr n 8); u8 n].

(** Big-endian bytes of a 32-bit value: picoquic/intformat.c 40-46,
    picoformat_32. *)
Definition format_32 (n : N) : list N :=
  [u8 (N.shiftr n 24); u8 (N.shiftr n 16); u8 (N.shiftr n 8); u8 n].

(** picoquic/intformat.c 27-31, picoformat_16. *)
Definition format_16 (n : N) : list N := [u8 (N.shiftr n 8); u8 n].

(** picoquic/intformat.c 33-38, picoformat_24. *)
Definition format_24 (n : N) : list N :=
  [u8 (N.shiftr n 16); u8 (N.shiftr n 8); u8 n].

(** picoquic/intformat.c 48-58, picoformat_64. *)
Definition format_64 (n : N) : list N :=
  [u8 (N.shiftr n 56); u8 (N.shiftr n 48); u8 (N.shiftr n 40); u8 (N.shiftr n 32);
   u8 (N.shiftr n 24); u8 (N.shiftr n 16); u8 (N.shiftr n 8); u8 n].

(** picoquic/util.c 964-976, picoquic_frames_uint32_encode. *)
Definition frames_uint32_encode (n : N) : writer := fun room =>
  if room <? 4 then None else Some (format_32 n).

(** picoquic/util.c 978-995, picoquic_frames_uint64_encode. *)
Definition frames_uint64_encode (n : N) : writer := fun room =>
  if room <? 8 then None else Some (format_64 n).

(** memcpy of [v] after the test [bytes + l <= bytes_max]
    (picoquic/util.c 999-1002). *)
Definition put_bytes (v : list N) : writer := fun room =>
  if blen v <=? room then Some v else None.

(** picoquic/util.c 997-1009, picoquic_frames_length_data_encode. *)
Definition frames_length_data_encode (v : list N) : writer :=
  frames_varint_encode (blen v) >>> put_bytes v.

(** Read of exactly [n] bytes once [n <= bytes_max - bytes] was tested. *)
Definition take_bytes (n : N) : reader (list N) := fun l =>
  if n <=? blen l then Some (firstn (N.to_nat n) l, skipn (N.to_nat n) l) else None.
