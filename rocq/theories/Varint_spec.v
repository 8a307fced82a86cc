(** Specification vocabulary for integers on the wire (independent of the
    model): RFC 9000 section 16. *)
From Verif Require Import Base.

(** The number written by a string of bytes, most significant byte first. *)
Definition be_value (l : list N) : N := fold_left (fun a b => a * 256 + b) l 0.

(** [is_varint v p]: the bytes [p] are one of the encodings of [v]: for some
    length class [c], [p] has [2^c] bytes and, read as a big-endian number, is
    the two bits [c] followed by [v]. *)
Definition is_varint (v : N) (p : list N) : Prop :=
  exists c, c < 4 /\ blen p = 2 ^ c /\
    v < 2 ^ (8 * 2 ^ c - 2) /\ be_value p = c * 2 ^ (8 * 2 ^ c - 2) + v /\ bytes_ok p.
