(** Specification vocabulary for the byte streams (independent of the functions of the model): the
    layout of each item, and the bytes before and after a position. *)
From Verif Require Import Base Varint_spec Bstream_model.

(** [be n k p]: [p] is the number [n] in [k] bytes, the most significant first. *)
Definition be (n k : N) (p : list N) : Prop := blen p = k /\ bytes_ok p /\ be_value p = n.

(** [lays i p]: the bytes [p] are the item [i]. *)
Definition lays (i : bitem) (p : list N) : Prop :=
  match i with
  | BVint n => is_varint n p
  | B8 n => be n 1 p
  | B16 n => be n 2 p
  | B32 n => be n 4 p
  | B64 n => be n 8 p
  | BBuf l => p = l
  | BCid l => exists q, be (blen l) 1 q /\ p = q ++ l
  | BStr l => exists q, is_varint (blen l) q /\ p = q ++ l
  | BAddr f ip port => exists q r, is_varint f q /\ be port 2 r /\ p = q ++ ip ++ r
  end.

(** The shortest of the layouts. *)
Definition shortest (i : bitem) (p : list N) : Prop :=
  lays i p /\ forall q, lays i q -> blen p <= blen q.

(** The items one after the other. *)
Fixpoint series (l : list bitem) (p : list N) : Prop :=
  match l with
  | [] => p = []
  | i :: r => exists a b, p = a ++ b /\ shortest i a /\ series r b
  end.

(** Items that the types of the arguments allow: numbers below 2^62 for the variable length, and 8,
    16, 32, 64 bits; bytes; at most 20 for a connection id; 4 or 16 for an address. *)
Definition item_ok (i : bitem) : Prop :=
  match i with
  | BVint n => n < two62
  | B8 n => n < 256
  | B16 n => n < 65536
  | B32 n => n < 4294967296
  | B64 n => n < two64
  | BBuf l => bytes_ok l
  | BCid l => bytes_ok l /\ blen l <= 20
  | BStr l => bytes_ok l /\ blen l < two62
  | BAddr f ip port => bytes_ok ip /\ port < 65536 /\ (f = 2 /\ blen ip = 4 \/ f <> 2 /\ f < two62 /\ blen ip = 16)
  end.

(** [reads k i p]: a reader of kind [k] may take the bytes [p] for [i]: a string shorter than the
    array, at most 20 bytes of connection id; every address that is not of family 2 is of family
    10. *)
Definition reads (k : bkind) (i : bitem) (p : list N) : Prop :=
  match k, i with
  | KVint, BVint n => is_varint n p
  | K8, B8 n => be n 1 p
  | K16, B16 n => be n 2 p
  | K32, B32 n => be n 4 p
  | K64, B64 n => be n 8 p
  | KBuf n, BBuf l => p = l /\ blen l = n
  | KCid _, BCid l => blen l <= 20 /\ exists q, be (blen l) 1 q /\ p = q ++ l
  | KStr max, BStr l => blen l < max /\ exists q, is_varint (blen l) q /\ p = q ++ l
  | KAddr, BAddr f ip port =>
    exists g q r, is_varint g q /\ be port 2 r /\ p = q ++ ip ++ r /\
      (g = 2 /\ f = 2 /\ blen ip = 4 \/ g <> 2 /\ f = 10 /\ blen ip = 16)
  | _, _ => False
  end.

(** A reader of kind [k] is the one for [i]. *)
Definition for_item (k : bkind) (i : bitem) : Prop :=
  match k, i with
  | KVint, BVint _ | K8, B8 _ | K16, B16 _ | K32, B32 _ | K64, B64 _ | KCid _, BCid _ => True
  | KBuf n, BBuf l => blen l = n
  | KStr max, BStr l => blen l < max
  | KAddr, BAddr f _ _ => f = 2 \/ f = 10
  | _, _ => False
  end.

(** A stream as the initialisation makes it, and later: a position in the data. *)
Definition bs_ok (s : bstream) : Prop :=
  b_ptr s <= blen (b_data s) /\ blen (b_data s) < two64 /\ bytes_ok (b_data s).

(** [d'] is [d] with [p] written at the position [n]. *)
Definition written (n : N) (p d d' : list N) : Prop :=
  exists a b c, d = a ++ b ++ c /\ d' = a ++ p ++ c /\ blen a = n /\ blen b = blen p.
