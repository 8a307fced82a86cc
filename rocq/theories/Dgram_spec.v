(** Specification vocabulary for the sending of datagrams: what RFC 9221 calls DATAGRAM frames
    (independent of the functions of the model). *)
From Verif Require Import Base Varint_spec Frames_model.

(** A frame with its length, which may be followed by others. *)
Inductive with_length (data : list N) : list N -> Prop :=
| wl_intro : forall v, is_varint (blen data) v -> with_length data (49 :: v ++ data).

(** Some padding and a frame without length: it goes to the end of the packet. *)
Inductive to_the_end (data : list N) : list N -> Prop :=
| te_intro : forall k, (k < 8)%nat -> to_the_end data (repeat 0 k ++ 48 :: data).

(** A sequence of datagrams in a packet; the flag: no other frame may follow. *)
Inductive dgrams : bool -> list (list N) -> list N -> Prop :=
| dg_none : dgrams false [] []
| dg_last : forall data b, to_the_end data b -> dgrams true [data] b
| dg_more : forall e data b ds bs, with_length data b -> dgrams e ds bs -> dgrams e (data :: ds) (b ++ bs).

(** A peer of which the application keeps the datagrams it is given, in order. *)
Definition keeper : handlers (list (list N)) :=
  mk_h (fun s f => match f with RDatagram d => (s ++ [d], true) | _ => (s, true) end)
       (fun s _ _ => s) (fun _ _ => true).
(** A peer that keeps the errors it raises, with the type of the frame. *)
Definition judge : handlers (list (N * N)) :=
  mk_h (fun s _ => (s, true)) (fun s code ftype => s ++ [(code, ftype)]) (fun _ _ => true).
