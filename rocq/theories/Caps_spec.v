(** Specification of the reception of web transport capsules (RFC 9297, and the web transport
    draft for the types). *)
From Verif Require Import Base Varint_spec Qpack_model H3_model H3_spec Caps_model.

(** The events that capsules stand for: a datagram (type 0), DRAIN_WEBTRANSPORT_SESSION and
    CLOSE_WEBTRANSPORT_SESSION with a code of 32 bits and a message. *)
Inductive means : N -> list N -> wev -> Prop :=
| means_datagram : forall x, means 0 x (WDatagram x)
| means_end : forall ty a b c d msg, ty = 30894 \/ ty = 10307 ->
    means ty (a :: b :: c :: d :: msg) (WEnd ty (2 ^ 24 * a + 2 ^ 16 * b + 2 ^ 8 * c + d) msg).

(** What comes of the bytes of a stream of capsules. *)
Inductive cresult :=
| CBroken
| CStuck
| Refused (e : list wev)
| Heard (e : list wev).

Definition cresult_of (o : outcome (list wev * capsule * bool)) : cresult :=
  match o with
  | Undef => CBroken
  | NoFuel => CStuck
  | Ret (e, _, true) => Heard e
  | Ret (e, _, false) => Refused e
  end.

(** The beginning of a capsule. *)
Inductive incomplete (alloc : N -> bool) : list N -> Prop :=
| incomplete_head : forall p q ty n a b, is_varint ty a -> is_varint n b -> q <> [] -> p ++ q = a ++ b -> incomplete alloc p
| incomplete_value : forall ty n a b x, is_varint ty a -> is_varint n b -> alloc n = true -> blen x < n ->
    incomplete alloc (a ++ b ++ x).

(** Bytes that are refused. *)
Inductive refusable (alloc : N -> bool) : list N -> Prop :=
| refusable_size : forall ty n a b r, is_varint ty a -> is_varint n b -> n = 0 \/ alloc n = false -> refusable alloc (a ++ b ++ r)
| refusable_type : forall ty x l r, frame_bytes (ty, x) l -> x <> [] -> alloc (blen x) = true -> (forall e, ~ means ty x e) ->
    refusable alloc (l ++ r).
