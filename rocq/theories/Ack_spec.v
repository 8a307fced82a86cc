(** Specification vocabulary for ACK frames (RFC 9000, section 19.3). *)
From Verif Require Import Base Varint_spec Sack_model Sack_spec Ack_model.
From Coq Require Import Sorting.Sorted.

(** The bytes are the encodings of the given numbers, one after the other. *)
Inductive varints : list N -> list N -> Prop :=
| varints_nil : varints [] []
| varints_cons : forall v vs p bytes,
    is_varint v p -> varints vs bytes -> varints (v :: vs) (p ++ bytes).

(** Numbers of the (gap, length) blocks as they follow in the frame. *)
Definition block_numbers (blocks : list (N * N)) : list N :=
  flat_map (fun b => [fst b; snd b]) blocks.

(** RFC 9000 section 19.3.1: below a range whose smallest number is [smallest], the
    block (gap, len) names the range with largest number [smallest - gap - 2]
    and smallest number [largest - len]; negative numbers make the frame
    invalid. *)
Fixpoint rfc_blocks (smallest : N) (blocks : list (N * N)) : option (list (N * N)) :=
  match blocks with
  | [] => Some []
  | (gap, len) :: bs =>
    if gap + 2 + len <=? smallest then
      let high := smallest - gap - 2 in
      match rfc_blocks (high - len) bs with
      | Some rs => Some ((high - len, high) :: rs)
      | None => None
      end
    else None
  end.

(** All the ranges (low, high) named by an ACK frame, highest first. *)
Definition rfc_ranges (largest first : N) (blocks : list (N * N)) : option (list (N * N)) :=
  if first <=? largest then
    match rfc_blocks (largest - first) blocks with
    | Some rs => Some ((largest - first, largest) :: rs)
    | None => None
    end
  else None.

(** [bytes] is an ACK frame with the given content: type, optional path id,
    largest acknowledged, delay, number of blocks, first range, blocks and the
    optional ECN counters. *)
Definition ack_frame (ty : N) (path : option N) (largest delay first : N)
    (blocks : list (N * N)) (ecn : list N) (bytes : list N) : Prop :=
  varints (ty :: match path with Some p => [p] | None => [] end ++
           [largest; delay; N.of_nat (length blocks); first] ++ block_numbers blocks ++ ecn) bytes.

(** A number lies in one of the ranges. *)
Definition in_ranges (rs : list (N * N)) (q : N) : Prop :=
  exists a b, In (a, b) rs /\ a <= q <= b.

Definition in_rangesb (rs : list (N * N)) (q : N) : bool :=
  existsb (fun r => (fst r <=? q) && (q <=? snd r)) rs.

(** Packet numbers are below 2^62. *)
Definition op62 (o : sack_op) : Prop :=
  match o with
  | OpUpdate a b _ => a <= b /\ b < 2 ^ 62
  | OpAckOfAck a b => a <= b
  | OpSent _ _ => True
  end.

(** The retransmission queue is in sending order: strictly increasing numbers. *)
Definition ascending (q : list sent_packet) : Prop := StronglySorted (fun a b => p_seq a < p_seq b) q.

(** The frame acknowledges a higher number than any frame before it (the
    initial value is UINT64_MAX, quicctx.c 2705-2711: send_sequence - 1). *)
Definition is_new (highest_ack largest : N) : Prop := highest_ack < largest \/ highest_ack = max64.
