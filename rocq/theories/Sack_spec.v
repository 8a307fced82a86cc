(** Specification vocabulary for the record of received packet numbers. *)
From Verif Require Import Base Sack_model.

(** Operations as the connection performs them: ranges are not empty and packet
    numbers stay below 2^64 - 1. *)
Definition valid_op (o : sack_op) : Prop :=
  match o with
  | OpUpdate a b _ => a <= b /\ b < max64
  | OpAckOfAck a b => a <= b
  | OpSent _ _ => True
  end.

(** The packet numbers recorded in a history. *)
Definition recorded (ops : list sack_op) (q : N) : Prop :=
  exists a b t, In (OpUpdate a b t) ops /\ a <= q <= b.

(** The packet numbers inside acknowledged ACK ranges. *)
Definition ack_acked (ops : list sack_op) (q : N) : Prop :=
  exists a b, In (OpAckOfAck a b) ops /\ a <= q <= b.

(** Sorted, disjoint and never adjacent ranges. *)
Fixpoint separated (l : list (N * N)) : Prop :=
  match l with
  | [] => True
  | (a, b) :: l' =>
    a <= b /\ match l' with [] => True | (c, _) :: _ => b + 1 < c end /\ separated l'
  end.

(** The stored ranges. *)
Definition ranges (s : sack_list) : list (N * N) := map (fun it => (ss it, se it)) (sl_items s).

(** How many ranges have the value [j] for the field [f]. *)
Definition cntf (f : sack_item -> N) (l : list sack_item) (j : N) : Z :=
  Z.of_nat (length (filter (fun it => f it =? j) l)).

