(** Specification vocabulary for hexadecimal ids (independent of the functions of the model). *)
From Verif Require Import Base.

(** The value of a hexadecimal digit, as a relation: 0-9, A-F, a-f. *)
Definition digit_is (c v : N) : Prop :=
  v < 16 /\ ((v < 10 /\ c = 48 + v) \/ (10 <= v /\ (c = 55 + v \/ c = 87 + v))).

(** A text in hexadecimal of a list of bytes. *)
Inductive spells : list N -> list N -> Prop :=
| sp_nil : spells [] []
| sp_cons : forall x y a b s l, digit_is x a -> digit_is y b -> spells s l -> spells (x :: y :: s) (16 * a + b :: l).

(** A digit in lower case. *)
Definition lower_digit (c : N) : Prop := (48 <= c <= 57) \/ (97 <= c <= 102).
