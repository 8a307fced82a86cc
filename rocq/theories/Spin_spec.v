(** Specification vocabulary for the spin bit (independent of the functions of the model): the values
    around the loop from the client to the server and back, and their changes. *)
From Verif Require Import Base Spin_model.

(** The spin bit of a first byte: RFC 9000 section 17.3.1. *)
Definition bit (b : N) : bool := N.testbit b 5.

(** The spin value of an endpoint: that of its first path. *)
Definition value (e : spoint) : bool := hd false (sp_paths e).

(** An endpoint with the policy of the spin bit, and a path. *)
Definition spins (client : bool) (e : spoint) : Prop :=
  sp_client e = client /\ sp_policy e = 0 /\ exists v l, sp_paths e = v :: l.

(** The number of changes along a list. *)
Fixpoint changes (l : list bool) : nat :=
  match l with
  | a :: (b :: _) as r => ((if Bool.eqb a b then 0 else 1) + changes r)%nat
  | _ => 0%nat
  end.

(** The values from the client to the server and back, that the client inverts. *)
Definition ring (s : snet) : list bool :=
  value (n_client s) :: rev (map bit (n_up s)) ++ value (n_server s) :: rev (map bit (n_down s)) ++
  [negb (value (n_client s))].

(** Packets arrive in the order in which they were sent; any may be lost. *)
Definition in_order (o : sop) : Prop :=
  match o with RecvS i | RecvC i => i = 0%nat | _ => True end.

(** A state at the start of a connection: nothing under way, values 0. *)
Definition sp_start (s : snet) : Prop :=
  spins true (n_client s) /\ spins false (n_server s) /\ n_up s = [] /\ n_down s = [] /\
  value (n_client s) = false /\ value (n_server s) = false.

(** All values of a byte. *)
Definition all_bytes : list N := map N.of_nat (seq 0 256).

(** How many of the elements are such. *)
Definition how_many {A} (p : A -> bool) (l : list A) : N := N.of_nat (length (filter p l)).
