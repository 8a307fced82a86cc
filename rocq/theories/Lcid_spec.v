(** Specification of the connection ids that an endpoint issues. *)
From Verif Require Import Base Lcid_model.

(** Consecutive sequence numbers. *)
Fixpoint numbers (from : N) (n : nat) : list N :=
  match n with O => [] | S m => from :: numbers (from + 1) m end.

Definition f_seq (f : frame) : N := fst (fst f).
Definition f_before (f : frame) : N := snd (fst f).
Definition f_id (f : frame) : cid := snd f.

(** Histories that can occur: time does not go back, random ids have the length configured, other
    connections are not this one. *)
Fixpoint occurs (c : conf) (t : N) (ops : list lop) : Prop :=
  match ops with
  | [] => True
  | LCreate rnd now :: r =>
    t <= now < 2 ^ 64 /\ (forall i, N.of_nat (length (rnd i)) = c_len c) /\ occurs c now r
  | LSend rnd now _ _ :: r =>
    t <= now < 2 ^ 64 /\ (forall i j, N.of_nat (length (rnd i j)) = c_len c) /\ occurs c now r
  | LOther _ owner :: r => owner <> 0 /\ occurs c t r
  | LRetire _ _ :: r | LGone _ :: r => occurs c t r
  end.

(** The ids of other connections: each once. *)
Definition others (t : list (cid * N)) : Prop :=
  NoDup (map fst t) /\ forall i o, In (i, o) t -> o <> 0.

(** The ids that the peer may use once it knows what is retired. *)
Definition usable (k : lids) : list lcid := filter (fun l => k_before k <=? l_seq l) (k_cids k).
