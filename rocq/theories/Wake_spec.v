(** Specification of wake times: the connections that are alive, in the order in which their
    wake times were set. *)
From Verif Require Import Base Wake_model.

Definition forget (c : N) (l : list (N * N)) : list (N * N) := filter (fun n => negb (fst n =? c)) l.
Definition is_alive (c : N) (l : list (N * N)) : Prop := exists t, In (c, t) l.

(** Histories in which connections are created once, and used and deleted while they are
    alive: what is alive after them. *)
Inductive alive : list wop -> list (N * N) -> Prop :=
| alive_nil : alive [] []
| alive_create : forall ops l c t, alive ops l -> ~ is_alive c l -> alive (ops ++ [WCreate c t]) (l ++ [(c, t)])
| alive_set : forall ops l c t, alive ops l -> is_alive c l -> alive (ops ++ [WSet c t]) (forget c l ++ [(c, t)])
| alive_delete : forall ops l c, alive ops l -> is_alive c l -> alive (ops ++ [WDelete c]) (forget c l).

(** The first of those with the least wake time. *)
Definition soonest (l : list (N * N)) (n : N * N) : Prop :=
  exists a b, l = a ++ n :: b /\ (forall m, In m a -> snd n < snd m) /\ (forall m, In m b -> snd n <= snd m).
