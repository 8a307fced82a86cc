(** Specification of queries (RFC 3986): components separated by '&', names and values
    separated by '=', escaped bytes, decimal numbers. *)
From Verif Require Import Base.

(** A byte does not occur. *)
Definition without (c : N) (l : list N) : Prop := ~ In c l.

(** A query is a sequence of components with '&' between them. *)
Inductive query : list (list N) -> list N -> Prop :=
| query_last : forall c, without 38 c -> query [c] c
| query_more : forall c cs l, without 38 c -> query cs l -> query (c :: cs) (c ++ 38 :: l).

(** A component gives the value [v] to the name [id]: it is the name, without a value, or
    the name, '=' and the value. *)
Definition gives (id c v : list N) : Prop := (c = id /\ v = []) \/ c = id ++ 61 :: v.

(** The first value that a query gives to a name. *)
Inductive first_value (id : list N) : list (list N) -> option (list N) -> Prop :=
| first_none : first_value id [] None
| first_here : forall c cs v, gives id c v -> first_value id (c :: cs) (Some v)
| first_later : forall c cs r, (forall v, ~ gives id c v) -> first_value id cs r -> first_value id (c :: cs) r.

(** Hexadecimal digits. *)
Definition hex (x d : N) : Prop :=
  (48 <= x <= 57 /\ d = x - 48) \/ (65 <= x <= 70 /\ d = x - 55) \/ (97 <= x <= 102 /\ d = x - 87).

(** The bytes that a text with escapes stands for. *)
Inductive unescaped : list N -> list N -> Prop :=
| unescaped_nil : unescaped [] []
| unescaped_plain : forall c l x, c <> 37 -> unescaped l x -> unescaped (c :: l) (c :: x)
| unescaped_hex : forall a b i j l x, hex a i -> hex b j -> unescaped l x -> unescaped (37 :: a :: b :: l) (16 * i + j :: x).

(** A decimal number; the empty text is zero. *)
Definition decimal (x : list N) : N := fold_left (fun v c => 10 * v + (c - 48)) x 0.
Definition digits (x : list N) : Prop := Forall (fun c => 48 <= c <= 57) x.

(** The number that a query asks for: that of the first value, or the default if there is
    none; 18446744073709551610 is the limit of the code. *)
Definition limit : N := 18446744073709551610.
Inductive asks (id : list N) (default : N) (cs : list (list N)) : N -> Prop :=
| asks_absent : first_value id cs None -> asks id default cs default
| asks_empty : first_value id cs (Some []) -> asks id default cs default
| asks_number : forall v x, first_value id cs (Some v) -> v <> [] -> unescaped v x -> digits x -> decimal x < limit ->
    asks id default cs (decimal x).
