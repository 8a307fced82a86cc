(** A keyed collection: the live items, most recent first. *)
From Verif Require Import Base Hash_model.

(** The items present after a history: identity and key, most recent first. *)
Definition live_step {K} (eqk : K -> K -> bool) (l : list (N * K)) (o : hash_op K) : list (N * K) :=
  match o with
  | HInsert id key => (id, key) :: l
  | HDeleteItem id _ => filter (fun p => negb (fst p =? id)) l
  | HDeleteKey key =>
    match List.find (fun p => eqk key (snd p)) l with
    | Some (id, _) => filter (fun p => negb (fst p =? id)) l
    | None => l
    end
  end.

(** Use of the table: an inserted item is not already there, a deleted item is
    there. *)
Definition legal {K} (l : list (N * K)) (o : hash_op K) : Prop :=
  match o with
  | HInsert id _ => ~ In id (map fst l)
  | HDeleteItem id key => In (id, key) l
  | HDeleteKey _ => True
  end.

Fixpoint legal_run {K} (eqk : K -> K -> bool) (l : list (N * K)) (ops : list (hash_op K)) : Prop :=
  match ops with
  | [] => True
  | o :: ops' => legal l o /\ legal_run eqk (live_step eqk l o) ops'
  end.

Definition live {K} (eqk : K -> K -> bool) (ops : list (hash_op K)) : list (N * K) :=
  fold_left (live_step eqk) ops [].

(** Key equality is an equivalence and equal keys have equal hashes. *)
Definition hash_compatible {K} (hash : K -> N) (eqk : K -> K -> bool) : Prop :=
  (forall a, eqk a a = true) /\ (forall a b, eqk a b = eqk b a) /\
  (forall a b c, eqk a b = true -> eqk b c = true -> eqk a c = true) /\
  (forall a b, eqk a b = true -> hash a = hash b).
