(** Specification vocabulary for ordered multisets. *)
From Verif Require Import Base Splay_model.

(** A comparison function: antisymmetric and transitive. *)
Definition comparator {A} (cmp : A -> A -> Z) : Prop :=
  (forall a b, (cmp a b < 0 <-> 0 < cmp b a)%Z) /\
  (forall a b c, (cmp a b <= 0 -> cmp b c <= 0 -> cmp a c <= 0)%Z).

(** Every item is at most every later one. *)
Fixpoint ordered {A} (cmp : A -> A -> Z) (l : list A) : Prop :=
  match l with
  | [] => True
  | x :: l' => (forall y, In y l' -> (cmp x y <= 0)%Z) /\ ordered cmp l'
  end.

(** The content of a tree, in order. *)
Fixpoint inorder {A} (t : tree A) : list A :=
  match t with Leaf => [] | Node l v r => inorder l ++ v :: inorder r end.

(** Effect of one operation on the ordered sequence of items:
    insertion puts the item after those that are not greater, deletion removes
    one item that compares equal, if there is one, deletion of a node removes
    the item of that rank. *)
Inductive spec_step {A} (cmp : A -> A -> Z) : list A -> splay_op A -> list A -> Prop :=
| spec_insert : forall a b v,
    (forall x, In x a -> (cmp x v <= 0)%Z) -> (forall x, In x b -> (cmp v x < 0)%Z) ->
    spec_step cmp (a ++ b) (OpInsert v) (a ++ v :: b)
| spec_find : forall l v, spec_step cmp l (OpFind v) l
| spec_delete : forall a x b v, (cmp v x = 0)%Z -> spec_step cmp (a ++ x :: b) (OpDelete v) (a ++ b)
| spec_delete_none : forall l v, (forall x, In x l -> (cmp v x <> 0)%Z) -> spec_step cmp l (OpDelete v) l
| spec_delete_node : forall a x b, spec_step cmp (a ++ x :: b) (OpDeleteNode (length a)) (a ++ b)
| spec_delete_node_none : forall l k, (length l <= k)%nat -> spec_step cmp l (OpDeleteNode k) l.

Inductive spec_run {A} (cmp : A -> A -> Z) : list A -> list (splay_op A) -> list A -> Prop :=
| spec_run_nil : forall l, spec_run cmp l [] l
| spec_run_cons : forall l o l1 ops l2,
    spec_step cmp l o l1 -> spec_run cmp l1 ops l2 -> spec_run cmp l (o :: ops) l2.
