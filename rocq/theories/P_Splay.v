(** Property C16: splay trees behave as ordered multisets. *)
From Verif Require Import Base Splay_model Splay_spec Splay_proofs.

(** For every history of insertions, searches and deletions from the empty
    tree, the operations complete, the in-order content evolves as the ordered
    sequence of the specification, it is ordered, and the size field counts it. *)
Theorem C16_history : forall A (cmp : A -> A -> Z) ops, comparator cmp ->
  exists s, splay_run cmp empty_tree ops = Some s /\ spec_run cmp [] ops (inorder (st_tree s)) /\
    ordered cmp (inorder (st_tree s)) /\ st_size s = N.of_nat (length (inorder (st_tree s))).
Proof. exact splay_history. Qed.
Print Assumptions C16_history.

Example C16_history_case : comparator wake_compare /\
  exists t, splay_run wake_compare empty_tree
    [OpInsert 5; OpInsert 2; OpInsert 9; OpInsert 5; OpFind 2; OpDelete 5; OpInsert 7; OpDeleteNode 0; OpDelete 40]
    = Some (mk_stree t 3) /\ inorder t = [5; 7; 9].
Proof. split; [exact wake_compare_comparator|]. eexists. split; [vm_compute; reflexivity|reflexivity]. Qed.

(** A search finds an item that compares equal exactly when there is one, and
    leaves the content unchanged. *)
Theorem C16_find : forall A (cmp : A -> A -> Z) ops s v, comparator cmp ->
  splay_run cmp empty_tree ops = Some s ->
  exists res t', find cmp v (st_tree s) = Some (res, t') /\ inorder t' = inorder (st_tree s) /\
    match res with
    | Some x => In x (inorder (st_tree s)) /\ (cmp v x = 0)%Z
    | None => forall y, In y (inorder (st_tree s)) -> (cmp v y <> 0)%Z
    end.
Proof. exact splay_find_history. Qed.
Print Assumptions C16_find.

Example C16_find_case :
  match splay_run wake_compare empty_tree [OpInsert 5; OpInsert 2; OpInsert 9; OpInsert 4] with
  | Some s => find wake_compare 9 (st_tree s) = Some (Some 9, Node (Node (Node Leaf 2 Leaf) 4 (Node Leaf 5 Leaf)) 9 Leaf) /\
              find wake_compare 6 (st_tree s) = Some (None, st_tree s)
  | None => False
  end.
Proof. vm_compute. split; reflexivity. Qed.

(** Find-previous returns a greatest item among those that are not above the
    searched value, and nothing exactly when all items are above it. *)
Theorem C16_find_previous : forall A (cmp : A -> A -> Z) ops s v, comparator cmp ->
  splay_run cmp empty_tree ops = Some s ->
  match find_previous cmp v (st_tree s) None with
  | Some x => In x (inorder (st_tree s)) /\ (0 <= cmp v x)%Z /\
              (forall y, In y (inorder (st_tree s)) -> (0 <= cmp v y)%Z -> (cmp y x <= 0)%Z)
  | None => forall y, In y (inorder (st_tree s)) -> (cmp v y < 0)%Z
  end.
Proof. exact splay_find_previous_history. Qed.
Print Assumptions C16_find_previous.

Example C16_find_previous_case :
  match splay_run wake_compare empty_tree [OpInsert 5; OpInsert 2; OpInsert 9; OpInsert 4] with
  | Some s => find_previous wake_compare 8 (st_tree s) None = Some 5 /\
              find_previous wake_compare 1 (st_tree s) None = None
  | None => False
  end.
Proof. vm_compute. split; reflexivity. Qed.

(** First, last, next and previous walk the in-order sequence, whatever the
    shape of the tree. *)
Theorem C16_walk : forall A (t : tree A),
  first t = nth_error (inorder t) 0 /\ last_node t = hd_error (rev (inorder t)) /\
  forall k, (k < length (inorder t))%nat -> exists x, node_at k t [] = Some x /\
    nth_error (inorder t) k = Some (lc_v x) /\
    next x = nth_error (inorder t) (S k) /\
    previous x = match k with O => None | S j => nth_error (inorder t) j end.
Proof. exact splay_walk. Qed.
Print Assumptions C16_walk.

Example C16_walk_case :
  let t := Node (Node Leaf 2 (Node Leaf 4 Leaf)) 5 (Node Leaf 9 Leaf) in
  match node_at 1 t [] with
  | Some x => lc_v x = 4 /\ next x = Some 5 /\ previous x = Some 2
  | None => False
  end.
Proof. vm_compute. repeat split. Qed.

(** The comparison functions of the library are comparators: differences of
    64-bit values on values below 2^62, wake times, token times and hashes. *)
Theorem C16_comparators :
  comparator (fun a b : { n : N | (n < two62)%N } => sub_compare (proj1_sig a) (proj1_sig b)) /\
  comparator wake_compare /\ comparator token_compare.
Proof. exact (conj sub_compare_comparator (conj wake_compare_comparator token_compare_comparator)). Qed.
Print Assumptions C16_comparators.

(** The difference is not a comparator on all 64-bit values: the bound is
    needed. *)
Theorem C16_sub_compare_refuted : exists a b c,
  a < two64 /\ b < two64 /\ c < two64 /\
  (sub_compare a b < 0)%Z /\ (sub_compare b c < 0)%Z /\ (0 < sub_compare a c)%Z.
Proof. exists 0, (2 ^ 62), (2 ^ 63 + 1). vm_compute. repeat split; reflexivity. Qed.
Print Assumptions C16_sub_compare_refuted.
