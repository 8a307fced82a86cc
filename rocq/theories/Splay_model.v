(** Model of the splay tree, picoquic/picosplay.c (definitions only).

    A node pointer of the C code gives access to the node, its descendants and,
    through the parent pointers, the rest of the tree.  It is modelled by a
    location: the subtree of the node and the list of its ancestors from the
    nearest to the root, each with its value and its other subtree. *)
From Verif Require Import Base.

(** picoquic/picosplay.h 34-36, picosplay_node_t. *)
Inductive tree (A : Type) :=
| Leaf : tree A
| Node : tree A -> A -> tree A -> tree A.
Arguments Leaf {A}.
Arguments Node {A} _ _ _.

(** One ancestor: whether the location is in its left subtree, its value, and
    the other subtree. *)
Record frame (A : Type) := mk_frame { f_left : bool; f_value : A; f_other : tree A }.
Arguments mk_frame {A} _ _ _.
Arguments f_left {A} _.
Arguments f_value {A} _.
Arguments f_other {A} _.

(** A node pointer: left subtree, value, right subtree, ancestors. *)
Record loc (A : Type) := mk_loc { lc_l : tree A; lc_v : A; lc_r : tree A; lc_up : list (frame A) }.
Arguments mk_loc {A} _ _ _ _.
Arguments lc_l {A} _.
Arguments lc_v {A} _.
Arguments lc_r {A} _.
Arguments lc_up {A} _.

(** The parent node with [f] as nearest ancestor and [t] as the subtree we come
    from (reading of the left and right fields, picoquic/picosplay.h 34-36). *)
Definition parent_tree {A} (f : frame A) (t : tree A) : tree A :=
  if f_left f then Node t (f_value f) (f_other f) else Node (f_other f) (f_value f) t.

(** picoquic/picosplay.c 289-318, rotate with mark_gp: the child takes the place
    of its parent, the parent becomes its child on the other side.  A node
    without parent is refused by the assertion (291): no result. *)
Definition rotate {A} (x : loc A) : option (loc A) :=
  match lc_up x with
  | [] => None
  | p :: up =>
    if f_left p
    then Some (mk_loc (lc_l x) (lc_v x) (Node (lc_r x) (f_value p) (f_other p)) up)
    else Some (mk_loc (Node (f_other p) (f_value p) (lc_l x)) (lc_v x) (lc_r x) up)
  end.

(** Pointer to the parent of a node (field parent, picoquic/picosplay.h 34-36). *)
Definition parent_loc {A} (x : loc A) : option (loc A) :=
  match lc_up x with
  | [] => None
  | p :: up =>
    if f_left p
    then Some (mk_loc (Node (lc_l x) (lc_v x) (lc_r x)) (f_value p) (f_other p) up)
    else Some (mk_loc (f_other p) (f_value p) (Node (lc_l x) (lc_v x) (lc_r x)) up)
  end.

(** Pointer to the left ([true]) or right child (fields left and right,
    picoquic/picosplay.h 34-36). *)
Definition child_loc {A} (left : bool) (x : loc A) : option (loc A) :=
  match (if left then lc_l x else lc_r x) with
  | Leaf => None
  | Node l v r => Some (mk_loc l v r
      (mk_frame left (lc_v x) (if left then lc_r x else lc_l x) :: lc_up x))
  end.

(** picoquic/picosplay.c 60-62, zig. *)
Definition zig {A} (x : loc A) : option (loc A) := rotate x.

(** picoquic/picosplay.c 67-70, zigzig: rotate the parent, then the node, which
    is still the same child of its parent ([left]). *)
Definition zigzig {A} (left : bool) (x : loc A) : option (loc A) :=
  match parent_loc x with
  | None => None
  | Some p =>
    match rotate p with
    | None => None
    | Some p' => match child_loc left p' with None => None | Some x' => rotate x' end
    end
  end.

(** picoquic/picosplay.c 75-78, zigzag. *)
Definition zigzag {A} (x : loc A) : option (loc A) :=
  match rotate x with None => None | Some x' => rotate x' end.

(** picoquic/picosplay.c 40-57, splay: the loop ends when the node is the root.
    [fuel] bounds the iterations; [None] when exhausted (excluded in
    Splay_proofs.v). *)
Fixpoint splay_loop {A} (fuel : nat) (x : loc A) : option (loc A) :=
  match fuel with
  | O => None
  | S n =>
    match lc_up x with
    | [] => Some x
    | [_] => match zig x with Some x' => splay_loop n x' | None => None end
    | p :: g :: _ =>
      match (if Bool.eqb (f_left p) (f_left g) then zigzig (f_left p) x else zigzag x) with
      | Some x' => splay_loop n x'
      | None => None
      end
    end
  end.

(** picoquic/picosplay.c 40-57: [None] never happens. *)
Definition splay {A} (x : loc A) : option (tree A) :=
  match splay_loop (S (length (lc_up x))) x with
  | Some x' => Some (Node (lc_l x') (lc_v x') (lc_r x'))
  | None => None
  end.

(** picoquic/picosplay.c 115-133: descent of the insertion, returning the
    location of the new leaf node.  Equal values go right. *)
Fixpoint insert_loc {A} (cmp : A -> A -> Z) (v : A) (curr : tree A) (up : list (frame A)) : loc A :=
  match curr with
  | Leaf => mk_loc Leaf v Leaf up
  | Node l c r =>
    if (cmp v c <? 0)%Z then insert_loc cmp v l (mk_frame true c r :: up)
    else insert_loc cmp v r (mk_frame false c l :: up)
  end.

(** picoquic/picosplay.c 102-138, picosplay_insert; creation always succeeds. *)
Definition insert {A} (cmp : A -> A -> Z) (v : A) (t : tree A) : option (tree A) :=
  splay (insert_loc cmp v t []).

(** picoquic/picosplay.c 143-154: descent of the search. *)
Fixpoint find_loc {A} (cmp : A -> A -> Z) (v : A) (curr : tree A) (up : list (frame A)) : option (loc A) :=
  match curr with
  | Leaf => None
  | Node l c r =>
    let relation := cmp v c in
    if (relation =? 0)%Z then Some (mk_loc l c r up)
    else if (relation <? 0)%Z then find_loc cmp v l (mk_frame true c r :: up)
    else find_loc cmp v r (mk_frame false c l :: up)
  end.

(** picoquic/picosplay.c 141-162, picosplay_find: the node found, and the tree,
    splayed when there is one. *)
Definition find {A} (cmp : A -> A -> Z) (v : A) (t : tree A) : option (option A * tree A) :=
  match find_loc cmp v t [] with
  | None => Some (None, t)
  | Some x => match splay x with Some t' => Some (Some (lc_v x), t') | None => None end
  end.

(** picoquic/picosplay.c 165-186, picosplay_find_previous. *)
Fixpoint find_previous {A} (cmp : A -> A -> Z) (v : A) (curr : tree A) (previous : option A) : option A :=
  match curr with
  | Leaf => previous
  | Node l c r =>
    let relation := cmp v c in
    if (relation =? 0)%Z then Some c
    else if (relation <? 0)%Z then find_previous cmp v l previous
    else find_previous cmp v r (Some c)
  end.

(** picoquic/picosplay.c 207-213: removal of the leftmost node of a non-empty
    right subtree; returns its value and the rest. *)
Fixpoint remove_leftmost {A} (l : tree A) (v : A) (r : tree A) : A * tree A :=
  match l with
  | Leaf => (v, r)
  | Node ll lv lr => let '(m, l') := remove_leftmost ll lv lr in (m, Node l' v r)
  end.

(** picoquic/picosplay.c 199-218: removal of the root. *)
Definition delete_root {A} (t : tree A) : tree A :=
  match t with
  | Leaf => Leaf
  | Node l _ r =>
    match l, r with
    | Leaf, _ => r
    | _, Leaf => l
    | _, Node rl rv rr => let '(m, r') := remove_leftmost rl rv rr in Node l m r'
    end
  end.

(** picoquic/picosplay.c 195-222, picosplay_delete_hint on a node of the tree. *)
Definition delete_hint {A} (x : loc A) : option (tree A) :=
  match splay x with Some t => Some (delete_root t) | None => None end.

(** picoquic/picosplay.c 189-192, picosplay_delete: after the search the node
    is the root, so that the second splay changes nothing. *)
Definition delete {A} (cmp : A -> A -> Z) (v : A) (t : tree A) : option (tree A) :=
  match find cmp v t with
  | None => None
  | Some (None, t') => Some t'
  | Some (Some _, t') =>
    match t' with
    | Leaf => None
    | Node l c r => delete_hint (mk_loc l c r [])
    end
  end.

(** picoquic/picosplay.c 320-327 and 330-337, leftmost and rightmost. *)
Fixpoint leftmost {A} (t : tree A) : option A :=
  match t with
  | Leaf => None
  | Node Leaf v _ => Some v
  | Node l _ _ => leftmost l
  end.

(** picoquic/picosplay.c 330-337, rightmost. *)
Fixpoint rightmost {A} (t : tree A) : option A :=
  match t with
  | Leaf => None
  | Node _ v Leaf => Some v
  | Node _ _ r => rightmost r
  end.

(** picoquic/picosplay.c 233-235 and 258-260, picosplay_first and picosplay_last. *)
Definition first {A} (t : tree A) : option A := leftmost t.
Definition last_node {A} (t : tree A) : option A := rightmost t.

(** picoquic/picosplay.c 241-243 and 253-255: climb to the first ancestor that has
    us on the given side. *)
Fixpoint climb {A} (from_left : bool) (up : list (frame A)) : option A :=
  match up with
  | [] => None
  | f :: up' => if Bool.eqb (f_left f) from_left then Some (f_value f) else climb from_left up'
  end.

(** picoquic/picosplay.c 237-244, picosplay_previous. *)
Definition previous {A} (x : loc A) : option A :=
  match lc_l x with
  | Leaf => climb false (lc_up x)
  | t => rightmost t
  end.

(** picoquic/picosplay.c 250-256, picosplay_next. *)
Definition next {A} (x : loc A) : option A :=
  match lc_r x with
  | Leaf => climb true (lc_up x)
  | t => leftmost t
  end.

(** Number of nodes of a subtree and the location of the node of rank [k]: used
    to say which node pointer an operation receives (no counterpart in C). *)
Fixpoint tsize {A} (t : tree A) : nat :=
  match t with Leaf => O | Node l _ r => tsize l + S (tsize r) end.

(** The node pointer of rank [k] (no counterpart in C, see above). *)
Fixpoint node_at {A} (k : nat) (t : tree A) (up : list (frame A)) : option (loc A) :=
  match t with
  | Leaf => None
  | Node l v r =>
    match Nat.compare k (tsize l) with
    | Lt => node_at k l (mk_frame true v r :: up)
    | Eq => Some (mk_loc l v r up)
    | Gt => node_at (k - tsize l - 1) r (mk_frame false v l :: up)
    end
  end.

(** Operations that change the tree; [OpDeleteNode k] is picosplay_delete_hint
    on the node of rank [k]. *)
Inductive splay_op (A : Type) :=
| OpInsert (v : A)
| OpFind (v : A)
| OpDelete (v : A)
| OpDeleteNode (k : nat).
Arguments OpInsert {A} _.
Arguments OpFind {A} _.
Arguments OpDelete {A} _.
Arguments OpDeleteNode {A} _.

(** picoquic/picosplay.h 43-50, the tree with its size field (int, unbounded here). *)
Record stree (A : Type) := mk_stree { st_tree : tree A; st_size : N }.
Arguments mk_stree {A} _ _.
Arguments st_tree {A} _.
Arguments st_size {A} _.

(** One operation with the update of the size field (picosplay.c 134, 221). *)
Definition splay_step {A} (cmp : A -> A -> Z) (s : stree A) (o : splay_op A) : option (stree A) :=
  match o with
  | OpInsert v => option_map (fun t => mk_stree t (st_size s + 1)) (insert cmp v (st_tree s))
  | OpFind v => option_map (fun x => mk_stree (snd x) (st_size s)) (find cmp v (st_tree s))
  | OpDelete v =>
    option_map (fun t => mk_stree t
       (match find_loc cmp v (st_tree s) [] with Some _ => st_size s - 1 | None => st_size s end))
      (delete cmp v (st_tree s))
  | OpDeleteNode k =>
    match node_at k (st_tree s) [] with
    | None => Some s
    | Some x => option_map (fun t => mk_stree t (st_size s - 1)) (delete_hint x)
    end
  end.

(** A history from the empty tree (picosplay.c 81-88, picosplay_init_tree). *)
Fixpoint splay_run {A} (cmp : A -> A -> Z) (s : stree A) (ops : list (splay_op A)) : option (stree A) :=
  match ops with
  | [] => Some s
  | o :: ops' => match splay_step cmp s o with Some s' => splay_run cmp s' ops' | None => None end
  end.

(** picoquic/picosplay.c 81-88. *)
Definition empty_tree {A} : stree A := mk_stree Leaf 0.

(** Conversion of a 64-bit unsigned value to int64_t (two's complement, as on
    the supported compilers). *)
Definition to_int64 (x : N) : Z :=
  if x <? 2 ^ 63 then Z.of_N x else (Z.of_N x - 2 ^ 64)%Z.

(** picoquic/sacks.c 47-53, picoquic/quicctx.c 3153-3157 and 3223-3227: difference
    of two uint64_t returned as int64_t. *)
Definition sub_compare (l r : N) : Z := to_int64 ((l + two64 - r) mod two64).

(** picoquic/quicctx.c 1355-1361, picoquic_wake_list_compare. *)
Definition wake_compare (l r : N) : Z :=
  if l <? r then (-1)%Z else if r <? l then 1%Z else 0%Z.

(** picoquic/quicctx.c 520-541, picoquic_registered_token_compare on pairs of
    token time and token hash. *)
Definition token_compare (l r : N * N) : Z :=
  if fst l =? fst r then
    (if snd r <? snd l then 1%Z else if snd l <? snd r then (-1)%Z else 0%Z)
  else if fst r <? fst l then 1%Z else (-1)%Z.
