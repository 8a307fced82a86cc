(** Model of the lists of connections of a context and of their wake times,
    picoquic/quicctx.c (definitions only).  Connections are numbers; the wake time of a
    connection is kept with its node in the tree: it is only changed while the node is out
    of the tree (quicctx.c 1392-1397, 3891-3894). *)
From Verif Require Import Base Splay_model.

(** A node of the wake tree: the connection and its next_wake_time. *)
Notation node := (N * N)%type.

(** picoquic/quicctx.c 1355-1361, picoquic_wake_list_compare. *)
Definition by_wake (l r : node) : Z := wake_compare (snd l) (snd r).

(** picoquic/picoquic_internal.h 600-660: the tree, the list of connections from cnx_list
    to cnx_last, current_number_connections, and whether a stateless packet waits. *)
Record ctx := mk_ctx { x_tree : tree node; x_list : list N; x_count : N; x_stateless : bool }.

(** A new context. *)
Definition ctx0 : ctx := mk_ctx Leaf [] 0 false.

(** picoquic/quicctx.c 1363-1366: the node that is part of a connection, if it is in the tree. *)
Fixpoint node_of (c : N) (t : tree node) (up : list (frame node)) : option (loc node) :=
  match t with
  | Leaf => None
  | Node l v r =>
    if fst v =? c then Some (mk_loc l v r up)
    else
      match node_of c l (mk_frame true v r :: up) with
      | Some x => Some x
      | None => node_of c r (mk_frame false v l :: up)
      end
  end.

(** picoquic/quicctx.c 1382-1385, picoquic_remove_cnx_from_wake_list.  A node that is not in
    the tree is zero (quicctx.c 1374, 3854): picosplay.c 40-45 makes it the root, and lines
    199-202 then replace the root by its right child, NULL. *)
Definition remove_wake (c : N) (t : tree node) : option (tree node) :=
  match node_of c t [] with
  | Some x => delete_hint x
  | None => Some Leaf
  end.

(** picoquic/quicctx.c 1387-1390, picoquic_insert_cnx_by_wake_time. *)
Definition insert_wake (c time : N) (t : tree node) : option (tree node) := insert by_wake (c, time) t.

(** picoquic/quicctx.c 1392-1397, picoquic_reinsert_by_wake_time. *)
Definition reinsert (c time : N) (x : ctx) : option ctx :=
  match remove_wake c (x_tree x) with
  | None => None
  | Some t => option_map (fun t => mk_ctx t (x_list x) (x_count x) (x_stateless x)) (insert_wake c time t)
  end.

(** picoquic/quicctx.c 1312-1325, picoquic_insert_cnx_in_list; 32 bits. *)
Definition list_insert (c : N) (x : ctx) : ctx :=
  mk_ctx (x_tree x) (c :: x_list x) ((x_count x + 1) mod 2 ^ 32) (x_stateless x).

(** picoquic/quicctx.c 1327-1346, picoquic_remove_cnx_from_list without the tables.  The links
    of a connection that is not in the list are NULL: both ends of the list become NULL. *)
Definition list_remove (c : N) (x : ctx) : ctx :=
  mk_ctx (x_tree x) (if existsb (N.eqb c) (x_list x) then filter (fun d => negb (d =? c)) (x_list x) else [])
    ((x_count x + 2 ^ 32 - 1) mod 2 ^ 32) (x_stateless x).

(** picoquic/quicctx.c 4775-4868, picoquic_delete_cnx: the lists. *)
Definition delete_cnx (c : N) (x : ctx) : option ctx :=
  let x := list_remove c x in
  option_map (fun t => mk_ctx t (x_list x) (x_count x) (x_stateless x)) (remove_wake c (x_tree x)).

(** picoquic/quicctx.c 3845-3895, picoquic_create_cnx: the lists; [ok]: the connection id
    and the path could be created. *)
Definition create_cnx (c time : N) (ok : bool) (x : ctx) : option ctx :=
  if ok then
    let x := list_insert c x in
    option_map (fun t => mk_ctx t (x_list x) (x_count x) (x_stateless x)) (insert_wake c time (x_tree x))
  else delete_cnx c x.

(** picoquic/quicctx.c 1399-1408, picoquic_get_earliest_cnx_to_wake. *)
Definition earliest (x : ctx) (max : N) : option node :=
  match first (x_tree x) with
  | None => None
  | Some n => if negb (max =? 0) && (max <? snd n) then None else Some n
  end.

(** picoquic/quicctx.c 1410-1427, picoquic_get_next_wake_time. *)
Definition next_wake_time (x : ctx) (now : N) : N :=
  if x_stateless x then now
  else match first (x_tree x) with None => max64 | Some n => snd n end.

(** picoquic/quicctx.c 1429-1453, picoquic_get_next_wake_delay, and 1468-1486,
    picoquic_get_wake_delay, from the wake time on. *)
Definition delay_to (wake now : N) (max : Z) : Z :=
  if now <? wake then
    let delta := u64 (Z.to_N ((Z.of_N now + max) mod 2 ^ 64)%Z) in
    if delta <=? wake then max else to_int64 (wake - now)
  else 0%Z.

(** picoquic/quicctx.c 1429-1453. *)
Definition next_wake_delay (x : ctx) (now : N) (max : Z) : Z := delay_to (next_wake_time x now) now max.

(** Calls of the application and of the stack: a connection is created or fails to be, is
    given a wake time, or is deleted. *)
Inductive wop :=
| WCreate (c time : N)
| WFail (c : N)
| WSet (c time : N)
| WDelete (c : N).

(** One of them. *)
Definition wstep (x : ctx) (o : wop) : option ctx :=
  match o with
  | WCreate c t => create_cnx c t true x
  | WFail c => create_cnx c 0 false x
  | WSet c t => reinsert c t x
  | WDelete c => delete_cnx c x
  end.

(** A history. *)
Fixpoint wrun (ops : list wop) (x : ctx) : option ctx :=
  match ops with
  | [] => Some x
  | o :: r => match wstep x o with None => None | Some x' => wrun r x' end
  end.

(** picoquic/sender.c 4162-4208, picoquic_prepare_next_packet_ex without stateless packets:
    the connection that is asked for a packet, and the context after it; [next]: the wake time
    that it sets (sender.c 4078), or [None]: it is deleted (line 4195). *)
Definition poll (now : N) (next : option N) (x : ctx) : option (option N * ctx) :=
  match earliest x now with
  | None => Some (None, x)
  | Some (c, _) =>
    match (match next with Some t => reinsert c t x | None => delete_cnx c x end) with
    | None => None
    | Some x' => Some (Some c, x')
    end
  end.

(** Successive polls: the connections asked. *)
Fixpoint polls (l : list (N * option N)) (x : ctx) : option (list N * ctx) :=
  match l with
  | [] => Some ([], x)
  | (now, next) :: r =>
    match poll now next x with
    | None => None
    | Some (c, x') =>
      match polls r x' with
      | None => None
      | Some (cs, x'') => Some (match c with Some c => c :: cs | None => cs end, x'')
      end
    end
  end.
