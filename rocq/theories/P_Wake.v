(** Property C60: the context asks its connections in the order of their wake times, each of them is
    asked in turn, and the time to wait is the time to the next of them. *)
From Coq Require Import Permutation.
From Verif Require Import Base Splay_model Splay_spec Wake_model Wake_spec Wake_proofs.

(** Example: four connections; the first changes its time, the third is deleted. *)
Definition ex_ops : list wop := [WCreate 1 10; WCreate 2 20; WCreate 3 10; WCreate 4 20; WSet 1 20; WDelete 3].
Definition ex_live : list (N * N) := [(2, 20); (4, 20); (1, 20)].

Lemma ex_alive : alive ex_ops ex_live.
Proof.
  assert (A : alive [] []) by constructor.
  apply (alive_create _ _ 1 10) in A; [|intros [t []]].
  apply (alive_create _ _ 2 20) in A; [|intros [t [H|[]]]; discriminate].
  apply (alive_create _ _ 3 10) in A; [|intros [t [H|[H|[]]]]; discriminate].
  apply (alive_create _ _ 4 20) in A; [|intros [t [H|[H|[H|[]]]]]; discriminate].
  apply (alive_set _ _ 1 20) in A; [|exists 10; left; reflexivity].
  apply (alive_delete _ _ 3) in A; [|exists 10; right; left; reflexivity].
  exact A.
Qed.

Definition ex_ctx : ctx := match wrun ex_ops ctx0 with Some x => x | None => ctx0 end.

(** Whatever connections are created, given other wake times and deleted: no step is undefined, the
    list and the tree hold exactly the live connections, each once, with the last wake time that was
    set; the tree is in the order of the times, those of a same time in the order in which it was set;
    and the number of connections is right. *)
Theorem C60_lists : forall ops l, alive ops l -> exists x, wrun ops ctx0 = Some x /\
  Permutation (x_list x) (map fst l) /\ NoDup (x_list x) /\ x_count x = N.of_nat (length l) mod 2 ^ 32 /\
  Permutation (inorder (x_tree x)) l /\ ordered (fun n m => (Z.of_N (snd n) - Z.of_N (snd m))%Z) (inorder (x_tree x)) /\
  forall t, filter (fun n => snd n =? t) (inorder (x_tree x)) = filter (fun n => snd n =? t) l.
Proof. exact lists_right. Qed.
Print Assumptions C60_lists.

Example C60_lists_ex : alive ex_ops ex_live /\ wrun ex_ops ctx0 = Some ex_ctx /\
  inorder (x_tree ex_ctx) = [(2, 20); (4, 20); (1, 20)] /\ x_list ex_ctx = [4; 2; 1] /\ x_count ex_ctx = 3.
Proof. split; [exact ex_alive|]. vm_compute. repeat split. Qed.

(** The connection that is asked is the first of those with the least wake time, and it is due, unless
    the time is 0; none is asked only if none is due. *)
Theorem C60_earliest : forall ops l x max, alive ops l -> wrun ops ctx0 = Some x ->
  match earliest x max with
  | Some n => soonest l n /\ (max = 0 \/ snd n <= max)
  | None => forall n, In n l -> max < snd n
  end.
Proof. exact earliest_right. Qed.
Print Assumptions C60_earliest.

Example C60_earliest_ex : alive ex_ops ex_live /\ wrun ex_ops ctx0 = Some ex_ctx /\
  earliest ex_ctx 20 = Some (2, 20) /\ earliest ex_ctx 19 = None.
Proof. split; [exact ex_alive|]. vm_compute. repeat split. Qed.

(** The time to wait is the time to the next wake time, at least 0 and at most what was asked, for times
    of the clock below 2^62 and delays below 2^63; with no connection, what was asked. *)
Theorem C60_delay : forall ops l x now max, alive ops l -> wrun ops ctx0 = Some x ->
  now < 2 ^ 62 -> (0 <= max < 2 ^ 63)%Z ->
  (l = [] -> next_wake_delay x now max = max) /\
  forall n, soonest l n ->
    next_wake_delay x now max = Z.min max (Z.max 0 (Z.of_N (snd n) - Z.of_N now)) /\
    next_wake_time x now = snd n.
Proof. exact delay_right. Qed.
Print Assumptions C60_delay.

Example C60_delay_ex : alive ex_ops ex_live /\ wrun ex_ops ctx0 = Some ex_ctx /\ soonest ex_live (2, 20) /\
  next_wake_delay ex_ctx 13 100 = 7%Z /\ next_wake_delay ex_ctx 13 5 = 5%Z /\ next_wake_delay ex_ctx 30 5 = 0%Z.
Proof.
  split; [exact ex_alive|]. split; [vm_compute; reflexivity|]. split; [|vm_compute; repeat split].
  exists [], [(4, 20); (1, 20)]. split; [reflexivity|]. split; [intros m []|].
  intros m [<-|[<-|[]]]; cbn; lia.
Qed.

(** A stateless packet that waits: no delay. *)
Theorem C60_stateless : forall x now max, x_stateless x = true -> next_wake_delay x now max = 0%Z.
Proof. exact stateless_now. Qed.
Print Assumptions C60_stateless.

Example C60_stateless_ex : next_wake_delay (mk_ctx Leaf [] 0 true) 13 100 = 0%Z.
Proof. apply C60_stateless. reflexivity. Qed.

(** No connection is starved: polls at times at which a connection is due, of which each one sets a wake
    time no earlier than itself or deletes the connection that it asks, ask that connection after at most
    as many polls as there were connections with the same or an earlier wake time, itself included. *)
Theorem C60_served : forall ops l x ps c t, alive ops l -> wrun ops ctx0 = Some x -> In (c, t) l ->
  (length (filter (fun n => N.leb (snd n) t) l) <= length ps)%nat ->
  (forall now next, In (now, next) ps -> t <= now /\ forall w, next = Some w -> now <= w) ->
  exists cs x', polls ps x = Some (cs, x') /\ In c cs.
Proof. exact served. Qed.
Print Assumptions C60_served.

Definition ex_polls : list (N * option N) := [(20, Some 20); (20, None); (20, Some 20)].

Example C60_served_ex : alive ex_ops ex_live /\ wrun ex_ops ctx0 = Some ex_ctx /\ In (1, 20) ex_live /\
  length (filter (fun n => N.leb (snd n) 20) ex_live) = length ex_polls /\
  (forall now next, In (now, next) ex_polls -> 20 <= now /\ forall w, next = Some w -> now <= w) /\
  option_map fst (polls ex_polls ex_ctx) = Some [2; 4; 1].
Proof.
  split; [exact ex_alive|]. split; [vm_compute; reflexivity|]. split; [right; right; left; reflexivity|].
  split; [reflexivity|]. split; [|vm_compute; reflexivity].
  intros now next [H|[H|[H|[]]]]; injection H as <- <-; (split; [lia|]); intros w E; try discriminate; injection E as <-; lia.
Qed.

(** A creation that fails (no memory, or no local connection id that is not in use among 32 tries,
    quicctx.c 3609-3675) deletes the new connection as if it were in the lists (quicctx.c 3885-3888):
    whatever was alive, both lists become empty, and the number of connections is one too small. *)
Theorem C60_failed_create : forall ops l x c, alive ops l -> ~ is_alive c l -> wrun ops ctx0 = Some x ->
  exists x', wstep x (WFail c) = Some x' /\ x_tree x' = Leaf /\ x_list x' = [] /\
    x_count x' = (N.of_nat (length l) + 2 ^ 32 - 1) mod 2 ^ 32.
Proof. exact failed_forgets. Qed.
Print Assumptions C60_failed_create.

Example C60_failed_create_ex : alive ex_ops ex_live /\ ~ is_alive 9 ex_live /\ wrun ex_ops ctx0 = Some ex_ctx.
Proof.
  split; [exact ex_alive|]. split; [intros [t [H|[H|[H|[]]]]]; discriminate|]. vm_compute. reflexivity.
Qed.

(** FINDING: a creation that fails makes the context forget the other connections: three connections are
    alive and due, and after it none is ever asked for a packet, none is in the list of connections (they
    are not even freed with the context), and the time to wait is the longest. *)
Theorem C60_failed_create_refuted : exists ops l x, alive ops l /\ length l = 3%nat /\
  wrun (ops ++ [WFail 9]) ctx0 = Some x /\ earliest x 1000 = None /\ x_list x = [] /\ x_count x = 2 /\
  next_wake_delay x 1000 5000 = 5000%Z.
Proof.
  exists ex_ops, ex_live. eexists. split; [exact ex_alive|]. split; [reflexivity|].
  split; [vm_compute; reflexivity|]. vm_compute. repeat split.
Qed.
Print Assumptions C60_failed_create_refuted.

(** FINDING: when the first creation fails, the number of connections becomes 2^32 - 1; every Initial
    packet is then refused as "server busy" (packet.c 114-117) until a connection is created otherwise. *)
Theorem C60_count_refuted : exists x, wrun [WFail 1] ctx0 = Some x /\ x_list x = [] /\ x_count x = 2 ^ 32 - 1.
Proof. eexists. split; [vm_compute; reflexivity|]. split; vm_compute; reflexivity. Qed.
Print Assumptions C60_count_refuted.

(** FINDING: time 0 means "no limit": a poll at time 0 (where simulated clocks start) asks a connection
    that is not due. *)
Theorem C60_due_refuted : exists ops l x n, alive ops l /\ wrun ops ctx0 = Some x /\
  earliest x 0 = Some n /\ 0 < snd n.
Proof.
  exists ex_ops, ex_live, ex_ctx, (2, 20). split; [exact ex_alive|]. split; [vm_compute; reflexivity|].
  split; [vm_compute; reflexivity|]. cbn. lia.
Qed.
Print Assumptions C60_due_refuted.
