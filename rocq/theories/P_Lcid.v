(** Property C61: the connection ids that an endpoint issues: sequence numbers, the limit of the peer,
    routing, retirement and expiry. *)
From Coq Require Import Sorted.
From Verif Require Import Base Lcid_model Lcid_spec Lcid_proofs Lcidb_proofs.

(** Example: ids of 8 bytes that live 100, a peer that accepts 4; another connection has an id. *)
Definition ex_conf : conf := mk_conf 8 100 4.
Definition ex_rnd (s : N) (i j : nat) : cid := [s; N.of_nat i; N.of_nat j; 0; 0; 0; 0; 0].
Definition ex_table : list (cid * N) := [([9; 9; 9; 9; 9; 9; 9; 9], 7)].
Definition ex_ops : list lop :=
  [LCreate (ex_rnd 1 0) 10; LSend (ex_rnd 2) 20 1000 60; LRetire (Some 0) 1; LSend (ex_rnd 3) 30 1000 1200;
   LOther [8; 8] 6; LSend (ex_rnd 4) 125 1000 1200].
Definition ex_state : lids := match lrun ex_conf (lids0 ex_table) ex_ops with inl (k, _) => k | inr _ => lids0 [] end.
Definition ex_frames : list frame := match lrun ex_conf (lids0 ex_table) ex_ops with inl (_, f) => f | inr _ => [] end.

Lemma ex_others : others ex_table.
Proof. split; [repeat constructor; intros []|]. intros i o [H|[]]. congruence. Qed.

Lemma ex_occurs : occurs ex_conf 0 (ex_ops ++ [LSend (ex_rnd 5) 140 1000 1200]).
Proof. cbn -[N.pow]. repeat split; try lia; intros; reflexivity. Qed.

Lemma ex_occurs' : occurs ex_conf 0 ex_ops.
Proof. cbn -[N.pow]. repeat split; try lia; intros; reflexivity. Qed.

Lemma ex_run : lrun ex_conf (lids0 ex_table) ex_ops = inl (ex_state, ex_frames).
Proof. vm_compute. reflexivity. Qed.

(** After every history: the ids are in the order of their sequence numbers, which are all below the next
    one, and of the times of creation; the counts are those of the ids and of the ids to be retired; no id
    is in use twice; and a packet is given to this connection exactly if it carries one of its ids. *)
Theorem C61_state : forall c t tb ops k fs, others tb -> 0 < c_len c -> occurs c t ops ->
  lrun c (lids0 tb) ops = inl (k, fs) ->
  StronglySorted (fun l m => l_seq l < l_seq m /\ l_time l <= l_time m) (k_cids k) /\
  (forall l, In l (k_cids k) -> l_seq l < k_next k) /\ k_before k <= k_next k /\
  k_nb k = Z.of_nat (length (k_cids k)) /\
  k_expired k = (Z.of_nat (length (k_cids k)) - Z.of_nat (length (usable k)))%Z /\
  NoDup (map fst (k_table k)) /\ NoDup (map l_id (k_cids k)) /\
  forall i, cnx_by_id (k_table k) i = Some 0 <-> In i (map l_id (k_cids k)).
Proof. exact state_right. Qed.
Print Assumptions C61_state.

Example C61_state_ex : others ex_table /\ 0 < c_len ex_conf /\ occurs ex_conf 0 ex_ops /\
  lrun ex_conf (lids0 ex_table) ex_ops = inl (ex_state, ex_frames) /\
  map l_seq (k_cids ex_state) = [0; 2; 3; 4; 5; 6] /\ k_before ex_state = 3 /\ k_nb ex_state = 6%Z /\ k_expired ex_state = 2%Z /\
  map f_seq ex_frames = [1; 2; 3; 4; 5; 6] /\ map f_before ex_frames = [0; 0; 0; 0; 3; 3] /\
  cnx_by_id (k_table ex_state) [9; 9; 9; 9; 9; 9; 9; 9] = Some 7.
Proof.
  split; [exact ex_others|]. split; [reflexivity|]. split; [exact ex_occurs'|]. split; [exact ex_run|].
  vm_compute. repeat split.
Qed.

(** Preparing a packet: the frames that are added have consecutive sequence numbers from the next one, and
    retire a prefix that is never beyond their own number, exactly the ids that are too old; each
    announces an id that routes to this connection, and the ids of others are not touched.  What the peer may use
    never goes above its limit (nor above nine), and reaches it if there is space. *)
Theorem C61_send : forall c t tb ops k fs0 rnd now wake space k' fs full wake', others tb -> 0 < c_len c ->
  occurs c t (ops ++ [LSend rnd now wake space]) -> lrun c (lids0 tb) ops = inl (k, fs0) ->
  as_needed c rnd now wake space k = inl (k', fs, full, wake') ->
  k_cids k' = k_cids k ++ map (fun f => mk_lcid (f_seq f) now (f_id f)) fs /\
  map f_seq fs = numbers (k_next k) (length fs) /\ k_next k' = k_next k + N.of_nat (length fs) /\
  (forall f, In f fs -> f_before f = k_before k' /\ f_before f <= f_seq f) /\
  (forall l, In l (k_cids k) -> (l_seq l < k_before k' <-> c_ttl c <= now - l_time l)) /\
  (forall i o, o <> 0 -> (cnx_by_id (k_table k') i = Some o <-> cnx_by_id (k_table k) i = Some o)) /\
  let young := Z.of_nat (length (filter (fun l => N.ltb (now - l_time l) (c_ttl c)) (k_cids k))) in
  let top := Z.max young (Z.min (int32 (c_limit c)) 9) in
  Z.of_nat (length (usable k')) = (young + Z.of_nat (length fs))%Z /\
  (Z.of_nat (length (usable k')) <= top)%Z /\ (full = false -> Z.of_nat (length (usable k')) = top).
Proof. exact send_right. Qed.
Print Assumptions C61_send.

Example C61_send_ex : others ex_table /\ 0 < c_len ex_conf /\ occurs ex_conf 0 (ex_ops ++ [LSend (ex_rnd 5) 140 1000 1200]) /\
  lrun ex_conf (lids0 ex_table) ex_ops = inl (ex_state, ex_frames) /\
  match as_needed ex_conf (ex_rnd 5) 140 1000 1200 ex_state with
  | inl (k, fs, full, wake) => map (fun f => (f_seq f, f_before f)) fs = [(7, 5); (8, 5)] /\ full = false /\ length (usable k) = 4%nat
  | inr _ => False
  end.
Proof.
  split; [exact ex_others|]. split; [reflexivity|]. split; [exact ex_occurs|]. split; [exact ex_run|].
  vm_compute. repeat split.
Qed.

(** Preparing a packet ends and is defined, while the limit of the peer and the number of ids are below 2^31. *)
Theorem C61_defined : forall c t tb ops k fs0 rnd now wake space, others tb -> 0 < c_len c ->
  occurs c t (ops ++ [LSend rnd now wake space]) -> lrun c (lids0 tb) ops = inl (k, fs0) -> c_limit c < 2 ^ 32 ->
  (Z.max 8 (int32 (c_limit c)) + Z.of_nat (length (k_cids k)) < 2 ^ 31)%Z ->
  exists r, as_needed c rnd now wake space k = inl r.
Proof. exact send_defined. Qed.
Print Assumptions C61_defined.

Example C61_defined_ex : c_limit ex_conf < 2 ^ 32 /\
  (Z.max 8 (int32 (c_limit ex_conf)) + Z.of_nat (length (k_cids ex_state)) < 2 ^ 31)%Z.
Proof. vm_compute. split; reflexivity. Qed.

(** Over a whole connection, once its first ids exist: what the peer may use stays below its limit, and the frames
    sent carry consecutive sequence numbers, none of them twice. *)
Theorem C61_limit : forall c t tb ops0 ops k0 fs0 k fs, others tb -> 0 < c_len c -> occurs c t (ops0 ++ ops) ->
  lrun c (lids0 tb) ops0 = inl (k0, fs0) -> lrun c k0 ops = inl (k, fs) ->
  Forall (fun o => match o with LCreate _ _ => False | _ => True end) ops ->
  (Z.of_nat (length (usable k)) <= Z.max (Z.of_nat (length (usable k0))) (Z.min (int32 (c_limit c)) 9))%Z /\
  map f_seq fs = numbers (k_next k0) (length fs).
Proof. exact limit_right. Qed.
Print Assumptions C61_limit.

Example C61_limit_ex : occurs ex_conf 0 ([hd (LGone []) ex_ops] ++ tl ex_ops) /\
  (exists k0 fs0 k fs, lrun ex_conf (lids0 ex_table) [hd (LGone []) ex_ops] = inl (k0, fs0) /\
    lrun ex_conf k0 (tl ex_ops) = inl (k, fs) /\ length (usable k0) = 1%nat /\ length fs = 6%nat /\ length (usable k) = 4%nat) /\
  Forall (fun o => match o with LCreate _ _ => False | _ => True end) (tl ex_ops).
Proof.
  split; [exact ex_occurs'|]. split; [|repeat constructor].
  do 4 eexists. split; [vm_compute; reflexivity|]. split; [vm_compute; reflexivity|]. vm_compute. repeat split.
Qed.

(** The wake time is not put off, and is no later than the expiry of the ids, unless this call has looked for
    ids that are too old. *)
Theorem C61_wake : forall c t tb ops k fs0 rnd now wake space k' fs full wake', others tb -> 0 < c_len c ->
  occurs c t (ops ++ [LSend rnd now wake space]) -> lrun c (lids0 tb) ops = inl (k, fs0) ->
  as_needed c rnd now wake space k = inl (k', fs, full, wake') -> now <= wake < 2 ^ 64 ->
  wake' <= wake /\
  (c_ttl c <= now - k_oldest k \/ forall l, In l (usable k) -> wake' <= l_time l + c_ttl c).
Proof. exact wake_right. Qed.
Print Assumptions C61_wake.

Example C61_wake_ex : lrun ex_conf (lids0 ex_table) (firstn 5 ex_ops) <> inr false /\
  match lrun ex_conf (lids0 ex_table) (firstn 5 ex_ops) with
  | inl (k, _) => match as_needed ex_conf (ex_rnd 5) 40 1000 1200 k with inl (_, _, _, w) => w = 110 | inr _ => False end
  | inr _ => False
  end.
Proof. vm_compute. split; [discriminate|reflexivity]. Qed.

(** A RETIRE_CONNECTION_ID frame removes exactly the id of that number: packets that carry it are no longer
    given to this connection, and nothing else changes; the id of the path of the packet cannot be retired. *)
Theorem C61_retire : forall c t tb ops k fs0 cur seq, others tb -> 0 < c_len c ->
  occurs c t ops -> lrun c (lids0 tb) ops = inl (k, fs0) ->
  (cur = Some seq -> on_retire cur seq k = (k, false)) /\
  (cur <> Some seq -> snd (on_retire cur seq k) = true /\
    k_cids (fst (on_retire cur seq k)) = filter (fun l => negb (l_seq l =? seq)) (k_cids k) /\
    (forall i, cnx_by_id (k_table (fst (on_retire cur seq k))) i =
      if existsb (fun l => (l_seq l =? seq) && same_cid (l_id l) i) (k_cids k) then None else cnx_by_id (k_table k) i)).
Proof. exact retire_right. Qed.
Print Assumptions C61_retire.

Example C61_retire_ex : occurs ex_conf 0 ex_ops /\ lrun ex_conf (lids0 ex_table) ex_ops = inl (ex_state, ex_frames) /\
  map l_seq (k_cids (fst (on_retire (Some 0) 3 ex_state))) = [0; 2; 4; 5; 6] /\ snd (on_retire (Some 3) 3 ex_state) = false.
Proof. split; [exact ex_occurs'|]. split; [exact ex_run|]. vm_compute. split; reflexivity. Qed.

(** With ids of zero bytes no frame is sent. *)
Theorem C61_zero : forall ops c k k' fs, c_len c = 0 -> lrun c k ops = inl (k', fs) -> fs = [].
Proof. exact zero_none. Qed.
Print Assumptions C61_zero.

Example C61_zero_ex : exists k, lrun (mk_conf 0 100 4) (lids0 ex_table) ex_ops = inl (k, []).
Proof. eexists. vm_compute. reflexivity. Qed.

(** FINDING: a RETIRE_CONNECTION_ID frame for a number that was never sent is accepted; RFC 9000, 19.16:
    it must be treated as a connection error. *)
Theorem C61_unissued_refuted : exists c t tb ops k fs seq, others tb /\ 0 < c_len c /\ occurs c t ops /\
  lrun c (lids0 tb) ops = inl (k, fs) /\ k_next k <= seq /\ snd (on_retire (Some 0) seq k) = true.
Proof.
  exists ex_conf, 0, ex_table, ex_ops, ex_state, ex_frames, 77. split; [exact ex_others|]. split; [reflexivity|].
  split; [exact ex_occurs'|]. split; [exact ex_run|]. vm_compute. split; [discriminate|reflexivity].
Qed.
Print Assumptions C61_unissued_refuted.

(** FINDING: the limit of the peer is converted to an int (transport.c 705, sender.c 2580): a peer that
    accepts 2^31 ids is given none, although there is space. *)
Theorem C61_limit_refuted : exists c t tb ops k fs, others tb /\ 0 < c_len c /\ c_limit c = 2 ^ 31 /\ occurs c t ops /\
  lrun c (lids0 tb) ops = inl (k, fs) /\ length (k_cids k) = 1%nat /\
  match as_needed c (ex_rnd 2) 20 1000 1200 k with inl (_, fs', full, _) => fs' = [] /\ full = false | inr _ => False end.
Proof.
  exists (mk_conf 8 100 (2 ^ 31)), 0, ex_table, [LCreate (ex_rnd 1 0) 10]. do 2 eexists.
  split; [exact ex_others|]. split; [reflexivity|]. split; [reflexivity|].
  split; [cbn -[N.pow]; repeat split; try lia; intros; reflexivity|]. split; [vm_compute; reflexivity|].
  vm_compute. repeat split.
Qed.
Print Assumptions C61_limit_refuted.

(** FINDING: a peer that accepts 2^31 - 1 ids makes the sum of the limit and of the number of expired ids
    overflow an int, when an id expires (sender.c 2580). *)
Theorem C61_overflow_refuted : exists c t tb ops k fs, others tb /\ 0 < c_len c /\ occurs c t ops /\
  lrun c (lids0 tb) ops = inl (k, fs) /\ as_needed c (ex_rnd 2) 200 1000 1200 k = inr false.
Proof.
  exists (mk_conf 8 100 (2 ^ 31 - 1)), 0, ex_table, [LCreate (ex_rnd 1 0) 10]. do 2 eexists.
  split; [exact ex_others|]. split; [reflexivity|].
  split; [cbn -[N.pow]; repeat split; try lia; intros; reflexivity|]. split; [vm_compute; reflexivity|].
  vm_compute. reflexivity.
Qed.
Print Assumptions C61_overflow_refuted.

(** FINDING: ids that are too old are kept until the peer retires them, and are replaced meanwhile: with a
    peer that accepts 4 and retires none, each life time adds 4 ids, and 24 are kept after six. *)
Theorem C61_growth_refuted : exists c t tb ops k fs, others tb /\ 0 < c_len c /\ c_limit c = 4 /\ occurs c t ops /\
  lrun c (lids0 tb) ops = inl (k, fs) /\ length (k_cids k) = 24%nat /\ length (usable k) = 4%nat.
Proof.
  exists ex_conf, 0, ex_table, (LCreate (ex_rnd 1 0) 10 ::
    map (fun i => LSend (ex_rnd (2 + i)) (10 + 100 * i) 10000 1200) [0; 1; 2; 3; 4; 5]). do 2 eexists.
  split; [exact ex_others|]. split; [reflexivity|]. split; [reflexivity|].
  split; [cbn -[N.pow]; repeat split; try lia; intros; reflexivity|]. split; [vm_compute; reflexivity|].
  vm_compute. repeat split.
Qed.
Print Assumptions C61_growth_refuted.
