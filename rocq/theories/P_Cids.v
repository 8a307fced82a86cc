(** C30, C31: the connection ids of the peer, and the validation of tuples. *)
From Verif Require Import Base Mem Varint_model Cids_model Cids_spec Cids_proofs Cids2_proofs Cids3_proofs Cids5_proofs Cids6_proofs Cids7_proofs Cids8_proofs.

(** C31: after any history, the ids stored for a path differ in their numbers, their bytes
    and their secrets; and each of them is the first one, or was given by the peer for this
    path with this number and this secret. *)
Theorem C31_consistent : forall mp limit mx ml mr id secret chal evs cn out,
  1 <= limit -> reaches mp limit mx ml mr id secret chal evs cn out ->
  (forall p e1 e2, stored cn p e1 -> stored cn p e2 -> rc_seq e1 = rc_seq e2 \/ rc_id e1 = rc_id e2 \/ rc_secret e1 = rc_secret e2 -> e1 = e2) /\
  (forall p e, stored cn p e -> (p = 0 /\ rc_seq e = 0 /\ rc_id e = id /\ rc_secret e = secret) \/ issued evs p (rc_seq e) (rc_id e) (rc_secret e)).
Proof. exact reaches_consistent. Qed.
Print Assumptions C31_consistent.

Definition ex_history : list event :=
  [ex_new false 0 1 0; ex_new false 0 2 0; ex_new false 0 2 0; ETuple 0 (7, 8, 9); EChallenge 0 1; EResponse 0 7; ex_new false 0 3 2; EAck 0 0; ESend 0 0; ESend 0 1].
Example C31_consistent_ex :
  match run (ex_cn false false 4) ex_history with
  | Some (cn, out) =>
    out = [OChallenge 4 7; OSend [12;0;2;2]; OSend [10;10;10;10]] /\
    map rc_seq (flat_map sh_list (cn_stashes cn)) = [0; 1; 2; 3] /\ used cn = [3; 0] /\ cn_retires cn = [(0, 1)]
  | None => False
  end.
Proof. vm_compute. repeat split. Qed.

(** A well formed frame that shares its number, its id or its secret with a stored id
    without being the same is a protocol violation (error 10); a repeated frame changes
    nothing; any other frame is stored exactly when there is room for it, and is otherwise
    an error (9).  (Frames that raise Retire Prior To are in [C31_retire_prior_to].) *)
Theorem C31_frame : forall mp limit mx ml mr id0 secret0 chal evs cn out is_mp p seq before id secret e0 s,
  1 <= limit -> reaches mp limit mx ml mr id0 secret0 chal evs cn out -> path_rcid cn 0 = Some e0 -> blen (rc_id e0) <> 0 ->
  well_formed cn is_mp p seq before id -> In s (cn_stashes cn) -> sh_path s = p ->
  let e := ENew is_mp p seq before id secret in
  (forall x, stored cn p x -> conflicts x seq id secret -> exists cn', step cn e = Some (cn', [OError 10])) /\
  (forall x, stored cn p x -> repeated x seq id secret -> before <= sh_before s -> step cn e = Some (cn, [])) /\
  ((forall x, stored cn p x -> ~ conflicts x seq id secret /\ ~ repeated x seq id secret) ->
   let room := N.of_nat (length (sh_list s)) < 2 * limit /\ N.of_nat (length (filter (fun x => negb ((rc_seq x <? N.max before (sh_before s)) || rc_sent x)) (sh_list s))) < limit in
   (~ room -> exists cn', step cn e = Some (cn', [OError 9])) /\
   (room -> before <= sh_before s -> exists cn', step cn e = Some (cn', []) /\ exists x, stored cn' p x /\ repeated x seq id secret)).
Proof. exact reaches_frame. Qed.
Print Assumptions C31_frame.

Example C31_frame_ex :
  let out e := match run (ex_cn false false 2) [ex_new false 0 1 0; e] with Some (_, o) => o | None => [OError 0] end in
  out (ENew false 0 1 0 [5;5;5;5] (repeat 8 16)) = [OError 10] /\
  out (ENew false 0 2 0 [11;0;1;1] (repeat 8 16)) = [OError 10] /\
  out (ENew false 0 2 0 [5;5;5;5] (repeat 51 16)) = [OError 10] /\
  out (ex_new false 0 1 0) = [] /\ out (ex_new false 0 2 0) = [OError 9] /\ out (ex_new false 0 2 1) = [].
Proof. vm_compute. repeat split. Qed.

(** The store never exceeds its limits: at most [limit] ids that are not given back, and at
    most twice as many in all. *)
Theorem C31_limit : forall mp limit mx ml mr id secret chal evs cn out s,
  1 <= limit -> reaches mp limit mx ml mr id secret chal evs cn out -> In s (cn_stashes cn) ->
  N.of_nat (length (sh_list s)) <= 2 * limit /\ N.of_nat (length (active s)) <= limit.
Proof. exact reaches_limit. Qed.
Print Assumptions C31_limit.

Example C31_limit_ex :
  match run (ex_cn false false 2) [ex_new false 0 1 0; ex_new false 0 2 1; ex_new false 0 3 2] with
  | Some (cn, out) => map (fun s => (length (sh_list s), length (active s))) (cn_stashes cn) = [(4%nat, 2%nat)] /\ out = []
  | None => False
  end.
Proof. vm_compute. repeat split. Qed.

(** No id is used by two tuples. *)
Theorem C31_one_tuple : forall mp limit mx ml mr id secret chal evs cn out,
  1 <= limit -> 1 <= blen id -> reaches mp limit mx ml mr id secret chal evs cn out -> NoDup (used cn).
Proof. exact reaches_one_tuple. Qed.
Print Assumptions C31_one_tuple.

Example C31_one_tuple_ex :
  match run (ex_cn true false 4) [ex_new false 0 1 0; ex_new true 1 0 0; EPath 1 (4, 5, 6); ETuple 0 (7, 8, 9)] with
  | Some (cn, out) => used cn = [0; 2; 3]
  | None => False
  end.
Proof. vm_compute. repeat split. Qed.

(** Without multipath, and as long as retired ids do not come back: after a frame that raises
    Retire Prior To and is not an error, the ids below it are all marked, and given back
    unless a tuple still counts on them, and the first tuple has a newer id. *)
Theorem C31_retire_prior_to : forall limit mx ml mr id0 secret0 chal evs cn out seq before id secret cn',
  1 <= limit -> 1 <= blen id0 -> let e := ENew false 0 seq before id secret in numbers (evs ++ [e]) -> no_return (evs ++ [e]) ->
  reaches false limit mx ml mr id0 secret0 chal evs cn out ->
  (forall s, In s (cn_stashes cn) -> sh_path s = 0 -> sh_before s < before) ->
  step cn e = Some (cn', []) -> retired_below cn' before.
Proof. exact retire_prior_to. Qed.
Print Assumptions C31_retire_prior_to.

Example C31_retire_prior_to_ex :
  match run (ex_cn false false 4) [ex_new false 0 1 0; ex_new false 0 2 0; ex_new false 0 3 2] with
  | Some (cn, out) =>
    out = [] /\ cn_retires cn = [(0, 1); (0, 0)] /\ map sh_before (cn_stashes cn) = [2] /\
    map (fun e => (rc_seq e, rc_removal e, rc_sent e)) (flat_map sh_list (cn_stashes cn)) = [(0, true, true); (1, true, true); (2, false, false); (3, false, false)] /\
    match path_rcid cn 0 with Some e => rc_seq e = 2 | None => False end
  | None => False
  end.
Proof. vm_compute. repeat split. Qed.

(** Without multipath, and as long as retired ids do not come back, no history makes the
    code follow a null pointer or a pointer to an id that was freed. *)
Theorem C31_safe : forall limit mx ml mr id secret chal evs,
  1 <= limit -> 1 <= blen id -> numbers evs -> no_return evs ->
  exists cn out, reaches false limit mx ml mr id secret chal evs cn out.
Proof. exact reaches_safe. Qed.
Print Assumptions C31_safe.

Example C31_safe_ex : numbers ex_history /\ no_return ex_history.
Proof.
  split.
  - intros m p seq b id sc H. cbn in H. repeat destruct H as [H | H]; try contradiction; inversion H; subst; reflexivity.
  - cbn. repeat split; try exact I; intros m p b id sc H; repeat destruct H as [H | H]; try contradiction; discriminate H.
Qed.

(** The hypothesis is needed, and can fail with an honest peer, when a copy of a frame
    arrives late: an id that was given back is stored again, used again, and freed while it
    is in use by the second acknowledgement of the first RETIRE_CONNECTION_ID frame. *)
Theorem C31_safe_refuted : exists evs, numbers evs /\
  (forall m p b id sc, In (ENew m p 0 b id sc) evs -> id = ex_id0 /\ sc = ex_secret0) /\
  run (ex_cn false false 4) evs = None.
Proof.
  exists [ex_new false 0 1 0; ERenew 0; EAck 0 0; ENew false 0 0 0 ex_id0 ex_secret0; ERenew 0; EAck 0 0; ESend 0 0]. split; [| split].
  - intros m p seq b id sc H. cbn in H. repeat destruct H as [H | H]; try contradiction; inversion H; subst; reflexivity.
  - intros m p b id sc H. cbn in H. repeat destruct H as [H | H]; try contradiction; inversion H; subst; split; reflexivity.
  - vm_compute. reflexivity.
Qed.
Print Assumptions C31_safe_refuted.

(** Retired ids can come back: a frame with a number below Retire Prior To is stored like
    any other, nothing is given back, and the id is used (RFC 9000, 19.15: it must be given
    back at once). *)
Theorem C31_below_refuted : exists evs cn out e, run (ex_cn false false 4) evs = Some (cn, out) /\
  In e (flat_map sh_list (cn_stashes cn)) /\ (forall s, In s (cn_stashes cn) -> rc_seq e < sh_before s) /\
  rc_removal e = false /\ rc_sent e = false /\ ~ In (0, rc_seq e) (cn_retires cn) /\ In (rc_addr e) (used cn) /\ In (OSend (rc_id e)) out.
Proof.
  exists [ex_new false 0 5 5; ex_new false 0 2 0; ERenew 0; ESend 0 0].
  match goal with |- context[run ?c ?l] => destruct (run c l) as [[cn out] |] eqn:E; [| vm_compute in E; discriminate E] end.
  exists cn, out. vm_compute in E. inversion E; subst. clear E. eexists. split; [reflexivity |]. split; [right; right; left; reflexivity |].
  split; [intros s [<- | []]; reflexivity |]. repeat split; cbn; auto. intros [H | [H | []]]; discriminate H.
Qed.
Print Assumptions C31_below_refuted.

(** Over time one number can have two ids: when the first one was given back, a second one
    is stored without an error. *)
Theorem C31_reused_number_refuted : exists evs cn out e, run (ex_cn false false 4) evs = Some (cn, out) /\ out = [] /\
  In e (flat_map sh_list (cn_stashes cn)) /\ rc_seq e = 0 /\ rc_id e <> ex_id0.
Proof.
  exists [ex_new false 0 1 0; ERenew 0; EAck 0 0; ENew false 0 0 0 [9;9] (repeat 9 16)].
  match goal with |- context[run ?c ?l] => destruct (run c l) as [[cn out] |] eqn:E; [| vm_compute in E; discriminate E] end.
  exists cn, out. vm_compute in E. inversion E; subst. clear E. eexists. split; [reflexivity |]. split; [reflexivity |]. split; [right; left; reflexivity |].
  split; [reflexivity | discriminate].
Qed.
Print Assumptions C31_reused_number_refuted.

(** With multipath, acknowledgements do not free the ids that were given back: their frames
    are read at the wrong place.  The store fills up, and a peer that respects the limit (two
    ids, one of which is new each time that one was given back) gets an error. *)
Theorem C31_multipath_full_refuted : exists evs cn, run (ex_cn true false 2) evs = Some (cn, [OError 9]) /\
  cn_retires cn = [(0, 0); (0, 1); (0, 2)] /\ (forall q, q <= 2 -> In (EAck 0 q) evs) /\
  map rc_seq (flat_map sh_list (cn_stashes cn)) = [0; 1; 2; 3] /\ map (fun s => length (active s)) (cn_stashes cn) = [1%nat].
Proof.
  exists [ex_new false 0 1 0; ERenew 0; EAck 0 0; ex_new false 0 2 0; ERenew 0; EAck 0 1; ex_new false 0 3 0; ERenew 0; EAck 0 2; ex_new false 0 4 0].
  eexists. split; [vm_compute; reflexivity |]. split; [reflexivity |]. split.
  - intros q Hq. assert (Hc : q = 0 \/ q = 1 \/ q = 2) by (clear - Hq; Lia.lia). cbn. destruct Hc as [-> | [-> | ->]]; auto 12.
  - split; reflexivity.
Qed.
Print Assumptions C31_multipath_full_refuted.

(** With multipath, a path created before the peer gave an id for it has a null pointer,
    which the first frame with Retire Prior To follows; and so does a frame that crosses the
    end of its path. *)
Theorem C31_multipath_null_refuted :
  run (ex_cn true false 4) [EPath 1 (4, 5, 6); ex_new true 1 1 1] = None /\
  run (ex_cn true false 4) [ex_new true 1 0 0; EPath 1 (4, 5, 6); EDemote 1; ex_new true 1 1 1] = None.
Proof. vm_compute. split; reflexivity. Qed.
Print Assumptions C31_multipath_null_refuted.

(** With multipath, the end of a path frees its ids but only forgets that of the first tuple;
    a second tuple, validated later, has a pointer to a freed id. *)
Theorem C31_multipath_dangling_refuted :
  match run (ex_cn true false 4) [ex_new true 1 0 0; ex_new true 1 1 0; EPath 1 (4, 5, 6); ETuple 1 (7, 8, 9); EDemote 1; EChallenge 1 1; EResponse 1 7] with
  | Some (cn, _) => In 3 (used cn) /\ rcid_at cn 3 = None /\ step cn (ex_new true 1 2 1) = None
  | None => False
  end.
Proof. vm_compute. split; [right; left; reflexivity | split; reflexivity]. Qed.
Print Assumptions C31_multipath_dangling_refuted.

(** The id of a tuple that is deleted is never given back, not even when Retire Prior To asks
    for it: it keeps its reference, although no tuple uses it. *)
Theorem C31_deleted_tuple_refuted :
  match run (ex_cn false false 2) [ex_new false 0 1 0; ETuple 0 (7, 8, 9); EChallenge 0 1; EChallenge 0 1; EChallenge 0 1; EChallenge 0 1; EDeleteTuple 0 1; ex_new false 0 2 1; ex_new false 0 3 2] with
  | Some (cn, out) => exists e, In e (flat_map sh_list (cn_stashes cn)) /\ rc_seq e = 1 /\ rc_removal e = true /\ rc_refs e = 1 /\ ~ In (rc_addr e) (used cn) /\ ~ In (0, 1) (cn_retires cn)
  | None => False
  end.
Proof.
  vm_compute. eexists. split; [right; left; reflexivity |]. repeat split.
  - intros H. repeat destruct H as [H | H]; try contradiction; discriminate H.
  - intros H. repeat destruct H as [H | H]; try contradiction; discriminate H.
Qed.
Print Assumptions C31_deleted_tuple_refuted.

(** An endpoint that asked the peer not to migrate answers an honest Retire Prior To with an
    error. *)
Theorem C31_no_migration_refuted : exists cn, run (ex_cn false true 4) [ex_new false 0 1 1] = Some (cn, [OError 10]).
Proof. eexists. vm_compute. reflexivity. Qed.
Print Assumptions C31_no_migration_refuted.

(** A path demoted by an error of the network keeps using an id that must be given back. *)
Theorem C31_demoted_refuted : exists cn, run (ex_cn false false 4) [EDemote 0; ex_new false 0 1 1; ESend 0 0] = Some (cn, [OSend ex_id0]).
Proof. eexists. vm_compute. reflexivity. Qed.
Print Assumptions C31_demoted_refuted.

(** C30: in any history where the random challenges are all different and answers are not
    guessed (each of them repeats a challenge sent before, on any tuple), a tuple that is
    marked as verified is the first one of the connection, still with its first values, or
    an answer was received with a value that had been sent on this very tuple before. *)
Theorem C30_validated : forall mp limit mx ml mr id secret chal evs cn out,
  let cn0 := init_conn mp limit mx ml mr id secret chal in
  run cn0 evs = Some (cn, out) -> NoDup (chal_list chal ++ flat_map drawn evs) -> only_answers cn0 evs ->
  forall t, In t (tuples cn) -> tu_verified t = true -> (tu_addr t = 1 /\ tu_chal t = chal) \/ validated cn0 evs (tu_chal t) (tu_addr t).
Proof. exact reaches_vinv. Qed.
Print Assumptions C30_validated.

Example C30_validated_ex :
  only_answers (ex_cn false false 4) ex_history /\ NoDup (chal_list (1, 2, 3) ++ flat_map drawn ex_history) /\
  match run (ex_cn false false 4) ex_history with
  | Some (cn, _) => map (fun t => (tu_addr t, tu_verified t)) (tuples cn) = [(4, true); (1, true)]
  | None => False
  end.
Proof.
  split; [| split].
  - intros l1 i v l2 H. unfold ex_history in H.
    do 6 (destruct l1 as [| x l1]; [try discriminate H | injection H as <- H]);
      try (destruct l1 as [| x l1]; [discriminate H |]; repeat (destruct l1 as [| ? l1]; try discriminate H)).
    injection H as <- <- _. eexists _, _, 4. split; [vm_compute; reflexivity | left; reflexivity].
  - cbn. repeat constructor; cbn; intros H; repeat destruct H as [H | H]; try contradiction; discriminate H.
  - vm_compute. reflexivity.
Qed.

(** Without that hypothesis an answer may verify a tuple although nothing was sent on it:
    the answer is compared with all three values, also with those that were not sent. *)
Theorem C30_unsent_refuted : exists evs cn out t, run (ex_cn false false 4) evs = Some (cn, out) /\
  NoDup (chal_list (1, 2, 3) ++ flat_map drawn evs) /\ In t (tuples cn) /\ tu_addr t <> 1 /\ tu_verified t = true /\ forall v, ~ In (OChallenge (tu_addr t) v) out.
Proof.
  exists [ex_new false 0 1 0; ETuple 0 (7, 8, 9); EResponse 0 9].
  match goal with |- context[run ?c ?l] => destruct (run c l) as [[cn out] |] eqn:E; [| vm_compute in E; discriminate E] end.
  exists cn, out. vm_compute in E. inversion E; subst. clear E. eexists. split; [reflexivity |]. split.
  - cbn. repeat constructor; cbn; intros H; repeat destruct H as [H | H]; try contradiction; discriminate H.
  - split; [left; reflexivity |]. split; [discriminate |]. split; [reflexivity |]. intros v [].
Qed.
Print Assumptions C30_unsent_refuted.
