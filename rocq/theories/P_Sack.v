(** Properties C04 and C05: the record of received packet numbers. *)
From Verif Require Import Base Sack_model Sack_spec Sack_proofs.

(** After any history of receptions (and of ACK transmissions) a number is
    reported as received exactly if it was recorded. *)
Theorem C04_record_exact : forall ops q,
  Forall valid_op ops -> (forall a b, ~ In (OpAckOfAck a b) ops) ->
  (is_pn_already_received (sack_run 0 ops) q = true <-> recorded ops q).
Proof. exact record_exact. Qed.
Print Assumptions C04_record_exact.

Example C04_record_exact_ex :
  let ops := [OpUpdate 5 5 1; OpUpdate 3 3 2; OpSent false 1; OpUpdate 4 4 3; OpUpdate 9 9 4] in
  Forall valid_op ops /\ (forall a b, ~ In (OpAckOfAck a b) ops) /\
  ranges (sack_run 0 ops) = [(3, 5); (9, 9)].
Proof.
  split; [repeat constructor; vm_compute; congruence|]. split; [|reflexivity].
  intros a b H. cbn in H. intuition discriminate.
Qed.

(** In every history, also with acknowledged ACKs, the stored ranges are
    sorted, disjoint and not adjacent. *)
Theorem C04_ranges_separated : forall ops,
  Forall valid_op ops -> separated (ranges (sack_run 0 ops)).
Proof. exact record_separated. Qed.
Print Assumptions C04_ranges_separated.

Example C04_ranges_separated_ex :
  let ops := [OpUpdate 0 7 1; OpUpdate 20 25 2; OpUpdate 30 31 2; OpAckOfAck 20 25; OpUpdate 22 22 3] in
  Forall valid_op ops /\ ranges (sack_run 0 ops) = [(0, 7); (22, 22); (30, 31)].
Proof. split; [repeat constructor; vm_compute; congruence|reflexivity]. Qed.

(** In every history no number is reported that was not recorded. *)
Theorem C04_never_invents : forall ops q, Forall valid_op ops ->
  is_pn_already_received (sack_run 0 ops) q = true -> recorded ops q.
Proof. exact record_never_invents. Qed.
Print Assumptions C04_never_invents.

Example C04_never_invents_ex :
  is_pn_already_received (sack_run 0 [OpUpdate 0 7 1; OpUpdate 20 25 2; OpAckOfAck 0 7]) 21 = true.
Proof. reflexivity. Qed.

(** In every history the highest recorded number is remembered, and is the
    reference used to restore truncated packet numbers. *)
Theorem C04_highest_kept : forall ops, Forall valid_op ops ->
  forall q, recorded ops q -> (forall r, recorded ops r -> r <= q) ->
  sack_list_last (sack_run 0 ops) = q /\ is_pn_already_received (sack_run 0 ops) q = true.
Proof. exact last_is_max. Qed.
Print Assumptions C04_highest_kept.

Example C04_highest_kept_ex :
  sack_list_last (sack_run 0 [OpUpdate 4 4 1; OpUpdate 2 2 1; OpAckOfAck 4 4; OpAckOfAck 2 2]) = 4.
Proof. reflexivity. Qed.

(** Recording a number answers "duplicate" exactly when it is reported as
    received already. *)
Theorem C04_duplicate_report : forall ops pn t, Forall valid_op ops -> pn < 2 ^ 64 - 1 ->
  snd (record_pn_received (sack_run 0 ops) pn t) =
  if is_pn_already_received (sack_run 0 ops) pn then 1 else 0.
Proof. exact update_reports_duplicate. Qed.
Print Assumptions C04_duplicate_report.

Example C04_duplicate_report_ex :
  snd (record_pn_received (sack_run 0 [OpUpdate 4 4 1; OpUpdate 2 2 1]) 2 5) = 1 /\
  snd (record_pn_received (sack_run 0 [OpUpdate 4 4 1; OpUpdate 2 2 1]) 3 5) = 0.
Proof. split; reflexivity. Qed.

(** The repeat counters used to choose the ACK ranges are exact in every
    history. *)
Theorem C04_counters_exact : forall ops j, j < 4 ->
  let s := sack_run 0 ops in
  rc0 (sl_rc s) j = cntf nb0 (sl_items s) j /\ rc1 (sl_rc s) j = cntf nb1 (sl_items s) j.
Proof. exact counts_exact. Qed.
Print Assumptions C04_counters_exact.

Example C04_counters_exact_ex :
  rc0 (sl_rc (sack_run 0 [OpUpdate 4 4 1; OpUpdate 2 2 1; OpSent false 1; OpUpdate 8 8 1])) 0 = 2%Z.
Proof. reflexivity. Qed.

(** C05, what holds: a recorded number stays refused as long as no acknowledged
    ACK range contained it.  Missing: the same after such an acknowledgement. *)
Theorem C05_no_reaccept_partial : forall ops q,
  Forall valid_op ops -> recorded ops q -> ~ ack_acked ops q ->
  is_pn_already_received (sack_run 0 ops) q = true.
Proof. exact record_kept. Qed.
Print Assumptions C05_no_reaccept_partial.

Example C05_no_reaccept_partial_ex :
  let ops := [OpUpdate 0 4 1; OpUpdate 6 8 1; OpUpdate 10 10 2; OpAckOfAck 6 8] in
  Forall valid_op ops /\ recorded ops 3 /\ ~ ack_acked ops 3.
Proof.
  split; [repeat constructor; vm_compute; congruence|]. split.
  - exists 0, 4, 1. split; [cbn; tauto|vm_compute; split; congruence].
  - intros (a & b & H & Hq). cbn in H.
    destruct H as [H|[H|[H|[H|[]]]]]; try discriminate. inversion H; subst. lia.
Qed.

(** C05 itself is false: after the peer acknowledged an ACK, a number that was
    received is reported as new and would be processed a second time.  This holds for
    the configuration of the library (no horizon) and also with a horizon. *)
Theorem C05_replay_refuted : forall delay, (delay = 0 \/ delay = 1000)%Z ->
  exists ops q, Forall valid_op ops /\ recorded ops q /\
    is_pn_already_received (sack_run delay ops) q = false.
Proof. exact replay_accepted. Qed.
Print Assumptions C05_replay_refuted.
