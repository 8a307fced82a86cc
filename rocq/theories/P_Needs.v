(** C20: frames whose loss would leave the peer without information are repeated.
    C47: the acknowledgement of a packet removes exactly the information it carried. *)
From Verif Require Import Base Varint_model Varint_spec Sack_model Sack_spec Ack_model Ack_spec Frames_model Frames_spec
  Frames5_proofs Header_model Stream_model Needs_model Needs_spec Needs3_proofs Needs4_proofs Needs6_proofs Needs7_proofs.

(** A lost frame that carries outstanding information is reported as needing repetition,
    without error.  Missing for the full claim: RESET_STREAM, PATH_RESPONSE, ACK_FREQUENCY,
    MAX_PATH_ID and PATHS_BLOCKED frames, for which it is false (below). *)
Theorem C20_checked_partial : forall c pt f b, conn_ok c -> carries_frames pt -> sframe_ok f -> sent_as f b -> loss_handled f ->
  needed c pt f -> check_needs c pt b = Some (true, false).
Proof. exact frame_checked. Qed.
Print Assumptions C20_checked_partial.

(** Of the frames that carry information, only those whose information is outstanding
    are repeated. *)
Theorem C20_exact_partial : forall c pt f b, conn_ok c -> carries_frames pt -> sframe_ok f -> sent_as f b -> loss_handled f ->
  was_sent c f -> (exists i, carries pt f i) ->
  (check_needs c pt b = Some (true, false) <-> needed c pt f).
Proof. exact frame_exact. Qed.
Print Assumptions C20_exact_partial.

(** When a packet is lost, every frame of it whose information is outstanding is copied
    to the new packet or queued; STREAM frames have the packet queued for repetition. *)
Theorem C20_packet_partial : forall c pt force room fs l, conn_ok c -> carries_frames pt -> payload fs l ->
  exists kept queued b qs stream,
    copy_before_retransmit c pt false force room l = COk (mk_cf b qs stream) /\
    bytes_of kept b /\ Forall2 sent_as queued qs /\ blen b <= room /\
    (force = true -> kept = []) /\
    (forall f, In f kept \/ In f queued -> In f fs /\ is_stream f = false) /\
    (stream = true -> exists f, In f fs /\ is_stream f = true) /\
    (forall f, In f fs -> loss_handled f -> needed c pt f ->
      if is_stream f then stream = true else In f kept \/ In f queued).
Proof. exact copy_packet. Qed.
Print Assumptions C20_packet_partial.

(** When a packet is repeated preemptively, it is marked so only if every frame whose
    information is outstanding is in the new packet. *)
Theorem C20_preemptive_partial : forall c pt room fs l, conn_ok c -> carries_frames pt -> payload fs l ->
  exists nb marked, preemptive_retransmit c pt room l = Some (nb, marked) /\ blen nb <= room /\
    (marked = true -> forall f, In f fs -> loss_handled f -> needed c pt f -> holds f nb /\
      (forall sid off fin d, f = SStream true sid off fin d -> blen nb = room /\ exists pre b, nb = pre ++ b /\ sent_as f b)).
Proof. exact preemptive_packet. Qed.
Print Assumptions C20_preemptive_partial.

(** A packet with PADDING, MAX_DATA, a new connection id of path 1 and the end of stream 16:
    MAX_DATA 60000 is outdated, the others are outstanding. *)
Definition ex_cid : wframe := WNewCid (Some 1) 4 0 [1;2;3;4;5;6;7;8] (repeat 9 16).
Definition ex_frames : list sframe :=
  [SRun 0 4; SCtl (WMaxData 60000); SCtl ex_cid; SStream true 16 40 true (repeat 7 60)].
Definition ex_bytes : list N :=
  repeat 0 5 ++ frame_bytes (WMaxData 60000) ++ frame_bytes ex_cid ++ ([8 + 4 + 1; 16; 40] ++ repeat 7 60) ++ [].

Lemma ex_payload : payload ex_frames ex_bytes.
Proof.
  unfold ex_frames, ex_bytes.
  apply pl_cons; [left; reflexivity|reflexivity| |discriminate|intros t n E; injection E as <- _; vm_compute; discriminate].
  apply pl_cons; [repeat split; vm_compute; discriminate|exists 1200; vm_compute; reflexivity| |discriminate|discriminate].
  apply pl_cons; [|exists 1200; vm_compute; reflexivity| |discriminate|discriminate].
  { split; [|exact I]. vm_compute. repeat split; first [reflexivity|discriminate|repeat constructor]. }
  apply pl_cons; [|exists true, [16], [40], []; split; [|split; [|split; reflexivity]]|constructor|reflexivity|discriminate].
  - split; [vm_compute; reflexivity|]. split; [repeat constructor|left; reflexivity].
  - exact (Varint_proofs.varint_bytes_is_varint 16 eq_refl).
  - exact (Varint_proofs.varint_bytes_is_varint 40 eq_refl).
Qed.

Example C20_ex : conn_ok ex_conn /\ payload ex_frames ex_bytes /\
  needed ex_conn Pt1rtt (SCtl ex_cid) /\ needed ex_conn Pt1rtt (SStream true 16 40 true (repeat 7 60)) /\
  ~ needed ex_conn Pt1rtt (SCtl (WMaxData 60000)) /\
  copy_before_retransmit ex_conn Pt1rtt false false 1200 ex_bytes = COk (mk_cf (frame_bytes ex_cid) [] true) /\
  copy_before_retransmit ex_conn Pt1rtt false true 1200 ex_bytes = COk (mk_cf [] [frame_bytes ex_cid] true) /\
  match preemptive_retransmit ex_conn Pt1rtt 110 ex_bytes with Some (nb, marked) => blen nb = 110 /\ marked = true | None => False end.
Proof.
  split; [exact ex_conn_ok|]. split; [exact ex_payload|].
  split. { exists (KNewCid 1 4). split; [reflexivity|]. right; left; reflexivity. }
  split. { exists (KByte 16 60). split; [exists 60; split; [reflexivity|]; split; [vm_compute; discriminate|left; reflexivity]|].
           eexists. split; [right; left; reflexivity|]. split; [reflexivity|]. split; [reflexivity|]. split; [left; reflexivity|].
           intros (a & b & [E|[]] & H). vm_compute in E. injection E as <- <-. destruct H as [_ H]. apply H. reflexivity. }
  split. { intros (i & E & H). cbn in E. subst i. destruct H as [H _]. discriminate H. }
  split; [vm_compute; reflexivity|]. split; [vm_compute; reflexivity|]. vm_compute. split; reflexivity.
Qed.

(** False for RESET_STREAM: the id is read at the type byte, so the state of stream 4 is
    looked up and the frame is dropped.  Connection: stream 8 was reset, not acknowledged. *)
Theorem C20_reset_refuted : exists c f b, conn_ok c /\ payload [f] b /\ f = SCtl (WReset 8 0 100) /\ needed c Pt1rtt f /\
  copy_before_retransmit c Pt1rtt false false 1200 b = COk (mk_cf [] [] false).
Proof. exact reset_lost. Qed.
Print Assumptions C20_reset_refuted.

(** False for MAX_PATH_ID: the frame that carries the current limit is "not needed". *)
Theorem C20_max_path_id_refuted : exists c f b, conn_ok c /\ payload [f] b /\ f = SCtl (WMaxPathId 8) /\ needed c Pt1rtt f /\
  copy_before_retransmit c Pt1rtt false false 1200 b = COk (mk_cf [] [] false).
Proof. exact max_path_id_lost. Qed.
Print Assumptions C20_max_path_id_refuted.

(** False for PATHS_BLOCKED. *)
Theorem C20_paths_blocked_refuted : exists c f b, conn_ok c /\ payload [f] b /\ f = SCtl (WPathsBlocked 6) /\ needed c Pt1rtt f /\
  copy_before_retransmit c Pt1rtt false false 1200 b = COk (mk_cf [] [] false).
Proof. exact paths_blocked_lost. Qed.
Print Assumptions C20_paths_blocked_refuted.

(** False for ACK_FREQUENCY: only outdated ones would be repeated. *)
Theorem C20_ack_frequency_refuted : exists c f b, conn_ok c /\ payload [f] b /\ f = SCtl (WAckFrequency 5 2 1000 1) /\ needed c Pt1rtt f /\
  copy_before_retransmit c Pt1rtt false false 1200 b = COk (mk_cf [] [] false).
Proof. exact ack_frequency_lost. Qed.
Print Assumptions C20_ack_frequency_refuted.

(** False for PATH_RESPONSE. *)
Theorem C20_path_response_refuted : exists c f b, conn_ok c /\ payload [f] b /\ f = SCtl (WPathResponse 77) /\ needed c Pt1rtt f /\
  copy_before_retransmit c Pt1rtt false false 1200 b = COk (mk_cf [] [] false).
Proof. exact path_response_lost. Qed.
Print Assumptions C20_path_response_refuted.

(** When a packet is acknowledged, what is outstanding afterwards is what was outstanding
    before and is not in the packet; the connection stays consistent.  Missing for the full
    claim: packets with MAX_PATH_ID, PATHS_BLOCKED, PATH_CIDS_BLOCKED, OBSERVED_ADDRESS or
    PATH_RETIRE_CONNECTION_ID, for which it is false (below). *)
Theorem C47_exact_partial : forall c pt path fs l, conn_ok c -> carries_frames pt -> payload fs l -> Forall ack_handled fs ->
  exists c', process_ack_of_frames c pt path l = AOk c' true /\ conn_ok c' /\
    forall i, tracked i -> (outstanding c' i <-> outstanding c i /\ ~ exists f, In f fs /\ gives pt f i).
Proof. exact ack_packet. Qed.
Print Assumptions C47_exact_partial.

(** Same packet: once it is acknowledged, its bytes of stream 16 and the connection id are
    no longer outstanding. *)
Example C47_ex : conn_ok ex_conn /\ payload ex_frames ex_bytes /\ Forall ack_handled ex_frames /\
  outstanding ex_conn (KByte 16 60) /\ gives Pt1rtt (SStream true 16 40 true (repeat 7 60)) (KByte 16 60) /\
  match process_ack_of_frames ex_conn Pt1rtt (Some 0) ex_bytes with
  | AOk c all => all = true /\ map (fun s => ranges (n_sack s)) (nc_streams c) = [[]; [(0, 100)]] /\
      nc_local c = [(0, 0, true); (1, 4, true)]
  | _ => False
  end.
Proof.
  split; [exact ex_conn_ok|]. split; [exact ex_payload|]. split; [repeat constructor|].
  split. { eexists. split; [right; left; reflexivity|]. split; [reflexivity|]. split; [reflexivity|]. split; [left; reflexivity|].
           intros (a & b & [E|[]] & H). vm_compute in E. injection E as <- <-. destruct H as [_ H]. apply H. reflexivity. }
  split. { exists 60. split; [reflexivity|]. split; [vm_compute; discriminate|left; reflexivity]. }
  vm_compute. repeat split.
Qed.

(** The acknowledgement of MAX_PATH_ID followed by MAX_DATA: the value 8 is read as the type
    of a STREAM frame, and bytes of stream 16 that are in no acknowledged packet are
    recorded as received. *)
Theorem C47_max_path_id_refuted : exists c fs l sid pos c' all, conn_ok c /\ payload fs l /\ outstanding c (KByte sid pos) /\
  (forall f, In f fs -> ~ gives Pt1rtt f (KByte sid pos)) /\
  process_ack_of_frames c Pt1rtt (Some 0) l = AOk c' all /\ ~ outstanding c' (KByte sid pos).
Proof. exact ack_max_path_id_wrong. Qed.
Print Assumptions C47_max_path_id_refuted.

(** The acknowledgement of PATH_RETIRE_CONNECTION_ID does not retire the id. *)
Theorem C47_path_retire_refuted : exists c f l c' all, conn_ok c /\ payload [f] l /\ f = SCtl (WRetireCid (Some 1) 3) /\
  outstanding c (KRetireCid 1 3) /\
  process_ack_of_frames c Pt1rtt (Some 0) l = AOk c' all /\ outstanding c' (KRetireCid 1 3).
Proof. exact ack_path_retire_wrong. Qed.
Print Assumptions C47_path_retire_refuted.

(** The acknowledgement of OBSERVED_ADDRESS dereferences the path of the packet, NULL when
    that path was deleted. *)
Theorem C47_observed_refuted : exists c f l, conn_ok c /\ payload [f] l /\ f = SCtl (WObservedAddress false 0 [10;0;0;1] 4433) /\
  process_ack_of_frames c Pt1rtt None l = AUndef.
Proof. exact ack_observed_wrong. Qed.
Print Assumptions C47_observed_refuted.

(** The acknowledgement of an empty CRYPTO frame at offset 0 acknowledges every position. *)
Theorem C47_empty_crypto_refuted : exists c w room l c', conn_ok c /\ w = WCrypto 0 [] /\ wframe_ok w /\ write_frame w room = Some l /\
  outstanding c (KCrypto 2 700) /\
  process_ack_of_frames c PtHandshake (Some 0) l = AOk c' true /\ ~ outstanding c' (KCrypto 2 700).
Proof. exact ack_empty_crypto_wrong. Qed.
Print Assumptions C47_empty_crypto_refuted.
