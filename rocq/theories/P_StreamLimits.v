(** Properties C12, C14, C15 and C21: flow control of received data, credits, opening
    of streams, final sizes. *)
From Verif Require Import Base Reasm_model Reasm_spec Stream_model Stream_spec Stream3_proofs Stream4_proofs.

(** Connection used in the examples: server, limits of 100 bytes per stream, 8
    streams of each type, 150 bytes in total. *)
Definition lim_par : params := mk_params 100 100 100 70 80 90.
Definition lim_cnx : scnx := scnx0 false lim_par 8 8 150 1000 29 31.

(** After every history the offset recorded for a stream is the highest offset
    claimed by its STREAM and RESET_STREAM frames, and is within the limit; the
    limit never exceeds what was advertised. *)
Theorem C12_stream_within_limit : forall client p nb nu md mdr br ur ops c s,
  srun (scnx0 client p nb nu md mdr br ur) ops = Some (c, true) -> In s (k_streams c) ->
  rx_fin_offset (s_rx s) = highest (ends_of (s_id s) ops) /\
  highest (ends_of (s_id s) ops) <= rx_maxdata (s_rx s) /\
  rx_maxdata (s_rx s) <= N.max (init_recv client p (s_id s)) (highest (stream_credit (s_id s) ops)).
Proof. exact stream_within_limit. Qed.
Print Assumptions C12_stream_within_limit.

Example C12_stream_within_limit_ex :
  match srun lim_cnx [OpStream 0 20 false [1; 2]; OpStream 0 3 false [1]; OpSendMaxStreamData 0 120; OpReset 0 110] with
  | Some (c, true) => map (fun s => (rx_fin_offset (s_rx s), rx_maxdata (s_rx s))) (k_streams c) = [(110, 120)]
  | _ => False end.
Proof. vm_compute. repeat split. Qed.

(** After every history the connection total is the sum, over the streams ever opened,
    of their highest offset: for a stream that is still there the highest offset
    claimed in the whole history, for a deleted stream the highest one claimed up to
    some point.  A stream that is not opened had no frame. *)
Theorem C12_total_is_sum : forall client p nb nu md mdr br ur ops c,
  srun (scnx0 client p nb nu md mdr br ur) ops = Some (c, true) ->
  exists h, NoDup (opened c) /\ k_rcvd c = total_of (map h (opened c)) /\
    (forall s, In s (k_streams c) -> h (s_id s) = highest (ends_of (s_id s) ops)) /\
    (forall sid, In sid (opened c) -> exists a b, ops = a ++ b /\ h sid = highest (ends_of sid a)) /\
    (forall sid, ~ In sid (opened c) -> ends_of sid ops = []).
Proof. exact data_accounting. Qed.
Print Assumptions C12_total_is_sum.

Example C12_total_is_sum_ex :
  match srun lim_cnx [OpStream 4 20 false [1; 2]; OpStream 0 3 true []; OpStream 0 0 false [7; 7; 7];
     OpTxSent 0 (mk_tx true true false false false true); OpTxAcked 0 (mk_tx true true false false false true); OpStream 0 50 false [1]; OpReset 2 12] with
  | Some (c, true) => k_rcvd c = 22 + 3 + 12 /\ opened c = [4; 2; 0]
  | _ => False end.
Proof. vm_compute. repeat split. Qed.

(** The connection total never exceeds the total advertised. *)
Theorem C12_connection_within_limit : forall client p nb nu md mdr br ur ops c,
  srun (scnx0 client p nb nu md mdr br ur) ops = Some (c, true) ->
  k_rcvd c <= md + total_of (data_credit ops) /\ k_md_l c = md + total_of (data_credit ops).
Proof. exact connection_within_limit. Qed.
Print Assumptions C12_connection_within_limit.

Example C12_connection_within_limit_ex :
  match srun lim_cnx [OpStream 4 90 false [1; 2]; OpStream 0 50 false []; OpSendMaxData 40; OpStream 8 45 false []] with
  | Some (c, true) => k_rcvd c = 187 /\ k_md_l c = 190
  | _ => False end.
Proof. vm_compute. repeat split. Qed.

(** A STREAM frame beyond the limit of the stream, or that brings the connection
    beyond its limit, is refused with FLOW_CONTROL_ERROR (3); nothing is delivered
    and the total is unchanged. *)
Theorem C12_stream_refused : forall client p nb nu md mdr br ur ops c s off fin d,
  srun (scnx0 client p nb nu md mdr br ur) ops = Some (c, true) -> k_err c = None -> In s (k_streams c) ->
  rx_fin_received (s_rx s) = false -> off + blen d < 2 ^ 62 ->
  (rx_maxdata (s_rx s) < off + blen d \/
   rx_fin_offset (s_rx s) < off + blen d /\ k_md_l c < k_rcvd c + (off + blen d - rx_fin_offset (s_rx s))) ->
  exists c', sstep c (OpStream (s_id s) off fin d) = Some (c', false) /\
    k_err c' = Some 3 /\ k_out c' = k_out c /\ k_rcvd c' = k_rcvd c.
Proof. exact stream_refused. Qed.
Print Assumptions C12_stream_refused.

Example C12_stream_refused_ex :
  match srun lim_cnx [OpStream 4 90 false []; OpStream 0 50 false []] with
  | Some (c, true) => k_err c = None /\ k_rcvd c = 140 /\
     (match sstep c (OpStream 0 61 false []) with Some (c', false) => k_err c' = Some 3 | _ => False end) /\
     (match sstep c (OpStream 4 100 true [1]) with Some (c', false) => k_err c' = Some 3 | _ => False end)
  | _ => False end.
Proof. vm_compute. repeat split. Qed.

(** The same for RESET_STREAM. *)
Theorem C12_reset_refused : forall client p nb nu md mdr br ur ops c s final,
  srun (scnx0 client p nb nu md mdr br ur) ops = Some (c, true) -> k_err c = None -> In s (k_streams c) ->
  rx_fin_received (s_rx s) = false -> rx_reset_received (s_rx s) = false ->
  (rx_maxdata (s_rx s) < final \/
   rx_fin_offset (s_rx s) < final /\ k_md_l c < k_rcvd c + (final - rx_fin_offset (s_rx s))) ->
  exists c', sstep c (OpReset (s_id s) final) = Some (c', false) /\
    k_err c' = Some 3 /\ k_out c' = k_out c /\ k_rcvd c' = k_rcvd c.
Proof. exact reset_refused. Qed.
Print Assumptions C12_reset_refused.

Example C12_reset_refused_ex :
  match srun lim_cnx [OpStream 4 90 false []; OpStream 0 50 false []] with
  | Some (c, true) => match sstep c (OpReset 0 61) with Some (c', false) => k_err c' = Some 3 | _ => False end
  | _ => False end.
Proof. vm_compute. repeat split. Qed.

(** Conversely a STREAM frame within both limits is processed. *)
Theorem C12_stream_accepted : forall client p nb nu md mdr br ur ops c s off fin d,
  srun (scnx0 client p nb nu md mdr br ur) ops = Some (c, true) -> In s (k_streams c) ->
  rx_fin_received (s_rx s) = false -> off + blen d < 2 ^ 62 ->
  off + blen d <= rx_maxdata (s_rx s) -> k_rcvd c + (off + blen d - rx_fin_offset (s_rx s)) <= k_md_l c ->
  exists c', sstep c (OpStream (s_id s) off fin d) = Some (c', true).
Proof. exact stream_accepted. Qed.
Print Assumptions C12_stream_accepted.

Example C12_stream_accepted_ex :
  match srun lim_cnx [OpStream 4 90 false []; OpStream 0 50 false []] with
  | Some (c, true) => match sstep c (OpStream 0 60 true []) with Some (c', true) => k_rcvd c' = 150 | _ => False end
  | _ => False end.
Proof. vm_compute. repeat split. Qed.

(** After every history the connection limits of the peer are the largest values
    seen. *)
Theorem C14_connection_credits : forall client p nb nu md mdr br ur ops c,
  srun (scnx0 client p nb nu md mdr br ur) ops = Some (c, true) ->
  (forall u n, In (OpMaxStreams u n) ops -> n < 2 ^ 62) ->
  k_md_r c = N.max mdr (highest (peer_data_credit ops)) /\
  k_maxb_r c = N.max br (highest (map (nth_stream client false) (peer_streams_credit false ops))) /\
  k_maxu_r c = N.max ur (highest (map (nth_stream client true) (peer_streams_credit true ops))).
Proof. exact connection_limits. Qed.
Print Assumptions C14_connection_credits.

Example C14_connection_credits_ex :
  match srun lim_cnx [OpMaxData 5000; OpMaxStreams false 20; OpMaxData 3000; OpMaxStreams false 12; OpMaxStreams true 2] with
  | Some (c, true) => k_md_r c = 5000 /\ k_maxb_r c = 77 /\ k_maxu_r c = 31
  | _ => False end.
Proof. vm_compute. repeat split. Qed.

(** After every history without error the limit of the peer for a stream is the
    largest of its initial value and of the values seen. *)
Theorem C14_stream_credits : forall client p nb nu md mdr br ur ops c s,
  srun (scnx0 client p nb nu md mdr br ur) ops = Some (c, true) -> k_err c = None -> In s (k_streams c) ->
  s_md_remote s = N.max (init_send client p (s_id s)) (highest (peer_stream_credit (s_id s) ops)).
Proof. exact stream_credit_max. Qed.
Print Assumptions C14_stream_credits.

Example C14_stream_credits_ex :
  match srun lim_cnx [OpMaxStreamData 4 500; OpOpen 1; OpMaxStreamData 4 300; OpOpen 3; OpMaxStreamData 1 85] with
  | Some (c, true) => k_err c = None /\ map (fun s => (s_id s, s_md_remote s)) (k_streams c) = [(0, 70); (4, 500); (1, 85); (3, 90)]
  | _ => False end.
Proof. vm_compute. repeat split. Qed.

(** MAX_STREAMS with the value 0, which RFC 9000 allows and which cannot lower
    anything, raises the limit to an id near 2^64 and is answered by an error. *)
Theorem C14_max_streams_zero_refuted : exists c',
  sstep lim_cnx (OpMaxStreams false 0) = Some (c', false) /\ k_err c' = Some 4 /\ k_maxb_r lim_cnx = 29 /\ k_maxb_r c' = 2 ^ 64 - 3.
Proof. eexists. split; [vm_compute; reflexivity|]. vm_compute. repeat split. Qed.
Print Assumptions C14_max_streams_zero_refuted.

(** After every history: streams are created once; with a stream all lower ones of the
    same type exist or existed; the streams of the peer are within the limit; a
    stream named by a STREAM or RESET_STREAM frame was created. *)
Theorem C15_opened_streams : forall client p nb nu md mdr br ur ops c,
  srun (scnx0 client p nb nu md mdr br ur) ops = Some (c, true) ->
  NoDup (opened c) /\
  (forall sid j, In sid (opened c) -> j < sid -> j mod 4 = sid mod 4 -> In j (opened c)) /\
  (forall sid, In sid (opened c) -> by_us client sid = false -> sid <= peer_limit c sid) /\
  (forall sid, ends_of sid ops <> [] -> In sid (opened c)).
Proof. exact opened_streams. Qed.
Print Assumptions C15_opened_streams.

Example C15_opened_streams_ex :
  match srun lim_cnx [OpStream 8 0 false [1]; OpOpen 5; OpReset 6 0; OpStream 4 0 false []] with
  | Some (c, true) => opened c = [0; 4; 8; 1; 5; 2; 6] /\ peer_limit c 8 = 29 /\ peer_limit c 6 = 31
  | _ => False end.
Proof. vm_compute. repeat split. Qed.

(** A frame for a peer-initiated stream above the limit, or for a local stream that
    was not opened, is refused with STREAM_LIMIT_ERROR (4); no stream is created. *)
Theorem C15_unopened_refused_partial : forall client p nb nu md mdr br ur ops c sid o,
  srun (scnx0 client p nb nu md mdr br ur) ops = Some (c, true) -> k_err c = None -> ~ In sid (opened c) ->
  by_us client sid = true \/ peer_limit c sid < sid -> frame_on sid o ->
  exists c' ok, sstep c o = Some (c', ok) /\
    k_err c' = Some 4 /\ opened c' = opened c /\ k_out c' = k_out c /\ k_rcvd c' = k_rcvd c.
Proof. exact unopened_refused. Qed.
Print Assumptions C15_unopened_refused_partial.

Example C15_unopened_refused_partial_ex :
  match srun lim_cnx [OpStream 8 0 false [1]; OpOpen 5] with
  | Some (c, true) => ~ In 9 (opened c) /\ ~ In 32 (opened c) /\ by_us false 9 = true /\ peer_limit c 32 < 32 /\
      frame_on 9 (OpStream 9 0 false [1]) /\ frame_on 32 (OpMaxStreamData 32 5)
  | _ => False end.
Proof. vm_compute. intuition discriminate. Qed.

(** The error for a local stream that was not opened is STREAM_LIMIT_ERROR, not
    STREAM_STATE_ERROR (5) as RFC 9000, 19.8 asks. *)
Theorem C15_local_stream_error_refuted : exists c',
  by_us false 1 = true /\ ~ In 1 (opened lim_cnx) /\
  sstep lim_cnx (OpStream 1 0 false [1]) = Some (c', false) /\ k_err c' = Some 4.
Proof. eexists. split; [reflexivity|]. split; [intros []|]. split; [vm_compute; reflexivity|reflexivity]. Qed.
Print Assumptions C15_local_stream_error_refuted.

(** On a client the limit is computed with the role of the client: of the 8 streams
    advertised to the server, the eighth (id 4 * 7 + 1) is refused. *)
Theorem C15_client_limit_refuted : exists c',
  nth_stream false false 8 = 29 /\
  sstep (scnx0 true lim_par 8 8 150 1000 29 31) (OpStream 29 0 false [1]) = Some (c', false) /\ k_err c' = Some 4.
Proof. eexists. split; [reflexivity|]. split; [vm_compute; reflexivity|reflexivity]. Qed.
Print Assumptions C15_client_limit_refuted.

(** A limit of zero streams is not enforced: rank 0 wraps around. *)
Theorem C15_zero_limit_refuted : exists c',
  sstep (scnx0 false lim_par 0 0 150 1000 29 31) (OpStream 400 0 false [1]) = Some (c', true) /\
  In 400 (opened c') /\ k_maxb_l c' = 2 ^ 64 - 3.
Proof. eexists. split; [vm_compute; reflexivity|]. split; [|reflexivity]. vm_compute. auto 200. Qed.
Print Assumptions C15_zero_limit_refuted.

(** Once the final size is known by a FIN it never changes. *)
Theorem C21_final_size_constant_partial : forall client p nb nu md mdr br ur a b c1 c2 s1 s2,
  srun (scnx0 client p nb nu md mdr br ur) a = Some (c1, true) ->
  srun (scnx0 client p nb nu md mdr br ur) (a ++ b) = Some (c2, true) ->
  In s1 (k_streams c1) -> In s2 (k_streams c2) -> s_id s1 = s_id s2 -> rx_fin_received (s_rx s1) = true ->
  rx_fin_received (s_rx s2) = true /\ rx_fin_offset (s_rx s2) = rx_fin_offset (s_rx s1).
Proof. exact final_size_constant. Qed.
Print Assumptions C21_final_size_constant_partial.

Example C21_final_size_constant_partial_ex :
  match srun lim_cnx [OpStream 0 5 true [1]], srun lim_cnx ([OpStream 0 5 true [1]] ++ [OpStream 0 2 false [1; 1]; OpReset 0 6]) with
  | Some (c1, true), Some (c2, true) => map (fun s => rx_fin_offset (s_rx s)) (k_streams c1) = [6] /\ map (fun s => rx_fin_offset (s_rx s)) (k_streams c2) = [6]
  | _, _ => False end.
Proof. vm_compute. repeat split. Qed.

(** A STREAM frame that contradicts a FIN (data beyond it, or another FIN) is refused
    with FINAL_SIZE_ERROR (6) and changes nothing else. *)
Theorem C21_stream_after_fin_partial : forall client p nb nu md mdr br ur ops c s off fin d,
  srun (scnx0 client p nb nu md mdr br ur) ops = Some (c, true) -> k_err c = None -> In s (k_streams c) ->
  rx_fin_received (s_rx s) = true -> off + blen d < 2 ^ 62 ->
  (rx_fin_offset (s_rx s) < off + blen d \/ fin = true /\ off + blen d <> rx_fin_offset (s_rx s)) ->
  sstep c (OpStream (s_id s) off fin d) = Some (set_err c (Some 6), false).
Proof. exact final_size_stream. Qed.
Print Assumptions C21_stream_after_fin_partial.

Example C21_stream_after_fin_partial_ex :
  match srun lim_cnx [OpStream 0 5 true [1]] with
  | Some (c, true) => match sstep c (OpStream 0 0 true [1]), sstep c (OpStream 0 6 false [1]) with
                      | Some (c1, false), Some (c2, false) => k_err c1 = Some 6 /\ k_err c2 = Some 6 | _, _ => False end
  | _ => False end.
Proof. vm_compute. repeat split. Qed.

(** A RESET_STREAM that contradicts a FIN or an earlier RESET_STREAM is refused with
    FINAL_SIZE_ERROR and changes nothing else. *)
Theorem C21_reset_after_final_partial : forall client p nb nu md mdr br ur ops c s final,
  srun (scnx0 client p nb nu md mdr br ur) ops = Some (c, true) -> k_err c = None -> In s (k_streams c) ->
  rx_fin_received (s_rx s) = true \/ rx_reset_received (s_rx s) = true -> final <> rx_fin_offset (s_rx s) ->
  sstep c (OpReset (s_id s) final) = Some (set_err c (Some 6), false).
Proof. exact final_size_reset. Qed.
Print Assumptions C21_reset_after_final_partial.

Example C21_reset_after_final_partial_ex :
  match srun lim_cnx [OpReset 0 7] with
  | Some (c, true) => match sstep c (OpReset 0 8) with Some (c1, false) => k_err c1 = Some 6 | _ => False end
  | _ => False end.
Proof. vm_compute. repeat split. Qed.

(** After a RESET_STREAM, data beyond its final size is accepted, and moves the final
    size. *)
Theorem C21_data_after_reset_refuted : exists c1 c2,
  srun lim_cnx [OpReset 0 7] = Some (c1, true) /\ sstep c1 (OpStream 0 0 false [1; 2; 3; 4; 5; 6; 7; 8; 9]) = Some (c2, true) /\
  map (fun s => rx_fin_offset (s_rx s)) (k_streams c1) = [7] /\ map (fun s => rx_fin_offset (s_rx s)) (k_streams c2) = [9] /\
  bytes_of 0 (k_out c2) = [1; 2; 3; 4; 5; 6; 7; 8; 9].
Proof. eexists _, _. split; [vm_compute; reflexivity|]. split; [vm_compute; reflexivity|]. vm_compute. repeat split. Qed.
Print Assumptions C21_data_after_reset_refuted.

(** A FIN below data already received is accepted. *)
Theorem C21_fin_below_data_refuted : exists c,
  srun lim_cnx [OpStream 0 0 false [1; 2; 3; 4]; OpStream 0 0 true [1]] = Some (c, true) /\ k_err c = None /\
  bytes_of 0 (k_out c) = [1; 2; 3; 4].
Proof. eexists. split; [vm_compute; reflexivity|]. vm_compute. repeat split. Qed.
Print Assumptions C21_fin_below_data_refuted.

(** A RESET_STREAM whose final size is below data already received is accepted. *)
Theorem C21_reset_below_data_refuted : exists c,
  srun lim_cnx [OpStream 0 0 false [1; 2; 3; 4]; OpReset 0 1] = Some (c, true) /\ k_err c = None.
Proof. eexists. split; [vm_compute; reflexivity|]. reflexivity. Qed.
Print Assumptions C21_reset_below_data_refuted.
