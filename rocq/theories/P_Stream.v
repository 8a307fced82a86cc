(** Properties C01, C02 and C36: delivery of stream data to the application.

    A history is any sequence of incoming frames, calls of the application and
    progress of the sender, on any number of streams (see [sop]).  [srun … = Some (c,
    true)]: the whole history was processed. *)
From Verif Require Import Base Reasm_model Reasm_spec Stream_model Stream_spec Stream3_proofs Stream4_proofs.

(** If the STREAM frames of a stream carry slices of one sequence, the application has
    received, after every history, exactly the longest prefix covered by the frames
    received so far. *)
Theorem C01_exact_prefix : forall client p nb nu md mdr br ur ops c sid D,
  srun (scnx0 client p nb nu md mdr br ur) ops = Some (c, true) ->
  peer_sends client sid -> no_reset sid ops -> wanted sid ops ->
  Forall (carries D) (frames_of sid ops) ->
  exists n, longest_covered (frames_of sid ops) n /\ n <= blen D /\
    bytes_of sid (k_out c) = firstn (N.to_nat n) D.
Proof. exact delivery_exact. Qed.
Print Assumptions C01_exact_prefix.

(** Limits used in the examples. *)
Definition ex_par : params := mk_params 100 100 100 100 100 100.
(** A history on a server: overlapping and reordered frames on stream 0, another
    stream in between. *)
Definition ex_ops : list sop :=
  [OpStream 0 3 false [14; 15]; OpStream 4 0 false [7]; OpStream 0 1 false [12; 13; 14]; OpMaxData 50;
   OpStream 0 0 false [11]; OpStream 0 6 true [17]].

Example C01_exact_prefix_ex :
  (match srun (scnx0 false ex_par 8 8 1000 1000 29 31) ex_ops with
   | Some (c, true) => bytes_of 0 (k_out c) = [11; 12; 13; 14; 15]
   | _ => False end) /\
  peer_sends false 0 /\ no_reset 0 ex_ops /\ wanted 0 ex_ops /\
  Forall (carries [11; 12; 13; 14; 15; 16; 17]) (frames_of 0 ex_ops).
Proof.
  split; [vm_compute; reflexivity|]. split; [left; reflexivity|]. split; [intros f H; cbn in H; intuition discriminate|].
  split; [split; intros H; cbn in H; intuition discriminate|].
  cbn [ex_ops frames_of flat_map N.eqb Pos.eqb app]. repeat constructor.
  - exists [11; 12; 13], [16; 17]. split; reflexivity.
  - discriminate.
  - exists [11], [15; 16; 17]. split; reflexivity.
  - discriminate.
  - exists [], [12; 13; 14; 15; 16; 17]. split; reflexivity.
  - discriminate.
  - exists [11; 12; 13; 14; 15; 16], []. split; reflexivity.
Qed.

(** In every history whatsoever (streams reset, data refused by the application,
    history stopped by an error) what the application has received is a prefix. *)
Theorem C01_always_prefix : forall client p nb nu md mdr br ur ops c ok sid D,
  srun (scnx0 client p nb nu md mdr br ur) ops = Some (c, ok) ->
  (forall f, In f (frames_of sid ops) -> exists a b, D = a ++ f_data f ++ b /\ blen a = f_off f) ->
  exists t, D = bytes_of sid (k_out c) ++ t.
Proof. exact run_prefix. Qed.
Print Assumptions C01_always_prefix.

Example C01_always_prefix_ex :
  match srun (scnx0 false ex_par 8 8 1000 1000 29 31)
    [OpStream 0 0 false [11; 12]; OpReset 0 3; OpStream 0 2 false [13]; OpStream 0 2000 false [1]; OpStream 0 0 false [11]] with
  | Some (c, false) => bytes_of 0 (k_out c) = [11; 12; 13] /\ k_err c = Some 3
  | _ => False end.
Proof. vm_compute. repeat split. Qed.

(** The end of the stream is signalled if and only if the FIN and all bytes are in,
    and then all bytes have been delivered. *)
Theorem C02_fin_exact : forall client p nb nu md mdr br ur ops c sid D,
  srun (scnx0 client p nb nu md mdr br ur) ops = Some (c, true) ->
  peer_sends client sid -> no_reset sid ops -> wanted sid ops ->
  Forall (carries D) (frames_of sid ops) ->
  ((exists q, In q (pieces_of sid (k_out c)) /\ snd q = true) <->
   (exists f, In f (frames_of sid ops) /\ f_fin f = true) /\
   (forall i, i < blen D -> covered (frames_of sid ops) i)) /\
  (forall q, In q (pieces_of sid (k_out c)) -> snd q = true -> bytes_of sid (k_out c) = D).
Proof. exact fin_exact. Qed.
Print Assumptions C02_fin_exact.

Example C02_fin_exact_ex :
  match srun (scnx0 false ex_par 8 8 1000 1000 29 31) (ex_ops ++ [OpStream 0 5 false [16; 17]; OpStream 0 6 true [17]; OpStream 0 7 true []]) with
  | Some (c, true) => pieces_of 0 (k_out c) = [([11], false); ([12; 13], false); ([14; 15], false); ([16; 17], true)]
  | _ => False end.
Proof. vm_compute. repeat split. Qed.

(** In every history the end of the stream is signalled at most once, and nothing is
    delivered after it. *)
Theorem C02_fin_once_and_last : forall client p nb nu md mdr br ur ops c ok sid a q b,
  srun (scnx0 client p nb nu md mdr br ur) ops = Some (c, ok) ->
  pieces_of sid (k_out c) = a ++ q :: b -> snd q = true -> b = [].
Proof. exact run_fin_last. Qed.
Print Assumptions C02_fin_once_and_last.

Example C02_fin_once_and_last_ex :
  match srun (scnx0 false ex_par 8 8 1000 1000 29 31)
    [OpStream 0 1 true []; OpStream 0 0 false [1]; OpStream 0 0 true [2]; OpStream 0 1 true []] with
  | Some (c, true) => pieces_of 0 (k_out c) = [([1], true)]
  | _ => False end.
Proof. vm_compute. repeat split. Qed.

(** No frame content makes the reassembly read or write out of bounds, or loop for
    ever: every history of frames, in particular a hostile one, is processed. *)
Theorem C36_reassembly_defined : forall client p nb nu md mdr br ur ops,
  srun (scnx0 client p nb nu md mdr br ur) ops <> None.
Proof. exact run_defined. Qed.
Print Assumptions C36_reassembly_defined.

Example C36_reassembly_defined_ex :
  match srun (scnx0 true ex_par 8 8 1000 1000 29 31)
    [OpOpen 0; OpStream 0 5 false [1; 2; 3]; OpStream 0 4 false [9; 9]; OpStream 0 2 false [8; 8; 8; 8]; OpReset 0 8;
     OpStream 0 0 false [0; 0; 0]; OpStream 0 6 true [3]; OpStream 4 0 false []] with
  | Some (c, false) => bytes_of 0 (k_out c) = [0; 0; 0; 8; 9; 1; 2; 3] /\ k_err c = Some 4
  | _ => False end.
Proof. vm_compute. repeat split. Qed.

(** What is kept for reassembly is bounded by the credit given to the peer: per
    stream by the advertised limit minus what was consumed, over all streams by the
    advertised connection limit. *)
Theorem C36_buffers_bounded : forall client p nb nu md mdr br ur ops c,
  srun (scnx0 client p nb nu md mdr br ur) ops = Some (c, true) ->
  (forall s, In s (k_streams c) -> rx_consumed (s_rx s) + stored s <= rx_maxdata (s_rx s)) /\
  total_of (map stored (k_streams c)) <= md + total_of (data_credit ops).
Proof. exact buffers_bounded. Qed.
Print Assumptions C36_buffers_bounded.

Example C36_buffers_bounded_ex :
  match srun (scnx0 false ex_par 8 8 1000 1000 29 31)
    [OpStream 0 5 false [1; 2; 3]; OpStream 0 0 false [9; 9]; OpStream 4 90 false [8; 8; 8; 8]; OpSendMaxData 100] with
  | Some (c, true) => map (fun s => (s_id s, rx_consumed (s_rx s), stored s)) (k_streams c) = [(0, 2, 3); (4, 0, 4)]
  | _ => False end.
Proof. vm_compute. repeat split. Qed.
