(** C35: the transport parameters sent by one endpoint are read back by the other with the
    same values, and a block of parameters with out-of-range or duplicated values is refused. *)
From Verif Require Import Base Varint_model Varint_spec Header_spec Tparam_model Tparam_spec Tparam6_proofs Tparam7_proofs Tparam8_proofs Tparam9_proofs.

(** Everything that an endpoint sends is accepted by its peer, which obtains the same values
    of all parameters, the preferred address, the reset token, and the version asked for. *)
Theorem C35_round_trip : forall ga sa gb sb room bytes fuel neg, sendable ga sa -> peer ga sa gb sb -> (0 < fuel)%nat -> prepare ga sa room = Some bytes ->
  exists s n, receive fuel gb sb neg bytes = TDone s n true /\ s_error s = None /\
    (forall f, tp_n (s_remote s) f = expected ga sa f) /\ tp_pref (s_remote s) = tp_pref (s_local sa) /\
    s_reset s = (if g_client ga then s_reset sb else g_secret ga (g_local_cid ga)) /\
    version_of (s_vi s) = (if g_client ga && s_do_vn sa && negb (g_desired ga =? 0) then g_desired ga else version_of (s_vi sa)).
Proof. exact round_trip. Qed.
Print Assumptions C35_round_trip.

Example C35_round_trip_client : sendable ex_client ex_cst /\ peer ex_client ex_cst ex_server ex_sst /\ tp_n (s_local ex_cst) FMaxData = 1048576 /\ g_desired ex_client = 0x6b3343cf.
Proof. split; [exact ex_client_sendable|]. split; [exact ex_peer_server|]. split; reflexivity. Qed.
Example C35_round_trip_server : sendable ex_server ex_sst /\ peer ex_server ex_sst ex_client ex_cst /\ tp_pref (s_local ex_sst) = Some ex_address.
Proof. split; [exact ex_server_sendable|]. split; [exact ex_peer_client|reflexivity]. Qed.

(** The parameters fit in the 2048 bytes that the TLS code gives them. *)
Theorem C35_fits : forall g s room, sendable g s -> 1764 <= room -> exists bytes, prepare g s room = Some bytes /\ blen bytes <= 1763.
Proof. exact fits. Qed.
Print Assumptions C35_fits.

Example C35_fits_ex : sendable ex_server ex_sst /\ match prepare ex_server ex_sst 1764 with Some b => blen b = 227 | None => False end.
Proof. split; [exact ex_server_sendable|vm_compute; reflexivity]. Qed.

(** Every block that is valid with all the ranges of the RFC and without duplicates is
    accepted, and the connection takes its values. *)
Theorem C35_accepted : forall fuel g s neg bytes ps ver, bytes_ok bytes -> (0 < fuel)%nat -> index_ok (s_vi s) -> s_error s = None ->
  block true g (version_of (s_vi s)) bytes ps ver ->
  exists s' n, receive fuel g s neg bytes = TDone s' n true /\ s_error s' = None /\ taken g s ps ver s' n.
Proof. exact strict_accepted. Qed.
Print Assumptions C35_accepted.

Example C35_accepted_ex : block true ex_server 1 (hello 4 (varint_bytes 70000)) [(15, [1; 2; 3; 4]); (4, varint_bytes 70000)] 1.
Proof.
  split; [apply hello_params; reflexivity|]. split; [vm_compute; repeat constructor; cbn; intuition discriminate|]. split.
  - constructor; [apply (gp_hcid true false 1 [1; 2; 3; 4]); vm_compute; discriminate|]. constructor; [|constructor].
    apply (gp_plain _ _ _ _ 4 _ 70000); [cbn; tauto|apply varint_value; reflexivity|]. intros _. repeat split; intuition discriminate.
  - split; [right; split; [cbn; intuition discriminate|reflexivity]|]. cbn. intuition discriminate.
Qed.

(** What is accepted, exactly: the blocks that are valid except that the ranges of some
    numbers are not checked ([block false]); duplicates of types below 64, numbers out of the
    other ranges, missing or forbidden parameters, malformed blocks are not accepted. *)
Theorem C35_accepted_iff : forall fuel g s neg bytes, bytes_ok bytes -> (0 < fuel)%nat -> index_ok (s_vi s) -> s_error s = None ->
  ((exists s' n, receive fuel g s neg bytes = TDone s' n true /\ s_error s' = None) <->
   exists ps ver, block false g (version_of (s_vi s)) bytes ps ver).
Proof. exact accepted_iff. Qed.
Print Assumptions C35_accepted_iff.

Example C35_accepted_iff_ex :
  (exists s' n, receive 1 ex_server ex_sst ex_neg (hello 4 [64; 100]) = TDone s' n true /\ s_error s' = None) /\
  exists s' n ok, receive 1 ex_server ex_sst ex_neg (hello 15 [1; 2; 3; 4]) = TDone s' n ok /\ s_error s' = Some 8.
Proof. split; [|eexists]; eexists; eexists; (split; [vm_compute; reflexivity|reflexivity]). Qed.

(** A block that is not accepted closes the connection, unless it asks for a version to which
    there is no upgrade.  Full statement: every block that is not valid ([block true]) closes
    the connection; false, see below. *)
Theorem C35_refused_partial : forall fuel g s neg bytes, bytes_ok bytes -> (0 < fuel)%nat -> index_ok (s_vi s) -> s_error s = None ->
  ~ (exists ps ver, block false g (version_of (s_vi s)) bytes ps ver) -> ~ some_bad_version g bytes ->
  exists s' n ok, receive fuel g s neg bytes = TDone s' n ok /\ s_error s' <> None.
Proof. exact refused_error. Qed.
Print Assumptions C35_refused_partial.

(** max_udp_payload_size below 1200. *)
Example C35_refused_ex : exists s' n, receive 1 ex_server ex_sst ex_neg (hello 3 [68; 175]) = TDone s' n false /\ s_error s' = Some 8.
Proof. eexists; eexists; (split; vm_compute; reflexivity). Qed.

(** After both endpoints sent their parameters they agree on multipath, the idle timeout,
    loss bits, time stamps and bandwidth reports. *)
Theorem C35_agreement : forall gc sc gs ss fuel negc negs room1 room2 b1 b2 ss1 ns sc1 sc2 nc,
  g_client gc = true -> sendable gc sc -> peer gc sc gs ss -> prepare gc sc room1 = Some b1 -> (0 < fuel)%nat -> n_ts_on negs = false -> n_ts_sent negs = false ->
  receive fuel gs ss negs b1 = TDone ss1 ns true ->
  sendable gs ss1 -> peer gs ss1 gc sc1 -> s_local sc1 = s_local sc -> prepare gs ss1 room2 = Some b2 -> receive fuel gc sc1 negc b2 = TDone sc2 nc true ->
  tp_n (s_local sc) FIdle < 2 ^ 54 -> tp_n (s_local ss) FIdle < 2 ^ 54 ->
  agreement nc ns.
Proof. exact agree. Qed.
Print Assumptions C35_agreement.

Example C35_agreement_ex :
  g_client ex_client = true /\ sendable ex_client ex_cst /\ peer ex_client ex_cst ex_server ex_sst /\ prepare ex_client ex_cst 2048 = Some ex_b1 /\
  sendable ex_server ex_sst1 /\ peer ex_server ex_sst1 ex_client ex_cst1 /\ s_local ex_cst1 = s_local ex_cst /\ prepare ex_server ex_sst1 2048 = Some ex_b2 /\
  (exists ns, receive 1 ex_server ex_sst ex_neg ex_b1 = TDone ex_sst1 ns true /\ n_multi ns = true /\ n_mp_remote ns = 2 /\ n_idle ns = 120000000 /\ version_of (s_vi ex_sst1) = 0x6b3343cf) /\
  exists s nc, receive 1 ex_client ex_cst1 ex_neg ex_b2 = TDone s nc true.
Proof. exact ex_exchange. Qed.

(** ** What is false *)

(** A type above 63 can occur twice with different values. *)
Theorem C35_duplicate_refuted : exists g s bytes ps, index_ok (s_vi s) /\ s_error s = None /\ params bytes ps /\
  (exists t a b, In t known_types /\ In (t, a) ps /\ In (t, b) ps /\ a <> b) /\ exists s' n, receive 1 g s ex_neg bytes = TDone s' n true /\ s_error s' = None.
Proof. exact w_duplicate. Qed.
Print Assumptions C35_duplicate_refuted.

(** ack_delay_exponent above 20 is accepted, and reduced to 8 bits. *)
Theorem C35_exponent_refuted : misread 10 21 FExponent 21 /\ misread 10 259 FExponent 3.
Proof. exact w_exponent. Qed.
Print Assumptions C35_exponent_refuted.

(** max_ack_delay of 2^14 ms is accepted; 4294968 ms is taken as 704 microseconds. *)
Theorem C35_ack_delay_refuted : misread 11 16384 FAckDelay 16384000 /\ misread 11 4294968 FAckDelay 704.
Proof. exact w_ack_delay. Qed.
Print Assumptions C35_ack_delay_refuted.

(** active_connection_id_limit below 2 is accepted, and reduced to 32 bits. *)
Theorem C35_cid_limit_refuted : misread 14 1 FCidLimit 1 /\ misread 14 4294967297 FCidLimit 1.
Proof. exact w_cid_limit. Qed.
Print Assumptions C35_cid_limit_refuted.

(** initial_max_streams_bidi above 2^60 is accepted. *)
Theorem C35_streams_refuted : misread 8 1152921504606846977 FStreamsBidi 1152921504606846977.
Proof. exact w_streams. Qed.
Print Assumptions C35_streams_refuted.

(** max_datagram_frame_size of 2^32 is taken as no datagrams. *)
Theorem C35_datagram_refuted : misread 32 4294967296 FDatagram 0.
Proof. exact w_datagram. Qed.
Print Assumptions C35_datagram_refuted.

(** initial_max_streams_bidi of 0, when it is sent, allows a server streams up to 2^64 - 3. *)
Theorem C35_streams_zero_refuted : exists g s bytes v, g_client g = false /\ index_ok (s_vi s) /\ s_error s = None /\ params bytes [(15, [1; 2; 3; 4]); (8, v)] /\ is_varint 0 v /\
  exists s' k, receive 1 g s ex_neg bytes = TDone s' k true /\ s_error s' = None /\ s_bidir s' = 2 ^ 64 - 3.
Proof. exact w_streams_zero. Qed.
Print Assumptions C35_streams_zero_refuted.

(** An empty preferred address is accepted. *)
Theorem C35_preferred_empty_refuted : exists g s bytes ps, g_client g = true /\ index_ok (s_vi s) /\ s_error s = None /\ params bytes ps /\ In (13, []) ps /\
  exists s' k, receive 1 g s ex_neg bytes = TDone s' k true /\ s_error s' = None.
Proof. exact w_preferred_empty. Qed.
Print Assumptions C35_preferred_empty_refuted.

(** The port of the IPv6 preferred address is lost: the one of the IPv4 address is sent. *)
Theorem C35_port_refuted : exists ga sa gb sb bytes a, peer ga sa gb sb /\ tp_pref (s_local sa) = Some a /\ (exists v, is_pref a v) /\ prepare ga sa 2048 = Some bytes /\
  exists s' k b, receive 1 gb sb ex_neg bytes = TDone s' k true /\ s_error s' = None /\ tp_pref (s_remote s') = Some b /\ pa_port6 a = 443 /\ pa_port6 b = 4433.
Proof. exact w_port. Qed.
Print Assumptions C35_port_refuted.

(** A limit of 0 connection ids is not sent and is read as 2. *)
Theorem C35_limit_zero_refuted : exists ga sa gb sb bytes, sendable ga sa /\ tp_n (s_local sa) FCidLimit = 0 /\ prepare ga sa 2048 = Some bytes /\ g_client gb = negb (g_client ga) /\
  exists s' k, receive 1 gb sb ex_neg bytes = TDone s' k true /\ s_error s' = None /\ tp_n (s_remote s') FCidLimit = 2.
Proof. exact w_limit_zero. Qed.
Print Assumptions C35_limit_zero_refuted.

(** A server never ends the reception of the parameters of a client of draft 29 that prefers
    version 2: the search for the upgrade does not advance. *)
Theorem C35_hang_refuted : exists g s bytes vs v, g_client g = false /\ version_of (s_vi s) = 0xff00001d /\ s_error s = None /\ params bytes [(15, [1; 2; 3; 4]); (17, v)] /\ versions vs v /\
  forall fuel, receive fuel g s ex_neg bytes = THang.
Proof. exact w_hang. Qed.
Print Assumptions C35_hang_refuted.

(** A server ignores all the parameters after a version to which there is no upgrade, also
    wrong ones, and records no error. *)
Theorem C35_silent_refuted : exists (g : tcfg) (s : tst) (bytes vs v : list N) (n : N) (w : list N), g_client g = false /\ version_of (s_vi s) = 1 /\ s_error s = None /\
  params bytes [(17, v); (3, w)] /\ versions vs v /\ is_varint n w /\ n < 1200 /\ exists s' k, receive 1 g s ex_neg bytes = TDone s' k false /\ s_error s' = None.
Proof. exact w_silent. Qed.
Print Assumptions C35_silent_refuted.
