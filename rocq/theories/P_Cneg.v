(** C45, C46: version negotiation and Retry, between a server and a client. *)
From Verif Require Import Base Varint_model Varint_spec Mem PacketNumber_model Header_model Header_spec Protect_model Protect_spec
  Protect_proofs Protect3_proofs Rtoken_model Rtoken_spec Rtoken_proofs Rtoken2_proofs Ports_model
  Segment_model Segment_spec Segment_proofs Segment2_proofs Segment3_proofs Segment4_proofs Segment5_proofs Segment6_proofs
  P_Segment Cneg_model Cneg_spec Cneg_proofs Cneg2_proofs Cneg3_proofs.

(** C45: a client gives up its connection on exactly those version negotiation packets
    that have its two connection ids, come before any other packet, do not list the
    version it proposed nor 0, and list at least one version that it supports. *)
Theorem C45_client : forall lk tag ct bytes vs, bytes_ok bytes -> blen bytes <= 1536 ->
  client_receive lk tag ct bytes = Some (CrVersion (VnAbort vs)) <->
  exists first words, bytes = vn_packet first (ct_local ct) (ct_initial ct) words /\ 128 <= first < 256 /\ vs = flat_map be32 words /\
    blen (ct_local ct) <= 20 /\ blen (ct_initial ct) <= 20 /\ find_other lk (ct_local ct) <> None /\
    ct_phase ct = CInitSent /\ Forall (fun v => v < 4294967296) words /\
    ~ In (ct_proposed ct) words /\ ~ In 0 words /\ exists v, In v words /\ supported v.
Proof. exact client_vn. Qed.
Print Assumptions C45_client.

Definition ex_ct (proposed : N) (dcid : list N) : cstate := mk_cstate CInitSent [9;9;9;9] dcid [] proposed 0 [].
Definition ex_lk : lookup := mk_lookup 4 None
  (fun d => if list_eq_dec N.eq_dec d [9;9;9;9] then Some (mk_cdata true 0 false false false 8) else None) (fun _ => None).
Example C45_client_ex :
  client_receive ex_lk (fun _ _ => repeat 3 16) (ex_ct 0xaabbccdd ex_dcid) (vn_packet 200 [9;9;9;9] ex_dcid [0x1a2a3a4a; 1]) =
    Some (CrVersion (VnAbort [26;42;58;74;0;0;0;1])) /\
  client_receive ex_lk (fun _ _ => repeat 3 16) (ex_ct 1 ex_dcid) (vn_packet 200 [9;9;9;9] ex_dcid [0x1a2a3a4a; 1]) =
    Some (CrVersion VnDetected) /\
  client_receive ex_lk (fun _ _ => repeat 3 16) (ex_ct 0xaabbccdd ex_dcid) (vn_packet 200 [9;9;9;9] ex_dcid [0x1a2a3a4a]) =
    Some (CrVersion VnDetected) /\
  client_receive ex_lk (fun _ _ => repeat 3 16) (ex_ct 0xaabbccdd [1]) (vn_packet 200 [9;9;9;9] ex_dcid [1]) =
    Some (CrVersion VnDetected).
Proof. vm_compute. repeat split. Qed.

(** Every version negotiation packet of a server answers a long header packet of an
    unsupported version, exchanges its connection ids, and lists the versions of the table
    followed by a reserved version that is not that of the packet. *)
Theorem C45_server : forall cf known st rns pe now bytes st' a1 b a2, bytes_ok bytes ->
  incoming_packet cf known st rns pe now bytes = Some (st', a1 ++ AVersion b :: a2) ->
  exists pre b0 vn dcid scid tail first g,
    bytes = pre ++ b0 :: be32 vn ++ (blen dcid :: dcid) ++ (blen scid :: scid) ++ tail /\
    128 <= b0 < 256 /\ vn < 4294967296 /\ vn <> 0 /\ ~ supported vn /\ 128 <= first < 256 /\
    b = vn_packet first scid dcid (map fst supported_versions ++ [g]) /\ reserved_version g /\ g <> vn.
Proof. exact server_vn. Qed.
Print Assumptions C45_server.

Definition ex_unknown : list N := 192 :: be32 0xaabbccdd ++ (8 :: ex_dcid) ++ (4 :: [9;9;9;9]) ++ repeat 0 1200.
Example C45_server_ex :
  incoming_packet (ex_cf false false) (fun _ => true) ex_st (ex_rns 8) ex_pe 5000 ex_unknown =
    Some (ex_st, [AVersion (vn_packet 145 [9;9;9;9] ex_dcid (map fst supported_versions ++ [0x0a0a0a0a]))]).
Proof. vm_compute. reflexivity. Qed.

(** From end to end: the client whose first packet has an unsupported version is answered
    once, and gives up, naming the versions of the server. *)
Theorem C45_end_to_end : forall cf known st rns pe now bytes b0 vn dcid scid tail lk tag ct,
  env_ok cf (st_lk st) rns -> bytes_ok bytes -> 1200 <= blen bytes -> addr_refused cf pe = false ->
  bytes = b0 :: be32 vn ++ (blen dcid :: dcid) ++ (blen scid :: scid) ++ tail -> 128 <= b0 ->
  vn < 4294967296 -> vn <> 0 -> ~ supported vn -> blen dcid <= 20 -> blen scid <= 20 ->
  find_long (st_lk st) PtInitial dcid = None -> lk_by_icid (st_lk st) dcid = None ->
  ct_phase ct = CInitSent -> ct_local ct = scid -> ct_initial ct = dcid -> ct_proposed ct = vn -> finds lk ct ->
  exists b g, incoming_packet cf known st rns pe now bytes = Some (st, [AVersion b]) /\ reserved_version g /\
    client_receive lk tag ct b = Some (CrVersion (VnAbort (flat_map be32 (map fst supported_versions ++ [g])))).
Proof. exact vn_end_to_end. Qed.
Print Assumptions C45_end_to_end.

Example C45_end_to_end_ex : env_ok (ex_cf false false) (st_lk ex_st) (ex_rns 8) /\ finds ex_lk (ex_ct 0xaabbccdd ex_dcid) /\
  match incoming_packet (ex_cf false false) (fun _ => true) ex_st (ex_rns 8) ex_pe 5000 ex_unknown with
  | Some (_, [AVersion b]) =>
    match client_receive ex_lk (fun _ _ => repeat 3 16) (ex_ct 0xaabbccdd ex_dcid) b with
    | Some (CrVersion (VnAbort v)) => blen v = 4 * N.of_nat (length supported_versions) + 4
    | _ => False
    end
  | _ => False
  end.
Proof.
  split; [apply ex_env; [reflexivity|lia]|]. split; [vm_compute; repeat split; discriminate|]. vm_compute. reflexivity.
Qed.

(** C46: a client accepts exactly those Retry packets that come before any other packet of
    the server, for its version, with a token and the integrity tag over the destination id
    of its first packet; it then sends that token, with the source id of the Retry as
    destination, and keeps the original id; it accepts no second one. *)
Theorem C46_client : forall lk tag ct bytes ct' vn v2, bytes_ok bytes -> blen bytes <= 1536 ->
  (forall vi p, blen (tag vi p) = 16) -> version_entry (ct_vi ct) = Some (vn, v2) -> blen (ct_initial ct) <= 20 ->
  (client_receive lk tag ct bytes = Some (CrRetry (RtOk ct')) <->
   waiting ct /\ ct_original ct = [] /\ exists q low dcid scid token,
     bytes = retry_packet_of tag (ct_vi ct) vn v2 q low dcid scid token (ct_initial ct) /\ low < 16 /\ token <> [] /\
     blen dcid <= 20 /\ blen scid <= 20 /\ blen bytes + blen (ct_initial ct) < 1551 /\
     (exists c, find_long lk PtRetry dcid = Some c /\ (q = true \/ cd_grease c = true)) /\
     ct' = retried ct scid token).
Proof. exact client_retry. Qed.
Print Assumptions C46_client.

(** A tag that depends on what is authenticated. *)
Definition ex_tag (vi : N) (p : list N) : list N := be32 (fold_left (fun a b => (a * 31 + b) mod 4294967296) p vi) ++ repeat 3 12.
Definition ex_retry (odcid : list N) : list N := retry_packet_of ex_tag 0 1 false true 5 [9;9;9;9] (repeat 21 8) [1;2;3] odcid.
Example C46_client_ex : (forall vi p, blen (ex_tag vi p) = 16) /\ version_entry 0 = Some (1, false) /\
  client_receive ex_lk ex_tag (ex_ct 1 ex_dcid) (ex_retry ex_dcid) =
    Some (CrRetry (RtOk (mk_cstate CInitSent [9;9;9;9] (repeat 21 8) ex_dcid 1 0 [1;2;3]))) /\
  client_receive ex_lk ex_tag (ex_ct 1 ex_dcid) (ex_retry [1;2;3;4;5;6;7;9]) = Some (CrRetry RtAead) /\
  client_receive ex_lk ex_tag (mk_cstate CInitSent [9;9;9;9] (repeat 21 8) ex_dcid 1 0 [1;2;3]) (ex_retry (repeat 21 8)) =
    Some (CrRetry RtUnexpected).
Proof. split; [intros; reflexivity|]. vm_compute. repeat split. Qed.

(** From end to end: the server that wants the address of a new client to be validated
    answers its first packet with one Retry and keeps no state; the client accepts it; and
    the next Initial packet of the client, within 124 seconds, creates a connection whose
    address is validated, and which knows the original destination id. *)
Theorem C46_end_to_end : forall c cf known st rns pe now seq payload hl loss room pkt vn v2 lk ct,
  let dcid := dest_of c PtInitial in let cy := fst (sf_keys cf (sc_version_index c) dcid) in
  env_ok cf (st_lk st) rns -> sender_ok c vn v2 -> hl = predict_long_header_length c PtInitial ->
  protect_packet c cy PtInitial seq payload hl loss room = Some pkt -> 1200 <= blen pkt <= 1536 -> 8 <= blen dcid ->
  find_long (st_lk st) PtInitial dcid = None -> in_window 4 seq 0 -> server_ready cf st -> now + 200000000 < two64 ->
  wants_token cf st pe = true -> addr_refused cf pe = false ->
  same_client c ct -> waiting ct -> ct_original ct = [] -> ct_token ct = [] -> finds lk ct ->
  exists b token, incoming_packet cf known st rns pe now pkt = Some (st, [ARetry b]) /\
    (bytes_ok b ->
     let rcid := rn_cid (rns (length pkt - 1)%nat) in let ct' := retried ct rcid token in
     client_receive lk (sf_retry_tag cf) ct b = Some (CrRetry (RtOk ct')) /\
     forall c2 known2 st2 rns2 now2 seq2 payload2 hl2 loss2 room2 pkt2,
       let cy2 := fst (sf_keys cf (sc_version_index c2) rcid) in
       same_client c2 ct' -> sender_ok c2 vn v2 -> hl2 = predict_long_header_length c2 PtInitial ->
       protect_packet c2 cy2 PtInitial seq2 payload2 hl2 loss2 room2 = Some pkt2 -> 1200 <= blen pkt2 <= 1536 ->
       8 <= lk_cid_len (st_lk st) -> find_long (st_lk st2) PtInitial rcid = None -> in_window 4 seq2 0 -> 0 < seq2 ->
       server_ready cf st2 -> now2 <= now + 124000000 -> ~ In (now + 124000000, last8 token) (st_reg st2) ->
       exists st3, incoming_packet cf known2 st2 rns2 pe now2 pkt2 = Some (st3, [ACreate rcid true dcid]) /\
         st_conns st3 = st_conns st2 + 1).
Proof. exact retry_end_to_end. Qed.
Print Assumptions C46_end_to_end.

Example C46_end_to_end_ex : env_ok (ex_cf false true) (st_lk ex_st) (ex_rns 8) /\ same_client (ex_client [] ex_dcid) (ex_ct 1 ex_dcid) /\
  wants_token (ex_cf false true) ex_st ex_pe = true /\ addr_refused (ex_cf false true) ex_pe = false /\
  match incoming_packet (ex_cf false true) (fun _ => true) ex_st (ex_rns 8) ex_pe 5000 (ex_initial [] ex_dcid 0) with
  | Some (st2, [ARetry b]) => forallb (fun x => x <? 256) b = true /\
    match client_receive ex_lk (fun _ _ => repeat 3 16) (ex_ct 1 ex_dcid) b with
    | Some (CrRetry (RtOk ct)) =>
      same_client (ex_client (ct_token ct) (ct_initial ct)) ct /\
      match incoming_packet (ex_cf false true) (fun _ => true) st2 (ex_rns 8) ex_pe 124005000 (ex_initial (ct_token ct) (ct_initial ct) 1) with
      | Some (st3, acts) => acts = [ACreate (repeat 21 8) true ex_dcid]
      | None => False
      end
    | _ => False
    end
  | _ => False
  end.
Proof.
  split; [apply ex_env; [reflexivity|lia]|]. split; [split; reflexivity|]. split; [reflexivity|]. split; [reflexivity|].
  vm_compute. repeat split.
Qed.

(** A packet whose destination id has fewer than 8 bytes is dropped, whatever its token. *)
Theorem C46_short_cid : forall c cf known st rns pe now seq payload hl loss room pkt vn v2,
  let dcid := dest_of c PtInitial in let cy := fst (sf_keys cf (sc_version_index c) dcid) in
  ciphers_ok cy -> sender_ok c vn v2 -> hl = predict_long_header_length c PtInitial ->
  protect_packet c cy PtInitial seq payload hl loss room = Some pkt -> 1200 <= blen pkt <= 1536 -> blen dcid < 8 ->
  find_long (st_lk st) PtInitial dcid = None -> in_window 4 seq 0 ->
  incoming_packet cf known st rns pe now pkt = Some (st, []).
Proof. exact short_cid_dropped. Qed.
Print Assumptions C46_short_cid.

(** Finding: a server whose local connection ids have fewer than 8 bytes, and which wants
    addresses to be validated, puts such an id in the Retry packet, and then drops the
    packets which its clients send to that id: no connection is ever made. *)
Definition ex_st4 : sstate := mk_sstate (mk_lookup 4 None (fun _ => None) (fun _ => None)) 0 0 [] 0.
Definition ex_b4 : list N :=
  match incoming_packet (ex_cf false true) (fun _ => true) ex_st4 (ex_rns 4) ex_pe 5000 (ex_initial [] ex_dcid 0) with
  | Some (_, [ARetry b]) => b | _ => [] end.
Definition ex_ct4 : cstate :=
  match client_receive ex_lk (fun _ _ => repeat 3 16) (ex_ct 1 ex_dcid) ex_b4 with
  | Some (CrRetry (RtOk ct)) => ct | _ => ex_ct 1 ex_dcid end.
Definition ex_pkt4 : list N := ex_initial (ct_token ex_ct4) (ct_initial ex_ct4) 1.
Theorem C46_short_cid_refuted : exists cf known st rns pe now pkt b ct ct' pkt2 lk,
  env_ok cf (st_lk st) rns /\ lk_cid_len (st_lk st) = 4 /\ server_ready cf st /\
  incoming_packet cf known st rns pe now pkt = Some (st, [ARetry b]) /\
  client_receive lk (sf_retry_tag cf) ct b = Some (CrRetry (RtOk ct')) /\
  (exists c, same_client c ct' /\ protect_packet c (fst (sf_keys cf 0 (ct_initial ct'))) PtInitial 1 (repeat 0 1180)
     (predict_long_header_length c PtInitial) None 1536 = Some pkt2) /\
  incoming_packet cf known st rns pe (now + 1) pkt2 = Some (st, []).
Proof.
  exists (ex_cf false true), (fun _ => true), ex_st4, (ex_rns 4), ex_pe, 5000, (ex_initial [] ex_dcid 0), ex_b4, (ex_ct 1 ex_dcid), ex_ct4, ex_pkt4, ex_lk.
  split; [apply ex_env; [reflexivity|lia]|]. split; [reflexivity|]. split; [vm_compute; repeat split|].
  split; [vm_compute; reflexivity|]. split; [vm_compute; reflexivity|].
  split; [exists (ex_client (ct_token ex_ct4) (ct_initial ex_ct4)); split; [split; vm_compute; reflexivity|vm_compute; reflexivity]|].
  vm_compute. reflexivity.
Qed.
Print Assumptions C46_short_cid_refuted.
