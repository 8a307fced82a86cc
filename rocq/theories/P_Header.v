(** C32: packet headers round trip. *)
From Verif Require Import Base Varint_model Mem PacketNumber_model Header_model Header_spec Header2_proofs Header3_proofs.

(** The bytes of a numbered long header packet are those of RFC 9000 section 17.2 and RFC
    9369: first byte, version, both connection ids, token, length, packet number. *)
Theorem C32_wire : forall c pt seq hl room hb pno pnl body pkt vn v2,
  sender_ok c vn v2 -> numbered pt ->
  create_packet_header c pt seq hl room = Some (hb, pno, pnl) ->
  blen hb + blen body < 16384 ->
  update_payload_length (hb ++ body) pno (blen hb - pnl) (blen hb + blen body) = Some pkt ->
  exists r, long_rest pt (sc_token c) (4 + blen body) r /\
    pkt = long_start v2 pt (negb (sc_grease c)) 3 vn (dest_of c pt) (sc_local0 c) ++ r ++ be32 (seq mod 4294967296) ++ body /\
    pno = blen pkt - (4 + blen body).
Proof. exact long_wire. Qed.
Print Assumptions C32_wire.

(** The receiver reads back the type, the version, the connection ids, the token, the
    position of the packet number and the length, whatever follows in the datagram; a
    cleared fixed bit turns the packet into an error unless it was negotiated. *)
Theorem C32_long : forall c lk pt seq hl room hb pno pnl body rest pkt vn v2,
  sender_ok c vn v2 -> numbered pt ->
  create_packet_header c pt seq hl room = Some (hb, pno, pnl) ->
  blen hb + blen body < 16384 ->
  update_payload_length (hb ++ body) pno (blen hb - pnl) (blen hb + blen body) = Some pkt ->
  let found := find_long lk pt (dest_of c pt) in
  exists ph, parse_header lk (pkt ++ rest) None true = Some (POk ph found) /\
    ph_type ph = (if fixed_bit_ok (negb (sc_grease c)) found then pt else PtError) /\
    ph_vn ph = vn /\ ph_vi ph = Some (sc_version_index c) /\
    ph_dcid ph = dest_of c pt /\ ph_scid ph = sc_local0 c /\
    ph_token ph = (match pt with PtInitial => sc_token c | _ => [] end) /\
    ph_epoch ph = epoch_of pt /\ ph_pc ph = space_of pt /\
    ph_offset ph = pno /\ ph_pn_offset ph = pno /\ ph_payload ph = 4 + blen body.
Proof. exact long_round_trip. Qed.
Print Assumptions C32_long.

(** A connection with a token, version 1, and a packet coalesced with another. *)
Definition ex_client : sctx :=
  mk_sctx true false false 0 0 [1;2;3;4;5;6;7;8] [] [9;9;9;9] [] [77;78] 0 None.
Definition ex_server : lookup :=
  mk_lookup 8 None (fun _ => None) (fun id => if list_eq_dec N.eq_dec id [1;2;3;4;5;6;7;8]
                                              then Some (mk_cdata false 0 false false false 4) else None).
Example C32_long_ex : sender_ok ex_client 1 false /\ numbered PtInitial /\
  match create_packet_header ex_client PtInitial 258 0 1536 with
  | Some (hb, pno, pnl) =>
    match update_payload_length (hb ++ [6; 0; 0]) pno (blen hb - pnl) (blen hb + 3) with
    | Some pkt =>
      pkt = [195; 0;0;0;1; 8; 1;2;3;4;5;6;7;8; 4; 9;9;9;9; 2; 77;78; 64;7; 0;0;1;2; 6;0;0] /\
      match parse_header ex_server (pkt ++ [42]) None true with
      | Some (POk ph (Some _)) => ph_type ph = PtInitial /\ ph_token ph = [77;78] /\ ph_pn_offset ph = 24 /\ ph_payload ph = 7
      | _ => False
      end
    | None => False
    end
  | None => False
  end.
Proof.
  split; [|split; [left; reflexivity|vm_compute; repeat split]].
  split; try reflexivity; try (vm_compute; discriminate). left; reflexivity.
Qed.

(** Retry packets: the token starts where the header ends. *)
Theorem C32_retry : forall c lk seq hl room hb pno pnl body vn v2,
  sender_ok c vn v2 ->
  create_packet_header c PtRetry seq hl room = Some (hb, pno, pnl) ->
  body <> [] -> blen body < 65536 ->
  let found := find_long lk PtRetry (dest_of c PtRetry) in
  exists ph, parse_header lk (hb ++ body) None true = Some (POk ph found) /\
    ph_type ph = (if fixed_bit_ok (negb (sc_grease c)) found then PtRetry else PtError) /\
    ph_vn ph = vn /\ ph_vi ph = Some (sc_version_index c) /\
    ph_dcid ph = dest_of c PtRetry /\ ph_scid ph = sc_local0 c /\
    ph_offset ph = blen hb /\ ph_payload ph = blen body.
Proof. exact retry_round_trip. Qed.
Print Assumptions C32_retry.

(** Short headers, to a receiver whose connection ids have the length of the id that is
    used: the connection, the packet number position and the bits of the first byte. *)
Theorem C32_short : forall c lk seq hl room hb pno pnl body d,
  blen (sc_remote c) <= 20 -> (sc_spin c = 0 \/ sc_spin c = 32) ->
  create_packet_header c Pt1rtt seq hl room = Some (hb, pno, pnl) ->
  lk_cid_len lk = blen (sc_remote c) -> find_short lk (sc_remote c) = Some d ->
  blen hb + blen body < 65536 ->
  if fixed_bit_ok (fixed_bit c) (Some d) then
    exists ph, parse_header lk (hb ++ body) None true = Some (POk ph (Some d)) /\
      ph_type ph = Pt1rtt /\ ph_dcid ph = sc_remote c /\ ph_vi ph = Some (cd_version_index d) /\
      ph_epoch ph = 3 /\ ph_pc ph = 0 /\
      ph_has_spin ph = true /\ ph_spin ph = (sc_spin c =? 32) /\ ph_key_phase ph = sc_key_phase c /\
      ph_offset ph = pno /\ ph_pn_offset ph = pno /\ ph_payload ph = pnl + blen body /\
      1 <= pnl <= 4 /\ hb = firstn (N.to_nat pno) hb ++ pn_bytes pnl seq
  else parse_header lk (hb ++ body) None true = Some PFail.
Proof. exact short_round_trip. Qed.
Print Assumptions C32_short.

Definition ex_sender : sctx := mk_sctx false true false 0 32 [] [] [] [5;6;7] [] 1 None.
Definition ex_peer : lookup :=
  mk_lookup 3 None (fun id => if list_eq_dec N.eq_dec id [5;6;7] then Some (mk_cdata true 1 false false false 0) else None)
    (fun _ => None).
Example C32_short_ex : lk_cid_len ex_peer = blen (sc_remote ex_sender) /\ find_short ex_peer (sc_remote ex_sender) <> None /\
  match create_packet_header ex_sender Pt1rtt 5000 7 1536 with
  | Some (hb, pno, pnl) => hb = [102; 5;6;7; 0;19;136] /\ pno = 4 /\ pnl = 3 /\
    match parse_header ex_peer (hb ++ [1;2;3]) None true with
    | Some (POk ph (Some _)) => ph_dcid ph = [5;6;7] /\ ph_payload ph = 6 /\ ph_spin ph = true /\ ph_key_phase ph = true
    | _ => False
    end
  | None => False
  end.
Proof. split; [reflexivity|]. split; [vm_compute; discriminate|]. vm_compute. repeat split. Qed.

(** The length that the sender predicted before building the packet is the length of the
    header. *)
Theorem C32_predicted : forall c pt seq hl room hb pno pnl vn v2,
  sender_ok c vn v2 -> numbered pt ->
  create_packet_header c pt seq hl room = Some (hb, pno, pnl) ->
  predict_long_header_length c pt = blen hb /\ pno + pnl = blen hb.
Proof. exact long_predicted. Qed.
Print Assumptions C32_predicted.

Theorem C32_predicted_short : forall c seq pf room hb pno pnl,
  blen (sc_remote c) <= 20 -> (sc_spin c = 0 \/ sc_spin c = 32) ->
  create_packet_header c Pt1rtt seq (predict_header_length (blen (sc_remote c)) seq pf) room = Some (hb, pno, pnl) ->
  predict_header_length (blen (sc_remote c)) seq pf = blen hb /\ pno + pnl = blen hb.
Proof. exact short_predicted. Qed.
Print Assumptions C32_predicted_short.

Example C32_predicted_ex : predict_long_header_length ex_client PtInitial = 28 /\
  predict_header_length (blen (sc_remote ex_sender)) 5000 (Some 4990) = 7.
Proof. vm_compute. split; reflexivity. Qed.

(** Any bytes: reading a header is always defined, and the packet it describes is inside
    of the datagram. *)
Theorem C32_safe : forall lk bytes cnx receiving, bytes <> [] ->
  exists r, parse_header lk bytes cnx receiving = Some r /\ header_in bytes r.
Proof. exact parse_header_safe. Qed.
Print Assumptions C32_safe.

Example C32_safe_ex : [192; 0;0;0;1; 21; 0] <> ([] : list N) /\
  parse_header ex_server [192; 0;0;0;1; 21; 0] None true = Some PFail /\
  parse_header ex_server [192; 0;0;0;9; 21; 0] None true = Some (PBadVersion 9).
Proof. split; [discriminate|]. vm_compute. split; reflexivity. Qed.
