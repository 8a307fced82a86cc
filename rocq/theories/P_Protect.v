(** C42: what is sealed in a packet is what is opened, and what is opened is authentic. *)
From Verif Require Import Base Varint_model Mem PacketNumber_model Header_model Header_spec Protect_model Protect_spec
  Protect_proofs Protect2_proofs Protect3_proofs.

(** Initial, 0-RTT and Handshake packets, alone or followed by other packets. *)
Theorem C42_long : forall c lk cy pt seq payload hl loss room pkt vn v2 d rest last room2,
  sender_ok c vn v2 -> numbered pt -> ciphers_ok cy -> hl = predict_long_header_length c pt ->
  protect_packet c cy pt seq payload hl loss room = Some pkt -> blen pkt < 16384 -> blen pkt <= room2 ->
  find_long lk pt (dest_of c pt) = Some d -> cd_version_index d = sc_version_index c ->
  (sc_grease c = true -> cd_grease d = true) -> in_window 4 seq last ->
  exists ph op, unprotect_packet lk cy (pkt ++ rest) last room2 = Some (UnOk ph op payload (blen pkt)) /\
    ph_type ph = pt /\ ph_vn ph = vn /\ ph_dcid ph = dest_of c pt /\ ph_scid ph = sc_local0 c /\
    ph_token ph = (match pt with PtInitial => sc_token c | _ => [] end) /\
    ph_epoch ph = epoch_of pt /\ ph_pc ph = space_of pt /\
    op_pn64 op = seq /\ op_reserved op = false.
Proof. exact long_protected. Qed.
Print Assumptions C42_long.

Definition ex_c : sctx := mk_sctx true false false 0 0 [1;2;3;4;5;6;7;8] [] [9;9;9;9] [] [77;78] 0 None.
Definition ex_lk : lookup :=
  mk_lookup 8 None (fun _ => None) (fun id => if list_eq_dec N.eq_dec id [1;2;3;4;5;6;7;8]
                                              then Some (mk_cdata false 0 false false false 4) else None).
Example C42_long_ex : sender_ok ex_c 1 false /\ ciphers_ok toy /\ in_window 4 258 257 /\
  match protect_packet ex_c toy PtInitial 258 [6; 0; 0] (predict_long_header_length ex_c PtInitial) None 1536 with
  | Some pkt => nth 0 pkt 0 <> 195 /\ blen pkt = 47 /\
    match unprotect_packet ex_lk toy (pkt ++ [42]) 257 1536 with
    | Some (UnOk ph op text consumed) => text = [6; 0; 0] /\ op_pn64 op = 258 /\ consumed = 47
    | _ => False
    end
  | None => False
  end.
Proof.
  split; [split; try reflexivity; try (vm_compute; discriminate); left; reflexivity|].
  split; [exact toy_ok|]. split; [unfold in_window, two62, two64; vm_compute; repeat split; discriminate|].
  vm_compute. repeat split. discriminate.
Qed.

(** 1-RTT packets: the payload comes back followed by at most three padding bytes (the
    sample must fit), with the key phase, the spin bit and the loss bits. *)
Theorem C42_short : forall c lk cy seq payload pf loss room pkt d last room2,
  blen (sc_remote c) <= 20 -> (sc_spin c = 0 \/ sc_spin c = 32) -> ciphers_ok cy ->
  protect_packet c cy Pt1rtt seq payload (predict_header_length (blen (sc_remote c)) seq pf) loss room = Some pkt ->
  blen pkt < 65536 -> blen pkt <= room2 ->
  lk_cid_len lk = blen (sc_remote c) -> find_short lk (sc_remote c) = Some d ->
  (fixed_bit c = false -> cd_grease d = true) -> cd_loss_in d = (match loss with Some _ => true | None => false end) ->
  in_window (predict_pn_l seq pf) seq last ->
  exists ph op pad, unprotect_packet lk cy pkt last room2 = Some (UnOk ph op (payload ++ mem_fill 0 pad) (blen pkt)) /\
    pad <= 3 /\ (3 <= blen payload -> pad = 0) /\
    ph_type ph = Pt1rtt /\ ph_dcid ph = sc_remote c /\ ph_epoch ph = 3 /\ ph_pc ph = 0 /\
    ph_spin ph = (sc_spin c =? 32) /\
    (forall q l, loss = Some (q, l) -> ph_loss_q ph = q /\ ph_loss_l ph = l) /\
    op_pn64 op = seq /\ op_key_phase op = sc_key_phase c /\ op_reserved op = false.
Proof. exact short_protected. Qed.
Print Assumptions C42_short.

Definition ex_s : sctx := mk_sctx false true false 0 32 [] [] [] [5;6;7] [] 1 None.
Definition ex_d : cdata := mk_cdata true 1 false true false 0.
Definition ex_lk1 : lookup :=
  mk_lookup 3 None (fun id => if list_eq_dec N.eq_dec id [5;6;7] then Some ex_d else None) (fun _ => None).
Example C42_short_ex : find_short ex_lk1 (sc_remote ex_s) = Some ex_d /\ in_window (predict_pn_l 5 None) 5 3 /\
  match protect_packet ex_s toy Pt1rtt 5 [1] (predict_header_length 3 5 None) (Some (true, false)) 1536 with
  | Some pkt => nth 0 pkt 0 <> 116 /\
    match unprotect_packet ex_lk1 toy pkt 3 1536 with
    | Some (UnOk ph op text consumed) => text = [1; 0; 0] /\ op_pn64 op = 5 /\ op_key_phase op = true /\
        ph_loss_q ph = true /\ ph_loss_l ph = false /\ op_header op = [116; 5; 6; 7; 5]
    | _ => False
    end
  | None => False
  end.
Proof.
  split; [reflexivity|]. split; [unfold in_window, two62, two64; vm_compute; repeat split; discriminate|].
  vm_compute. repeat split. discriminate.
Qed.

(** Whatever the bytes: if a packet is accepted, decryption succeeded with the restored
    packet number and with all of the header as authenticated data, and the bytes received
    are those obtained by protecting that header and that ciphertext again.  So no bit of
    the packet is left unauthenticated. *)
Theorem C42_authentic : forall lk cy bytes last room ph op text consumed,
  bytes <> [] -> blen bytes <= room ->
  unprotect_packet lk cy bytes last room = Some (UnOk ph op text consumed) ->
  exists cipher w, (w = 15 \/ w = 7 \/ w = 31) /\
    consumed = blen (op_header op) + blen cipher /\ consumed <= blen bytes /\
    cy_dec cy (op_pn64 op) (op_header op) cipher = Some text /\
    protect_packet_header cy (op_header op ++ cipher) (ph_pn_offset ph) w = Some (firstn (N.to_nat consumed) bytes).
Proof. exact unprotect_authentic. Qed.
Print Assumptions C42_authentic.

(** A packet in which one byte of the connection id was changed, or one byte of the
    packet number, is not accepted by the example cipher. *)
Example C42_authentic_ex :
  match protect_packet ex_s toy Pt1rtt 5 [1; 2; 3; 4] (predict_header_length 3 5 None) (Some (true, false)) 1536 with
  | Some pkt =>
    (exists ph op, unprotect_packet ex_lk1 toy pkt 3 1536 = Some (UnOk ph op [1; 2; 3; 4] (blen pkt))) /\
    match mem_write 4 [0] pkt with
    | Some pkt' => unprotect_packet ex_lk1 toy pkt' 3 1536 = Some UnFail
    | None => False
    end
  | None => False
  end.
Proof. vm_compute. split; [eexists; eexists; reflexivity|reflexivity]. Qed.

(** For datagrams that fit in the decryption buffer no access is outside of a buffer. *)
Theorem C42_safe : forall lk cy bytes last room, bytes <> [] -> blen bytes <= room ->
  unprotect_packet lk cy bytes last room <> None.
Proof. exact unprotect_safe. Qed.
Print Assumptions C42_safe.

Example C42_safe_ex : [64; 5; 6; 7; 1] <> ([] : list N) /\ blen [64; 5; 6; 7; 1] <= 1536 /\
  unprotect_packet ex_lk1 toy [64; 5; 6; 7; 1] 3 1536 = Some UnFail.
Proof. split; [discriminate|]. split; [vm_compute; discriminate|vm_compute; reflexivity]. Qed.

(** Finding: the size of the datagram is not compared with the buffer (the error
    PICOQUIC_ERROR_PACKET_TOO_LONG is never raised): a malformed packet longer than 1536
    bytes is copied over the end of the buffer. *)
Theorem C42_oversize_refuted : exists lk cy bytes last, bytes <> [] /\ blen bytes = 1537 /\
  unprotect_packet lk cy bytes last 1536 = None.
Proof. exact oversize_overflow. Qed.
Print Assumptions C42_oversize_refuted.
