(** Proofs about datagrams of unknown connections: a client's first packet. *)
From Verif Require Import Base Tac Varint_model Varint_spec Varint_proofs Mem Mem_proofs
  PacketNumber_model PacketNumber_proofs Header_model Header_spec Header_proofs Header2_proofs Header3_proofs
  Protect_model Protect_spec Protect_proofs Protect2_proofs Protect3_proofs
  Rtoken_model Rtoken_spec Rtoken_proofs Rtoken2_proofs Ports_model Segment_model Segment_spec Segment_proofs Segment2_proofs Segment3_proofs.

(** The packet sealed by a client is opened by the screening. *)
Lemma client_opened : forall c cf lk seq payload hl loss room pkt vn v2 rest,
  let dcid := dest_of c PtInitial in let cy := fst (sf_keys cf (sc_version_index c) dcid) in
  sender_ok c vn v2 -> ciphers_ok cy -> hl = predict_long_header_length c PtInitial ->
  protect_packet c cy PtInitial seq payload hl loss room = Some pkt -> blen pkt <= 1536 ->
  find_long lk PtInitial dcid = None -> in_window 4 seq 0 ->
  exists ph, parse_header lk (pkt ++ rest) None true = Some (POk ph None) /\
    ph_type ph = PtInitial /\ ph_vn ph = vn /\ ph_vi ph = Some (sc_version_index c) /\
    ph_dcid ph = dcid /\ ph_scid ph = sc_local0 c /\ ph_token ph = sc_token c /\
    ph_offset ph + ph_payload ph = blen pkt /\
    screen_open cf (pkt ++ rest) ph = Some (Some seq).
Proof.
  intros c cf lk seq payload hl loss room pkt vn v2 rest dcid cy Hc Hcy Hhl Hpr Hroom Hfind Hwin.
  assert (Hn : numbered PtInitial) by (left; reflexivity).
  assert (Hlen : blen pkt < 16384) by lia.
  destruct (long_protect_eq c cy PtInitial seq payload hl loss room pkt vn v2 Hc Hn Hcy Hhl Hpr Hlen) as (H & Hh & Hpkt).
  cbv zeta in Hh, Hpkt. fold dcid in Hh, Hpkt.
  set (q := negb (sc_grease c)) in *. set (f := first_byte v2 PtInitial q 3) in *.
  set (n := 4 + (blen payload + 16)) in *.
  set (h := long_head f vn dcid (sc_local0 c) PtInitial (sc_token c) ++ varint_encode_16 n) in *.
  set (PN := pn_bytes 4 seq) in *. set (C := cy_enc cy seq (h ++ PN) payload) in *.
  set (m := cy_mask cy (sample_of PN C)) in *.
  assert (HPN : blen PN = 4) by reflexivity.
  assert (HC : blen C = blen payload + 16) by (unfold C; apply (ck_enc_len _ Hcy)).
  set (PN' := xor_bytes PN (firstn 4 (skipn 1 m))) in *.
  assert (HPN' : blen PN' = 4) by (unfold PN', blen; rewrite xor_bytes_length; reflexivity).
  destruct (long_first_masked v2 PtInitial q (nth 0 m 0) Hn) as (low & Hlow & Hf'). fold f in Hf'.
  assert (Hlt : n < 16384).
  { rewrite Hpkt in Hlen. rewrite blen_cons, !blen_app in Hlen. unfold n. lia. }
  pose proof (parse_long_eq lk None v2 (sc_version_index c) vn PtInitial q low dcid (sc_local0 c) (sc_token c) n
    (PN' ++ C) rest (so_version _ _ _ Hc) Hn Hlow (dest_of_len _ _ _ PtInitial Hc) (so_local0 _ _ _ Hc) (so_token _ _ _ Hc) Hlt) as Hparse.
  specialize (Hparse ltac:(rewrite blen_app, HPN', HC; reflexivity)).
  cbv zeta in Hparse. cbn [or_find] in Hparse. rewrite Hfind in Hparse.
  assert (Hfix : fixed_bit_ok q None = true) by (unfold fixed_bit_ok; apply Bool.orb_true_r).
  rewrite Hfix in Hparse.
  assert (Hh2 : long_head (first_byte v2 PtInitial q low) vn dcid (sc_local0 c) PtInitial (sc_token c) ++ varint_encode_16 n =
                first_byte v2 PtInitial q low :: H).
  { unfold h, long_head in Hh. cbn [app] in Hh. apply (f_equal (@tl N)) in Hh. cbn [tl] in Hh. unfold long_head. cbn [app]. rewrite <- Hh. reflexivity. }
  rewrite Hh2 in Hparse. rewrite blen_cons in Hparse.
  set (ph := mk_ph _ _ _ _ _ _ _ _ _ _ _ _ _ _ _ _ _ _ _) in Hparse.
  assert (Epk : pkt ++ rest = N.lxor f (N.land (nth 0 m 0) 15) :: H ++ PN' ++ C ++ rest).
  { rewrite Hpkt. cbn [app]. rewrite <- !app_assoc. reflexivity. }
  assert (Hf128 : N.land f 128 = 128).
  { destruct (first_parsed PtInitial (sc_version_index c) (vn, v2) q 3 (or_introl Hn) (so_version _ _ _ Hc) eq_refl) as (_ & Hx & _). exact Hx. }
  assert (Hpar : parse_header lk (pkt ++ rest) None true = Some (POk ph None)).
  { rewrite Epk. unfold parse_header. change (mem_get 0 (?x :: ?l)) with (Some x). cbn [obind].
    rewrite land_mask_high by reflexivity. rewrite Hf128. change (128 =? 128) with true. cbv iota.
    rewrite Hf'. rewrite <- Hparse. cbn [app]. rewrite <- !app_assoc. reflexivity. }
  assert (Hpkl : blen pkt = 1 + blen H + (blen PN + blen C)).
  { rewrite Hpkt, blen_cons, !blen_app, HPN', HPN. lia. }
  pose proof (remove_protection_eq cy f H PN C 15 rest ph false 0 1536 seq) as Hrem. cbv zeta in Hrem.
  fold m in Hrem. change (length PN) with 4%nat in Hrem. fold PN' in Hrem.
  rewrite Hf128 in Hrem. change (128 =? 128) with true in Hrem. cbv iota in Hrem.
  assert (Hlow3 : N.land f 3 + 1 = 4) by (unfold f; destruct v2, q; reflexivity).
  assert (Hoff : ph_offset ph = 1 + blen H) by reflexivity.
  assert (Hpoff : ph_pn_offset ph = 1 + blen H) by reflexivity.
  assert (Hpay : ph_payload ph = blen PN + blen C) by (unfold ph; cbn [ph_payload]; unfold n; lia).
  specialize (Hrem ltac:(rewrite Hlow3; reflexivity) ltac:(lia) eq_refl eq_refl eq_refl Hwin Hoff Hpoff Hpay ltac:(lia)).
  exists ph. split; [exact Hpar|]. repeat (split; [reflexivity|]). split; [lia|].
  unfold screen_open. change (ph_vi ph) with (Some (sc_version_index c)). change (ph_dcid ph) with dcid. cbv iota. fold cy.
  rewrite Epk. rewrite Hrem. cbn [obind op_payload_offset op_payload_length op_pn64 op_header].
  set (f' := N.lxor f (N.land (nth 0 m 0) 15)).
  replace (mem_read (1 + blen H + blen PN) (blen C) (f' :: H ++ PN' ++ C ++ rest)) with (Some C).
  2: { symmetry. replace (f' :: H ++ PN' ++ C ++ rest) with ((f' :: H ++ PN') ++ C ++ rest)
         by (cbn [app]; rewrite <- !app_assoc; reflexivity).
       apply mem_split3; [rewrite blen_cons, blen_app, HPN', HPN; lia|reflexivity]. }
  cbn [obind].
  destruct (N.ltb_spec 1536 (1 + blen H + blen PN + (blen C - 16))); [lia|].
  assert (Hdec : cy_dec cy seq (f :: H ++ PN) C = Some payload).
  { unfold C. rewrite Hh. apply (ck_dec _ Hcy). }
  rewrite Hdec. reflexivity.
Qed.

(** One segment that ends the datagram. *)
Lemma single_segment : forall cf known st rns pe now pkt st1 acts prev1 next, pkt <> [] ->
  (forall rn, incoming_segment cf known st rn pe now pkt (blen pkt) [] = Some (st1, acts, prev1, next)) ->
  (next = None \/ next = Some (blen pkt)) ->
  incoming_packet cf known st rns pe now pkt = Some (st1, acts).
Proof.
  intros cf known st rns pe now pkt st1 acts prev1 next Hne H Hn. unfold incoming_packet.
  destruct pkt as [|b bs] eqn:E; [congruence|]. rewrite <- E in *. replace (length pkt) with (S (length bs)) by (rewrite E; reflexivity).
  cbn [incoming_segments]. rewrite E at 1. rewrite H. cbn [obind].
  destruct Hn as [-> | ->]; [reflexivity|].
  destruct (N.eqb_spec (blen pkt) 0) as [Hz|_]; [rewrite E, blen_cons in Hz; lia|].
  replace (skipn (N.to_nat (blen pkt)) pkt) with (@nil N) by (symmetry; apply skipn_all2; unfold blen; lia).
  destruct (length bs); cbn [incoming_segments obind]; rewrite app_nil_r; reflexivity.
Qed.

Lemma client_verdict : forall c cf known st rns pe now seq payload hl loss room pkt vn v2 good bad is_new od reg,
  let dcid := dest_of c PtInitial in let cy := fst (sf_keys cf (sc_version_index c) dcid) in
  sender_ok c vn v2 -> ciphers_ok cy -> hl = predict_long_header_length c PtInitial ->
  protect_packet c cy PtInitial seq payload hl loss room = Some pkt -> 1200 <= blen pkt <= 1536 -> 8 <= blen dcid ->
  find_long (st_lk st) PtInitial dcid = None -> in_window 4 seq 0 -> server_ready cf st ->
  (if 0 <? blen (sc_token c) then
     v <~ verify_retry_token (sf_ticket cf) (st_reg st) (pe_ip pe) now dcid (u32 seq) (sc_token c) true ;;
     Some (v_ok v, negb (v_ok v), match v_new v with Some b => b | None => false end, v_odcid v, v_reg v)
   else Some (false, false, false, [], st_reg st)) = Some (good, bad, is_new, od, reg) ->
  bad && negb is_new = false -> negb good && wants_token cf st pe = false ->
  exists st', incoming_packet cf known st rns pe now pkt = Some (st', [ACreate dcid good (if good then od else [])]) /\
    st_conns st' = st_conns st + 1 /\ find_long (st_lk st') PtInitial dcid <> None.
Proof.
  intros c cf known st rns pe now seq payload hl loss room pkt vn v2 good bad is_new od reg dcid cy Hc Hcy Hhl Hpr [H12 H15] H8 Hf Hw (R1 & R2 & R3) Ht Hb Hg.
  destruct (client_opened c cf (st_lk st) seq payload hl loss room pkt vn v2 [] Hc Hcy Hhl Hpr H15 Hf Hw)
    as (ph & Hp & Et & Evn & Evi & Ed & Es & Etok & Hcons & Ho). rewrite app_nil_r in Hp, Ho. fold dcid in Ed.
  assert (Hscr : screen_initial cf st pe now pkt (blen pkt) ph =
    Some (create_cnx cf (mk_sstate (st_lk st) (st_conns st) (st_half st) reg (st_next_reset st)) ph reg, ScCreated good (if good then od else []))).
  { unfold screen_initial. destruct (N.ltb_spec (blen pkt) 1200); [lia|]. rewrite Ed. destruct (N.ltb_spec (blen dcid) 8); [lia|].
    rewrite R1, R2. destruct (N.leb_spec (sf_max_conns cf) (st_conns st)); [lia|]. cbn [orb]. rewrite Ho. cbn [obind].
    rewrite Etok. rewrite Ht. cbn [obind]. rewrite Hb. unfold wants_token in Hg. rewrite Hg. reflexivity. }
  assert (Hne : pkt <> []) by (intro E; rewrite E, blen_nil in H12; lia).
  eexists. split.
  - eapply (single_segment _ _ _ _ _ _ _ _ _ dcid _ Hne).
    + intro rn. unfold incoming_segment. rewrite Hp. cbn [obind]. rewrite Et. rewrite Hscr. cbn [obind].
      rewrite Ed. rewrite Hcons. reflexivity.
    + cbn [same_dest andb]. destruct (known ph); auto.
  - split; [reflexivity|]. unfold create_cnx, find_long. cbn [st_lk lk_cid_len lk_by_net lk_by_id lk_by_icid].
    destruct (lk_cid_len (st_lk st) =? 0); [discriminate|].
    destruct (if blen dcid =? lk_cid_len (st_lk st) then lk_by_id (st_lk st) dcid else None); [discriminate|].
    cbn [ptype_eqb orb]. rewrite Ed. destruct (list_eq_dec N.eq_dec dcid dcid) as [_|F]; [discriminate|destruct (F eq_refl)].
Qed.

(** Without a token, to a server that does not want one. *)
Lemma client_plain : forall c cf known st rns pe now seq payload hl loss room pkt vn v2,
  let dcid := dest_of c PtInitial in let cy := fst (sf_keys cf (sc_version_index c) dcid) in
  sender_ok c vn v2 -> ciphers_ok cy -> hl = predict_long_header_length c PtInitial ->
  protect_packet c cy PtInitial seq payload hl loss room = Some pkt -> 1200 <= blen pkt <= 1536 -> 8 <= blen dcid ->
  find_long (st_lk st) PtInitial dcid = None -> in_window 4 seq 0 -> server_ready cf st ->
  sc_token c = [] -> wants_token cf st pe = false ->
  exists st', incoming_packet cf known st rns pe now pkt = Some (st', [ACreate dcid false []]) /\
    st_conns st' = st_conns st + 1 /\ find_long (st_lk st') PtInitial dcid <> None.
Proof.
  intros c cf known st rns pe now seq payload hl loss room pkt vn v2 dcid cy Hc Hcy Hhl Hpr Hl H8 Hf Hw Hr Ht Hn.
  apply (client_verdict c cf known st rns pe now seq payload hl loss room pkt vn v2 false false false [] (st_reg st)); try assumption; try reflexivity.
  - rewrite Ht. reflexivity.
Qed.

(** With a token made by the server for this address and this id, not used yet. *)
Lemma client_token : forall c cf known st rns pe now seq payload hl loss room pkt vn v2 time odcid rcid pn,
  let dcid := dest_of c PtInitial in let cy := fst (sf_keys cf (sc_version_index c) dcid) in
  sender_ok c vn v2 -> ciphers_ok cy -> hl = predict_long_header_length c PtInitial ->
  protect_packet c cy PtInitial seq payload hl loss room = Some pkt -> 1200 <= blen pkt <= 1536 -> 8 <= blen dcid ->
  find_long (st_lk st) PtInitial dcid = None -> in_window 4 seq 0 -> server_ready cf st ->
  aead_ok (sf_ticket cf) -> bytes_ok (sc_token c) ->
  issued (sf_ticket cf) (pe_ip pe) time odcid rcid pn (sc_token c) ->
  now <= expiry time odcid -> ~ In (expiry time odcid, last8 (sc_token c)) (st_reg st) ->
  (odcid <> [] -> rcid = dcid /\ pn < seq) ->
  exists st', incoming_packet cf known st rns pe now pkt = Some (st', [ACreate dcid true odcid]) /\
    st_conns st' = st_conns st + 1 /\ find_long (st_lk st') PtInitial dcid <> None.
Proof.
  intros c cf known st rns pe now seq payload hl loss room pkt vn v2 time odcid rcid pn dcid cy Hc Hcy Hhl Hpr Hl H8 Hf Hw Hr Hae Hbt Hiss Hnow Hreg Hpn.
  destruct (verify_issued _ (st_reg st) _ now dcid (u32 seq) _ _ _ _ _ Hae Hbt Hiss) as (v & Ev & _ & Eod & Hok).
  assert (Hv : v_ok v = true).
  { apply Hok. split; [exact Hnow|]. split; [exact Hreg|]. intro Ho. destruct (Hpn Ho) as [-> Hlt].
    split; [reflexivity|]. left. unfold u32. rewrite N.mod_small; [exact Hlt|]. destruct Hw as (_ & _ & _ & Hw). change (256 ^ 4 / 2) with 2147483648 in Hw. lia. }
  assert (Htl : 0 < blen (sc_token c)).
  { destruct (issued_decrypts _ _ _ _ _ _ _ Hae Hbt Hiss) as (_ & H & _). lia. }
  rewrite <- Eod.
  apply (client_verdict c cf known st rns pe now seq payload hl loss room pkt vn v2 true false
           (match v_new v with Some b => b | None => false end) (v_odcid v) (v_reg v)); try assumption; try reflexivity.
  destruct (N.ltb_spec 0 (blen (sc_token c))); [|lia]. fold dcid. rewrite Ev. cbn [obind]. rewrite Hv. reflexivity.
Qed.
