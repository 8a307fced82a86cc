(** Proofs about Retry packets: the client, and the way from a first packet to a validated
    connection. *)
From Verif Require Import Base Tac Varint_model Varint_spec Varint_proofs Mem Mem_proofs
  PacketNumber_model PacketNumber_proofs Header_model Header_spec Header_proofs Header2_proofs Header3_proofs
  Protect_model Protect_spec Protect_proofs Protect2_proofs Protect3_proofs
  Rtoken_model Rtoken_spec Rtoken_proofs Rtoken2_proofs Ports_model Segment_model Segment_spec Segment_proofs Segment2_proofs Segment3_proofs
  Segment4_proofs Segment5_proofs Segment6_proofs Cneg_model Cneg_spec Cneg_proofs.

Lemma retry_bits : forall b0 vi vn v2, b0 < 256 -> N.land b0 128 = 128 -> version_entry vi = Some (vn, v2) ->
  parse_long_packet_type b0 vi = Some PtRetry ->
  exists (q : bool) low, low < 16 /\ b0 = 128 + (if q then 64 else 0) + 16 * type_bits v2 PtRetry + low.
Proof.
  intros b0 vi vn v2 Hb H1 He Hp. unfold parse_long_packet_type in Hp. rewrite He in Hp.
  exists (64 <=? b0 mod 128), (b0 mod 16). split; [lia|].
  assert (E1 : N.land b0 128 = 128 * (b0 / 128 mod 2)).
  { assert (A : forallb (fun b => N.land b 128 =? 128 * (b / 128 mod 2)) (map N.of_nat (seq 0 256)) = true) by (vm_compute; reflexivity).
    rewrite forallb_forall in A. apply N.eqb_eq, A. apply in_map_iff. exists (N.to_nat b0). split; [lia|]. apply in_seq. lia. }
  assert (E2 : N.land (N.shiftr b0 4) 3 = b0 / 16 mod 4).
  { change 3 with (N.ones 2). rewrite N.land_ones, N.shiftr_div_pow2. reflexivity. }
  rewrite E2 in Hp. rewrite E1 in H1.
  destruct (N.leb_spec 64 (b0 mod 128)); destruct v2; cbn [type_bits].
  all: repeat match type of Hp with context[?a =? ?b] => destruct (N.eqb_spec a b); try discriminate Hp end; lia.
Qed.

(** The header of a Retry packet, both ways. *)
Lemma retry_parsed : forall lk vi vn v2 q low dcid scid body, version_entry vi = Some (vn, v2) -> low < 16 ->
  blen dcid <= 20 -> blen scid <= 20 -> body <> [] -> blen body < 65536 ->
  let found := find_long lk PtRetry dcid in let h := long_start v2 PtRetry q low vn dcid scid in
  exists ph, parse_header lk (h ++ body) None true = Some (POk ph found) /\
    ph_type ph = (if fixed_bit_ok q found then PtRetry else PtError) /\
    ph_vn ph = vn /\ ph_vi ph = Some vi /\ ph_dcid ph = dcid /\ ph_scid ph = scid /\
    ph_offset ph = blen h /\ ph_payload ph = blen body.
Proof.
  intros lk vi vn v2 q low dcid scid body Hve Hlow Hd Hs Hb Hb2 found h.
  destruct (first_parsed PtRetry vi (vn, v2) q low (or_intror eq_refl) Hve Hlow) as (Hpt & Hf & Hq & _). cbn [snd] in *.
  set (f := first_byte v2 PtRetry q low) in *.
  destruct (version_index_entry _ _ Hve) as [Hvi Hvn]. cbn [fst] in Hvi, Hvn.
  assert (Hbp : 0 < blen body) by (destruct body; [congruence|rewrite blen_cons; lia]).
  assert (EP : h ++ body = f :: format_32 vn ++ blen dcid :: dcid ++ blen scid :: scid ++ body).
  { unfold h, long_start. rewrite format_be32 by lia. fold (first_byte v2 PtRetry q low). fold f. cbn [app]. f_equal. rewrite <- app_assoc. f_equal. cbn [app].
    f_equal. rewrite <- app_assoc. reflexivity. }
  eexists. split.
  { unfold parse_header. replace (mem_get 0 (h ++ body)) with (Some f) by (rewrite EP; reflexivity).
    cbn [obind]. rewrite Hf. change (128 =? 128) with true. cbv iota.
    unfold parse_long. rewrite (blen_app h body). rewrite EP. cbn [frames_uint8_decode].
    rewrite dec_32 by lia. rewrite Hvi. destruct (N.eqb_spec vn 0); [lia|].
    rewrite dec_cid by exact Hd. rewrite dec_cid by exact Hs. rewrite Hpt. cbn [obind]. rewrite Hq. cbn beta iota zeta.
    replace (blen h + blen body - blen body) with (blen h) by lia.
    destruct (N.ltb_spec (blen h) (blen h + blen body)); [|lia].
    replace (blen h + blen body - blen h) with (blen body) by lia.
    cbn beta iota zeta. cbn [ptype_eqb or_find]. fold found. reflexivity. }
  cbn [ph_type ph_vn ph_vi ph_dcid ph_scid ph_token ph_epoch ph_pc ph_offset ph_pn_offset ph_payload].
  repeat match goal with |- _ /\ _ => split end; try reflexivity; try (unfold u16; lia).
  unfold fixed_bit_ok. destruct q, found as [d|]; cbn [negb andb orb];
      try reflexivity; destruct (cd_grease d); reflexivity.
Qed.

Lemma retry_parse_inv : forall lk bytes ph cnx, bytes_ok bytes -> parse_header lk bytes None true = Some (POk ph cnx) -> ph_type ph = PtRetry ->
  exists vi v2 q low body, version_entry vi = Some (ph_vn ph, v2) /\ low < 16 /\
    bytes = long_start v2 PtRetry q low (ph_vn ph) (ph_dcid ph) (ph_scid ph) ++ body /\ body <> [] /\
    blen (ph_dcid ph) <= 20 /\ blen (ph_scid ph) <= 20 /\ cnx = find_long lk PtRetry (ph_dcid ph).
Proof.
  intros lk bytes ph cnx Hb Hp Ht. unfold parse_header in Hp.
  destruct bytes as [|b0 bs]; [discriminate|]. change (mem_get 0 (b0 :: bs)) with (Some b0) in Hp. cbn [obind] in Hp.
  assert (Hbs : bytes_ok bs) by (inversion Hb; assumption). assert (Hb0 : b0 < 256) by (inversion Hb; assumption).
  destruct (N.eqb_spec (N.land b0 128) 128) as [H128|H128].
  2: { exfalso. unfold parse_short in Hp. change (mem_get 0 (b0 :: bs)) with (Some b0) in Hp. cbn [obind] in Hp.
       match type of Hp with (obind ?x _) = _ => destruct x as [[[d o] f]|] end; [|discriminate]. cbn [obind] in Hp.
       destruct f as [c|]; [match type of Hp with (if ?c then _ else _) = _ => destruct c end; [discriminate|]|]; apply some_inj in Hp;
         apply (f_equal (fun r => match r with POk h _ => ph_type h | _ => PtVersion end)) in Hp; cbn [ph_type] in Hp; congruence. }
  unfold parse_long in Hp. cbn [frames_uint8_decode] in Hp.
  destruct (frames_uint32_decode bs) as [[vn r2]|] eqn:E1; [|discriminate].
  destruct (be32_inv _ _ _ Hbs E1) as [Ebs Hvn].
  set (vi := get_version_index vn) in *.
  destruct (if vn =? 0 then Some None else match vi with None => None | Some i => Some (Some i) end) as [ovi|] eqn:Ev; [|discriminate].
  destruct (cid_decode r2) as [[dcid r3]|] eqn:E3; [|discriminate].
  destruct (cid_decode_inv _ _ _ E3) as [Hd L3]. subst r2.
  destruct (cid_decode r3) as [[scid r4]|] eqn:E4; [|discriminate].
  destruct (cid_decode_inv _ _ _ E4) as [Hs L4]. subst r3.
  cbv zeta in Hp.
  destruct ovi as [i|].
  2: { apply some_inj in Hp. apply (f_equal (fun r => match r with POk h _ => ph_type h | _ => PtError end)) in Hp. cbn [ph_type] in Hp. congruence. }
  assert (Hvi : vi = Some i).
  { destruct (vn =? 0); [discriminate|]. destruct vi; [|discriminate]. injection Ev as ->. reflexivity. }
  destruct (version_index_back vn i Hvi) as ([vn' v2] & Ee & E'). cbn [fst] in E'. subst vn'.
  destruct (parse_long_packet_type b0 i) as [pt|] eqn:Ept; [|discriminate]. cbn [obind] in Hp.
  assert (Hpt : pt = PtRetry).
  { destruct pt; try reflexivity; exfalso; cbv beta iota zeta in Hp;
      repeat (match type of Hp with context[match ?x with _ => _ end] => lazymatch x with context[match _ with _ => _ end] => fail | _ => destruct x end end; cbv beta iota zeta in Hp; cbn [ptype_eqb] in Hp);
      try discriminate Hp; apply some_inj in Hp; apply (f_equal (fun r => match r with POk h _ => ph_type h | _ => PtError end)) in Hp; cbn [ph_type] in Hp; congruence. }
  subst pt. cbv beta iota zeta in Hp.
  destruct (retry_bits _ _ _ _ Hb0 H128 Ee Ept) as (q & low & Hlow & Eb0).
  assert (Eraw : b0 :: bs = long_start v2 PtRetry q low vn dcid scid ++ r4).
  { unfold long_start. rewrite Ebs, Eb0. cbn [app]. f_equal. rewrite <- app_assoc. f_equal. cbn [app]. f_equal. rewrite <- app_assoc. reflexivity. }
  match type of Hp with context[?a <? ?b] => destruct (N.ltb_spec a b) as [Hlt|_] end.
  2: { cbn [ptype_eqb] in Hp. apply some_inj in Hp. apply (f_equal (fun r => match r with POk h _ => ph_type h | _ => PtVersion end)) in Hp. cbn [ph_type] in Hp. congruence. }
  cbn [ptype_eqb or_find] in Hp. apply some_inj in Hp.
  pose proof (f_equal (fun r => match r with POk h _ => h | _ => ph end) Hp) as Hh. cbv beta iota in Hh.
  apply (f_equal (fun r => match r with POk _ c => c | _ => None end)) in Hp. cbn [or_find] in Hp.
  subst ph cnx. cbn [ph_vn ph_dcid ph_scid].
  exists i, v2, q, low, r4. split; [exact Ee|]. split; [exact Hlow|]. split; [exact Eraw|]. split; [|split; [exact Hd|split; [exact Hs|reflexivity]]].
  intro Z. rewrite Z, blen_nil in Hlt. lia.
Qed.

(** What a client accepts, exactly. *)
Lemma client_retry : forall lk tag ct bytes ct' vn v2, bytes_ok bytes -> blen bytes <= 1536 ->
  (forall vi p, blen (tag vi p) = 16) -> version_entry (ct_vi ct) = Some (vn, v2) -> blen (ct_initial ct) <= 20 ->
  (client_receive lk tag ct bytes = Some (CrRetry (RtOk ct')) <->
   waiting ct /\ ct_original ct = [] /\ exists q low dcid scid token,
     bytes = retry_packet_of tag (ct_vi ct) vn v2 q low dcid scid token (ct_initial ct) /\ low < 16 /\ token <> [] /\
     blen dcid <= 20 /\ blen scid <= 20 /\ blen bytes + blen (ct_initial ct) < 1551 /\
     (exists c, find_long lk PtRetry dcid = Some c /\ (q = true \/ cd_grease c = true)) /\
     ct' = retried ct scid token).
Proof.
  intros lk tag ct bytes ct' vn v2 Hb Hl Htag Hve Hini. unfold client_receive. split.
  - intro H. destruct (parse_header lk bytes None true) as [[|vn0|ph [c|]]|] eqn:Ep; cbn [obind] in H; try discriminate.
    destruct (ph_type ph) eqn:Et; try discriminate.
    { destruct (1536 <? blen bytes); discriminate. }
    destruct (1536 <? blen bytes); [discriminate|].
    destruct (incoming_retry tag ct bytes ph) as [r|] eqn:Er; [|discriminate]. cbn [obind] in H.
    assert (r = RtOk ct') by congruence. subst r. clear H.
    destruct (retry_parse_inv _ _ _ _ Hb Ep Et) as (vi & v2' & q & low & body & Hve' & Hlow & Ebytes & Hbody & Hd & Hs & Hfound).
    assert (Hbl : blen body < 65536) by (rewrite Ebytes, blen_app in Hl; lia).
    destruct (retry_parsed lk vi (ph_vn ph) v2' q low (ph_dcid ph) (ph_scid ph) body Hve' Hlow Hd Hs Hbody Hbl) as (ph2 & Ep2 & Et2 & _ & Evi & _ & _ & Eoff & Epay). cbv zeta in Ep2, Et2.
    rewrite <- Ebytes in Ep2. rewrite Ep in Ep2. apply some_inj in Ep2. rewrite <- Hfound in Ep2.
    assert (ph = ph2) by congruence. subst ph2. clear Ep2. rewrite <- Hfound in Et2.
    set (h0 := long_start v2' PtRetry q low (ph_vn ph) (ph_dcid ph) (ph_scid ph)) in *.
    unfold incoming_retry in Er.
    assert (Hw : waiting ct) by (unfold waiting; destruct (ct_phase ct); auto; discriminate).
    assert (Er2 : (if negb (blen (ct_original ct) =? 0) then Some RtUnexpected
      else e <~ version_entry (ct_vi ct) ;;
      if negb (ph_vn ph =? fst e) then Some RtUnexpected
      else
        o <~ verify_retry_protection tag (ct_vi ct) bytes (ph_offset ph + ph_payload ph) (ph_offset ph) (ct_initial ct) ;;
        match o with
        | None => Some RtAead
        | Some data_length =>
          token <~ mem_read (ph_offset ph) (data_length - ph_offset ph) bytes ;;
          Some (RtOk (mk_cstate (ct_phase ct) (ct_local ct) (ph_scid ph) (ct_initial ct) (ct_proposed ct) (ct_vi ct) token))
        end) = Some (RtOk ct')) by (destruct (ct_phase ct); [exact Er|exact Er|discriminate]).
    clear Er. destruct (N.eqb_spec (blen (ct_original ct)) 0) as [Ho|]; [|discriminate]. cbn [negb] in Er2.
    rewrite Hve in Er2. cbn [obind fst] in Er2. destruct (N.eqb_spec (ph_vn ph) vn) as [Evn|]; [|discriminate]. cbn [negb] in Er2.
    assert (Hv2 : v2' = v2 /\ vi = ct_vi ct).
    { rewrite Evn in Hve'. destruct (version_index_entry _ _ Hve) as [I1 _]. destruct (version_index_entry _ _ Hve') as [I2 _]. cbn [fst] in I1, I2.
      rewrite I1 in I2. apply some_inj in I2. rewrite I2 in Hve. rewrite Hve in Hve'. split; congruence. }
    destruct Hv2 as [-> ->]. rewrite Evn in *.
    rewrite Eoff, Epay in Er2.
    unfold verify_retry_protection in Er2.
    destruct (N.ltb_spec (blen h0 + 16) (blen h0 + blen body)) as [H16|]; [|cbn [obind] in Er2; discriminate].
    cbv zeta in Er2. destruct (N.ltb_spec (blen h0 + blen body - 16 + blen (ct_initial ct) + 1) 1536) as [H1536|]; [|cbn [obind] in Er2; discriminate].
    (* the token and the checksum *)
    destruct (split_at (blen body - 16) body ltac:(lia)) as [Ebody Ltok].
    set (token := firstn (N.to_nat (blen body - 16)) body) in *. set (sum := skipn (N.to_nat (blen body - 16)) body) in *.
    assert (Lsum : blen sum = 16) by (rewrite Ebody, blen_app in H16; rewrite Ebody, blen_app in Ltok; lia).
    assert (Eb2 : bytes = (h0 ++ token) ++ sum) by (rewrite Ebytes, Ebody, <- app_assoc; reflexivity).
    assert (Rh : mem_read 0 (blen h0 + blen body - 16) bytes = Some (h0 ++ token)).
    { rewrite Eb2. apply (mem_split3 [] (h0 ++ token) sum); [reflexivity|]. rewrite blen_app. lia. }
    assert (Rs : mem_read (blen h0 + blen body - 16) 16 bytes = Some sum).
    { rewrite Eb2. rewrite <- (app_nil_r sum) at 1. apply mem_split3; [rewrite blen_app; lia|symmetry; exact Lsum]. }
    rewrite Rh in Er2. cbn [obind] in Er2. rewrite Rs in Er2. cbn [obind] in Er2.
    destruct (same_id sum (tag (ct_vi ct) (blen (ct_initial ct) :: ct_initial ct ++ h0 ++ token))) eqn:Esum; [|cbn [obind] in Er2; discriminate].
    apply same_id_true in Esum. cbn [obind] in Er2.
    assert (Rt : mem_read (blen h0) (blen h0 + blen body - 16 - blen h0) bytes = Some token).
    { rewrite Eb2, <- app_assoc. apply mem_split3; [reflexivity|lia]. }
    rewrite Rt in Er2. cbn [obind] in Er2.
    split; [exact Hw|]. split; [destruct (ct_original ct); [reflexivity|rewrite blen_cons in Ho; lia]|].
    exists q, low, (ph_dcid ph), (ph_scid ph), token.
    split; [unfold retry_packet_of; cbv zeta; rewrite <- Evn; fold h0; rewrite <- Esum; exact Eb2|]. split; [exact Hlow|].
    split; [intro Z; rewrite Z, blen_nil in Ltok; lia|]. split; [exact Hd|]. split; [exact Hs|].
    split; [rewrite Eb2, !blen_app, Lsum; lia|]. split; [|unfold retried; congruence].
    exists c. split; [symmetry; exact Hfound|]. rewrite Et in Et2. unfold fixed_bit_ok in Et2. destruct q; [left; reflexivity|right].
    cbn [orb] in Et2. destruct (cd_grease c); [reflexivity|discriminate].
  - intros (Hw & Ho & q & low & dcid & scid & token & Eb & Hlow & Htok & Hd & Hs & Hlen & (c & Hfind & Hq) & ->).
    set (h0 := long_start v2 PtRetry q low vn dcid scid) in *.
    unfold retry_packet_of in Eb. cbv zeta in Eb. fold h0 in Eb.
    set (sum := tag (ct_vi ct) (blen (ct_initial ct) :: ct_initial ct ++ h0 ++ token)) in *.
    assert (Lsum : blen sum = 16) by apply Htag.
    assert (Eb2 : bytes = h0 ++ (token ++ sum)) by (rewrite Eb, <- app_assoc; reflexivity).
    assert (Hbody : token ++ sum <> []) by (destruct token; [congruence|discriminate]).
    assert (Hbl : blen (token ++ sum) < 65536) by (rewrite Eb2, blen_app in Hl; lia).
    assert (Hpos : 0 < blen token) by (destruct token; [congruence|rewrite blen_cons; lia]).
    destruct (retry_parsed lk (ct_vi ct) vn v2 q low dcid scid (token ++ sum) Hve Hlow Hd Hs Hbody Hbl) as (ph & Ep & Et & Evn & _ & _ & Esc & Eoff & Epay). cbv zeta in Ep, Et.
    fold h0 in Ep, Eoff. rewrite <- Eb2 in Ep. rewrite Ep. cbn [obind]. rewrite Hfind. rewrite Et, Hfind.
    assert (Hfix : fixed_bit_ok q (Some c) = true) by (unfold fixed_bit_ok; destruct Hq as [-> | ->]; [reflexivity|apply Bool.orb_true_r]). rewrite Hfix.
    destruct (N.ltb_spec 1536 (blen bytes)); [lia|].
    assert (Hret : incoming_retry tag ct bytes ph = Some (RtOk (retried ct scid token))); [|rewrite Hret; reflexivity].
    unfold incoming_retry. rewrite Ho. change (blen []) with 0. change (0 =? 0) with true. cbn [negb]. rewrite Hve. cbn [obind fst].
    rewrite Evn, N.eqb_refl. cbn [negb]. rewrite Eoff, Epay.
    assert (Hver : verify_retry_protection tag (ct_vi ct) bytes (blen h0 + blen (token ++ sum)) (blen h0) (ct_initial ct) = Some (Some (blen h0 + blen token))).
    { unfold verify_retry_protection. rewrite blen_app, Lsum.
      destruct (N.ltb_spec (blen h0 + 16) (blen h0 + (blen token + 16))); [|lia]. cbv zeta.
      replace (blen h0 + (blen token + 16) - 16) with (blen h0 + blen token) by lia.
      rewrite Eb2, !blen_app, Lsum in Hlen.
      destruct (N.ltb_spec (blen h0 + blen token + blen (ct_initial ct) + 1) 1536); [|lia].
      assert (Rh : mem_read 0 (blen h0 + blen token) bytes = Some (h0 ++ token)).
      { rewrite Eb. apply (mem_split3 [] (h0 ++ token) sum); [reflexivity|]. rewrite blen_app. lia. }
      rewrite Rh. cbn [obind].
      assert (Rs : mem_read (blen h0 + blen token) 16 bytes = Some sum).
      { rewrite Eb. rewrite <- (app_nil_r sum) at 1. apply mem_split3; [rewrite blen_app; lia|symmetry; exact Lsum]. }
      rewrite Rs. cbn [obind]. unfold sum at 1. rewrite (proj2 (same_id_true _ _) eq_refl). reflexivity. }
    rewrite Hver. cbn [obind].
    assert (Rt : mem_read (blen h0) (blen h0 + blen token - blen h0) bytes = Some token).
    { rewrite Eb2. apply mem_split3; [reflexivity|lia]. }
    rewrite Rt. cbn [obind]. rewrite Esc. unfold retried. destruct Hw as [-> | ->]; reflexivity.
Qed.

(** One segment that ends the datagram, whatever it draws. *)
Lemma last_segment : forall cf known st rns pe now pkt st1 acts prev1, pkt <> [] ->
  incoming_segment cf known st (rns (length pkt - 1)%nat) pe now pkt (blen pkt) [] = Some (st1, acts, prev1, None) ->
  incoming_packet cf known st rns pe now pkt = Some (st1, acts).
Proof.
  intros cf known st rns pe now pkt st1 acts prev1 Hne H. unfold incoming_packet.
  destruct pkt as [|b bs] eqn:E; [congruence|]. rewrite <- E in *. replace (length pkt) with (S (length bs)) in * by (rewrite E; reflexivity).
  cbn [incoming_segments]. rewrite E at 1. replace (S (length bs) - 1)%nat with (length bs) in H by lia. rewrite H. reflexivity.
Qed.

(** The server answers with a Retry to a first packet without token, when it wants one. *)
Lemma server_retry : forall c cf known st rns pe now seq payload hl loss room pkt vn v2,
  let dcid := dest_of c PtInitial in let cy := fst (sf_keys cf (sc_version_index c) dcid) in
  env_ok cf (st_lk st) rns -> sender_ok c vn v2 -> hl = predict_long_header_length c PtInitial ->
  protect_packet c cy PtInitial seq payload hl loss room = Some pkt -> 1200 <= blen pkt <= 1536 -> 8 <= blen dcid ->
  find_long (st_lk st) PtInitial dcid = None -> in_window 4 seq 0 -> server_ready cf st -> now + 200000000 < two64 ->
  sc_token c = [] -> wants_token cf st pe = true -> addr_refused cf pe = false ->
  let rcid := rn_cid (rns (length pkt - 1)%nat) in
  exists token low, low < 4 /\ issued (sf_ticket cf) (pe_ip pe) (now + 120000000) dcid rcid 0 token /\ token <> [] /\ blen token <= 82 /\
    incoming_packet cf known st rns pe now pkt =
      Some (st, [ARetry (retry_packet_of (sf_retry_tag cf) (sc_version_index c) vn v2 true low (sc_local0 c) rcid token dcid)]).
Proof.
  intros c cf known st rns pe now seq payload hl loss room pkt vn v2 dcid cy He Hc Hhl Hpr [H12 H15] H8 Hf Hw (R1 & R2 & R3) Hnow Ht Hwt Href rcid.
  destruct (client_opened c cf (st_lk st) seq payload hl loss room pkt vn v2 [] Hc (eo_read _ _ _ He _ _) Hhl Hpr H15 Hf Hw)
    as (ph & Hp & Et & Evn & Evi & Ed & Es & Etok & Hcons & Ho). rewrite app_nil_r in Hp, Ho. fold dcid in Ed.
  set (rn := rns (length pkt - 1)%nat) in *.
  assert (Hcid : blen (rn_cid rn) <= 20) by (unfold rn; rewrite (eo_cid _ _ _ He); apply (eo_cid_len _ _ _ He)).
  assert (Hs : blen (ph_scid ph) <= 20) by (rewrite Es; apply (so_local0 _ _ _ Hc)).
  assert (Hd : blen (ph_dcid ph) <= 20) by (rewrite Ed; apply (dest_of_len _ _ _ PtInitial Hc)).
  destruct (retry_eq cf rn pe now ph (sc_version_index c) (vn, v2) Evi (so_version _ _ _ Hc) (eo_ticket _ _ _ He) (eo_tag _ _ _ He) Hnow ltac:(rewrite Ed; lia) Hd Hs Hcid
      (proj1 (eo_nonce _ _ _ He _)) (proj2 (eo_nonce _ _ _ He _))) as (token & low & Hiss & Hlow & Lt & Er & Lh). cbv zeta in Er, Lh.
  rewrite Ed in Hiss.
  exists token, low. split; [exact Hlow|]. split; [exact Hiss|].
  split.
  { intro Z. destruct Hiss as ((nonce & Ln & _ & Hprep) & _). subst token. unfold prepare_retry_token, encrypt_retry_token in Hprep.
    match type of Hprep with match ?x with _ => _ end = _ => destruct x as [t|]; [|discriminate] end.
    destruct (256 <? _); [discriminate|]. destruct nonce as [|n0 nr]; [rewrite blen_nil in Ln; lia|].
    match type of Hprep with obind ?x _ = _ => destruct x; [|discriminate] end. cbn [obind] in Hprep.
    cbn [app] in Hprep. match type of Hprep with (if ?c then _ else _) = _ => destruct c; [discriminate|] end. discriminate. }
  split; [exact Lt|].
  apply (last_segment cf known st rns pe now pkt st _ (ph_dcid ph)); [intro E; rewrite E, blen_nil in H12; lia|].
  fold rn. unfold incoming_segment. rewrite Hp. cbn [obind]. cbv zeta. rewrite Et.
  assert (Hscr : screen_initial cf st pe now pkt (blen pkt) ph = Some (st, ScRetry)).
  { unfold screen_initial. destruct (N.ltb_spec (blen pkt) 1200); [lia|]. rewrite Ed. destruct (N.ltb_spec (blen dcid) 8); [lia|].
    rewrite R1, R2. destruct (N.leb_spec (sf_max_conns cf) (st_conns st)); [lia|]. cbn [orb]. rewrite Ho. cbn [obind].
    rewrite Etok, Ht. change (0 <? blen []) with false. cbv iota. cbn [obind negb andb]. unfold wants_token in Hwt. rewrite Hwt.
    destruct st; reflexivity. }
  rewrite Hscr. cbn [obind]. destruct (N.leb_spec 1200 (blen pkt)); [|lia]. rewrite Href. cbn [negb andb].
  rewrite Er. cbn [obind].
  match goal with |- Some (st, [ARetry ?x], _, None) = Some (st, [ARetry ?y], _, None) => assert (Exy : x = y); [|rewrite Exy; reflexivity] end.
  unfold retry_packet_of. cbv zeta. rewrite Ed, Es, Evn. fold rcid.
  assert (Eh : long_head (first_byte (snd (vn, v2)) PtRetry true low) vn (sc_local0 c) (rn_cid rn) PtRetry token = long_start v2 PtRetry true low vn (sc_local0 c) rcid).
  { unfold long_head, long_start, token_part. cbn [ptype_eqb snd]. rewrite app_nil_r.
    destruct (version_index_entry _ _ (so_version _ _ _ Hc)) as [_ Hvn]. cbn [fst] in Hvn. rewrite format_be32 by lia. reflexivity. }
  fold rcid in Eh |- *. rewrite Eh. reflexivity.
Qed.

(** From the first packet to a validated connection. *)
Lemma retry_end_to_end : forall c cf known st rns pe now seq payload hl loss room pkt vn v2 lk ct,
  let dcid := dest_of c PtInitial in let cy := fst (sf_keys cf (sc_version_index c) dcid) in
  env_ok cf (st_lk st) rns -> sender_ok c vn v2 -> hl = predict_long_header_length c PtInitial ->
  protect_packet c cy PtInitial seq payload hl loss room = Some pkt -> 1200 <= blen pkt <= 1536 -> 8 <= blen dcid ->
  find_long (st_lk st) PtInitial dcid = None -> in_window 4 seq 0 -> server_ready cf st -> now + 200000000 < two64 ->
  wants_token cf st pe = true -> addr_refused cf pe = false ->
  same_client c ct -> waiting ct -> ct_original ct = [] -> ct_token ct = [] -> finds lk ct ->
  exists b token, incoming_packet cf known st rns pe now pkt = Some (st, [ARetry b]) /\
    (bytes_ok b ->
     let rcid := rn_cid (rns (length pkt - 1)%nat) in let ct' := retried ct rcid token in
     client_receive lk (sf_retry_tag cf) ct b = Some (CrRetry (RtOk ct')) /\
     forall c2 known2 st2 rns2 now2 seq2 payload2 hl2 loss2 room2 pkt2,
       let cy2 := fst (sf_keys cf (sc_version_index c2) rcid) in
       same_client c2 ct' -> sender_ok c2 vn v2 -> hl2 = predict_long_header_length c2 PtInitial ->
       protect_packet c2 cy2 PtInitial seq2 payload2 hl2 loss2 room2 = Some pkt2 -> 1200 <= blen pkt2 <= 1536 ->
       8 <= lk_cid_len (st_lk st) -> find_long (st_lk st2) PtInitial rcid = None -> in_window 4 seq2 0 -> 0 < seq2 ->
       server_ready cf st2 -> now2 <= now + 124000000 -> ~ In (now + 124000000, last8 token) (st_reg st2) ->
       exists st3, incoming_packet cf known2 st2 rns2 pe now2 pkt2 = Some (st3, [ACreate rcid true dcid]) /\
         st_conns st3 = st_conns st2 + 1).
Proof.
  intros c cf known st rns pe now seq payload hl loss room pkt vn v2 lk ct dcid cy He Hc Hhl Hpr Hlen H8 Hf Hw Hr Hnow Hwt Href Hsm Hwait Hor Htok Hfinds.
  pose proof (sm_token _ _ Hsm) as St. rewrite Htok in St.
  destruct (server_retry c cf known st rns pe now seq payload hl loss room pkt vn v2 He Hc Hhl Hpr Hlen H8 Hf Hw Hr Hnow St Hwt Href)
    as (token & low & Hlow & Hiss & Hne & Lt & Hin). cbv zeta in Hiss, Hin. fold dcid in Hiss, Hin.
  set (rcid := rn_cid (rns (length pkt - 1)%nat)) in *.
  set (b := retry_packet_of (sf_retry_tag cf) (sc_version_index c) vn v2 true low (sc_local0 c) rcid token dcid) in *.
  exists b, token. split; [exact Hin|]. intro Hb. cbv zeta.
  assert (Ed : dcid = ct_initial ct).
  { unfold dcid, dest_of. rewrite (sm_remote _ _ Hsm), (sm_client _ _ Hsm). apply (sm_initial _ _ Hsm). }
  assert (Hd20 : blen dcid <= 20) by (apply (dest_of_len _ _ _ PtInitial Hc)).
  assert (Hrc : blen rcid = lk_cid_len (st_lk st)) by (apply (eo_cid _ _ _ He)).
  pose proof (eo_cid_len _ _ _ He) as Hrl.
  pose proof (so_local0 _ _ _ Hc) as Hl0.
  assert (Lb : blen b <= 7 + 20 + 20 + 82 + 16).
  { unfold b, retry_packet_of, long_start. cbv zeta. rewrite !blen_app, !blen_cons, !blen_app, !blen_cons, (eo_tag _ _ _ He). change (blen (be32 vn)) with 4. repeat (rewrite blen_app || rewrite blen_cons). rewrite !blen_nil. lia. }
  destruct Hfinds as (_ & _ & Hfl).
  destruct (find_long lk PtRetry (ct_local ct)) as [cd|] eqn:Efl; [|congruence].
  split.
  - apply (client_retry lk (sf_retry_tag cf) ct b (retried ct rcid token) vn v2 Hb); [lia|apply (eo_tag _ _ _ He)| | |].
    + rewrite <- (sm_version _ _ Hsm). apply (so_version _ _ _ Hc).
    + rewrite <- Ed. exact Hd20.
    + split; [exact Hwait|]. split; [exact Hor|]. exists true, low, (ct_local ct), rcid, token.
      split; [unfold b; rewrite Ed, (sm_version _ _ Hsm), (sm_local _ _ Hsm); reflexivity|]. split; [lia|]. split; [exact Hne|].
      split; [rewrite <- (sm_local _ _ Hsm); exact Hl0|]. split; [lia|]. split; [rewrite <- Ed; lia|].
      split; [|reflexivity]. exists cd. split; [exact Efl|left; reflexivity].
  - intros c2 known2 st2 rns2 now2 seq2 payload2 hl2 loss2 room2 pkt2 Hsm2 Hc2 Hhl2 Hpr2 Hlen2 Hcl Hf2 Hw2 Hseq Hr2 Hnow2 Hreg.
    assert (Ed2 : dest_of c2 PtInitial = rcid).
    { unfold dest_of. rewrite (sm_remote _ _ Hsm2), (sm_client _ _ Hsm2). apply (sm_initial _ _ Hsm2). }
    assert (Et2 : sc_token c2 = token) by apply (sm_token _ _ Hsm2).
    assert (Hbt : bytes_ok token).
    { unfold b, retry_packet_of in Hb. cbv zeta in Hb. apply bytes_ok_app in Hb. destruct Hb as [Hb _]. apply bytes_ok_app in Hb. apply Hb. }
    assert (Hexp : expiry (now + 120000000) dcid = now + 124000000).
    { unfold expiry. destruct dcid as [|x l]; [rewrite blen_nil in H8; lia|lia]. }
    destruct (client_token c2 cf known2 st2 rns2 pe now2 seq2 payload2 hl2 loss2 room2 pkt2 vn v2 (now + 120000000) dcid rcid 0) as (st3 & E3 & Hn3 & _);
      try (rewrite Ed2; assumption); try (rewrite Et2; assumption); try assumption.
    + apply (eo_read _ _ _ He).
    + rewrite Ed2. lia.
    + apply (eo_ticket _ _ _ He).
    + rewrite Hexp. exact Hnow2.
    + rewrite Hexp, Et2. exact Hreg.
    + intros _. rewrite Ed2. split; [reflexivity|exact Hseq].
    + rewrite Ed2 in E3. exists st3. split; [exact E3|exact Hn3].
Qed.

(** With short local ids the second packet of the client is dropped. *)
Lemma short_cid_dropped : forall c cf known st rns pe now seq payload hl loss room pkt vn v2,
  let dcid := dest_of c PtInitial in let cy := fst (sf_keys cf (sc_version_index c) dcid) in
  ciphers_ok cy -> sender_ok c vn v2 -> hl = predict_long_header_length c PtInitial ->
  protect_packet c cy PtInitial seq payload hl loss room = Some pkt -> 1200 <= blen pkt <= 1536 -> blen dcid < 8 ->
  find_long (st_lk st) PtInitial dcid = None -> in_window 4 seq 0 ->
  incoming_packet cf known st rns pe now pkt = Some (st, []).
Proof.
  intros c cf known st rns pe now seq payload hl loss room pkt vn v2 dcid cy Hcy Hc Hhl Hpr [H12 H15] H8 Hf Hw.
  destruct (client_opened c cf (st_lk st) seq payload hl loss room pkt vn v2 [] Hc Hcy Hhl Hpr H15 Hf Hw)
    as (ph & Hp & Et & Evn & Evi & Ed & Es & Etok & Hcons & Ho). rewrite app_nil_r in Hp, Ho. fold dcid in Ed.
  apply (last_segment cf known st rns pe now pkt st [] (ph_dcid ph)); [intro E; rewrite E, blen_nil in H12; lia|].
  unfold incoming_segment. rewrite Hp. cbn [obind]. cbv zeta. rewrite Et.
  assert (Hscr : screen_initial cf st pe now pkt (blen pkt) ph = Some (st, ScCidShort)).
  { unfold screen_initial. destruct (N.ltb_spec (blen pkt) 1200); [lia|]. rewrite Ed. destruct (N.ltb_spec (blen dcid) 8); [|lia]. reflexivity. }
  rewrite Hscr. cbn [obind]. reflexivity.
Qed.
