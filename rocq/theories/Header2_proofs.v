(** Proofs about packet headers: what the sender writes is what the receiver reads. *)
From Verif Require Import Base Tac Varint_model Varint_spec Varint_proofs Mem Mem_proofs
  PacketNumber_model PacketNumber_proofs Header_model Header_spec Header_proofs.

Lemma some_triple_inj : forall {A B C} (a d : A) (b e : B) (c f : C),
  Some (a, b, c) = Some (d, e, f) -> a = d /\ b = e /\ c = f.
Proof. intros A B C a d b e c f H. inversion H. repeat split. Qed.

Lemma dest_of_eq : forall c pt, long_type pt ->
  (if sc_client c && (ptype_eqb pt PtInitial || ptype_eqb pt Pt0rtt) && (blen (sc_remote0 c) =? 0)
   then sc_initial_cid c else sc_remote0 c) = dest_of c pt.
Proof.
  intros c pt H. unfold dest_of. destruct (sc_remote0 c) as [|x l].
  - change (blen [] =? 0) with true. destruct (sc_client c); [|reflexivity].
    destruct H as [[-> |[-> | ->]] | ->]; reflexivity.
  - destruct (N.eqb_spec (blen (x :: l)) 0) as [H0|_]; [rewrite blen_cons in H0; lia|].
    rewrite Bool.andb_false_r. reflexivity.
Qed.

Lemma dest_of_len : forall c vn v2 pt, sender_ok c vn v2 -> blen (dest_of c pt) <= 20.
Proof.
  intros c vn v2 pt H. destruct H. unfold dest_of. destruct (sc_remote0 c); [|assumption].
  destruct (sc_client c); [|rewrite blen_nil; lia]. destruct pt; try assumption; rewrite blen_nil; lia.
Qed.

Lemma create_header_eq : forall c pt seq hl room vn v2,
  sender_ok c vn v2 -> long_type pt ->
  exists low, low < 4 /\ (numbered pt -> low = 3) /\
  let h := long_head (first_byte v2 pt (negb (sc_grease c)) low) vn (dest_of c pt) (sc_local0 c) pt (sc_token c) in
  create_packet_header c pt seq hl room =
  if ptype_eqb pt PtRetry then (if room <? blen h then None else Some (h, 0, 0))
  else if room <? blen h + 6 then None else Some (h ++ [0; 0] ++ format_32 (u32 seq), blen h + 2, 4).
Proof.
  intros c pt seq hl room vn v2 Hc Hp.
  destruct (create_long_eq pt (dest_of c pt) (sc_local0 c) (sc_grease c) vn (sc_version_index c) (vn, v2) seq
    (sc_token c) room Hp (so_version _ _ _ Hc) (dest_of_len _ _ _ pt Hc) (so_local0 _ _ _ Hc)) as (low & H1 & H2 & H3).
  exists low. split; [exact H1|]. split; [exact H2|]. cbv zeta in *. cbn [snd] in H3. rewrite <- H3.
  unfold create_packet_header.
  replace (ptype_eqb pt Pt1rtt) with false by (destruct Hp as [[-> |[-> | ->]] | ->]; reflexivity).
  rewrite (so_version _ _ _ Hc). cbn [obind fst]. rewrite dest_of_eq by exact Hp.
  replace (match sc_proposed c with Some v => if ptype_eqb pt PtInitial then v else vn | None => vn end) with vn; [reflexivity|].
  destruct (so_proposed _ _ _ Hc) as [-> | ->]; [reflexivity|destruct (ptype_eqb pt PtInitial); reflexivity].
Qed.

(** The length field, filled in. *)
Lemma update_long : forall h tail n pno plen hlen,
  N.land (nth 0 h 0) 128 = 128 -> h <> [] -> pno = blen h + 2 -> hlen = blen h + 2 -> 6 < hlen ->
  hlen < plen -> plen < 16384 -> n = plen - hlen ->
  update_payload_length (h ++ [0; 0] ++ tail) pno hlen plen = Some (h ++ varint_encode_16 n ++ tail).
Proof.
  intros h tail n pno plen hlen Hb Hh Hp Hl H6 H1 H2 Hn. unfold update_payload_length.
  destruct h as [|b h]; [congruence|]. cbn [nth] in Hb.
  unfold mem_get. change (N.to_nat 0) with 0%nat. cbn [nth_error app obind]. rewrite Hb. cbn [N.eqb negb andb].
  destruct (N.ltb_spec 6 hlen); [|lia]. destruct (N.ltb_spec hlen plen); [|lia].
  destruct (N.ltb_spec plen 16384); [|lia]. cbn [negb andb N.eqb]. change (128 =? 0) with false. cbn [negb andb].
  change (b :: h ++ 0 :: 0 :: tail) with ((b :: h) ++ [0; 0] ++ tail).
  rewrite mem_write3; [|lia|reflexivity]. rewrite Hn.
  replace (u16 (plen - hlen)) with (plen - hlen) by (unfold u16; lia). reflexivity.
Qed.

Lemma long_updated : forall c pt seq hl room hb pno pnl body pkt vn v2,
  sender_ok c vn v2 -> numbered pt ->
  create_packet_header c pt seq hl room = Some (hb, pno, pnl) ->
  blen hb + blen body < 16384 ->
  update_payload_length (hb ++ body) pno (blen hb - pnl) (blen hb + blen body) = Some pkt ->
  let h := long_head (first_byte v2 pt (negb (sc_grease c)) 3) vn (dest_of c pt) (sc_local0 c) pt (sc_token c) in
  pno = blen h + 2 /\ pnl = 4 /\
  pkt = h ++ varint_encode_16 (4 + blen body) ++ format_32 (u32 seq) ++ body /\ 4 + blen body < 16384.
Proof.
  intros c pt seq hl room hb pno pnl body pkt vn v2 Hc Hn Hcr Hlen Hup. cbv zeta.
  destruct (create_header_eq c pt seq hl room vn v2 Hc (or_introl Hn)) as (low & Hlow & H3 & E). cbv zeta in E.
  rewrite E in Hcr. clear E. specialize (H3 Hn). subst low.
  replace (ptype_eqb pt PtRetry) with false in Hcr by (destruct Hn as [-> |[-> | ->]]; reflexivity).
  set (h := long_head (first_byte v2 pt (negb (sc_grease c)) 3) vn (dest_of c pt) (sc_local0 c) pt (sc_token c)) in *.
  destruct (room <? blen h + 6); [discriminate|].
  apply some_triple_inj in Hcr; destruct Hcr as (<- & <- & <-).
  destruct (first_parsed pt (sc_version_index c) (vn, v2) (negb (sc_grease c)) 3 (or_introl Hn) (so_version _ _ _ Hc) Hlow)
    as (_ & Hf & _ & _). cbn [snd] in Hf.
  assert (Hbl : blen (h ++ [0; 0] ++ format_32 (u32 seq)) = blen h + 6).
  { rewrite blen_app. reflexivity. }
  rewrite Hbl in Hlen, Hup.
  assert (Hh6 : 7 <= blen h) by (unfold h; rewrite blen_long_head; lia).
  set (n := 4 + blen body).
  assert (Eu : update_payload_length ((h ++ [0; 0] ++ format_32 (u32 seq)) ++ body) (blen h + 2)
                 (blen h + 6 - 4) (blen h + 6 + blen body) = Some (h ++ varint_encode_16 n ++ format_32 (u32 seq) ++ body)).
  { rewrite <- !app_assoc. apply update_long; try (unfold n; lia).
    - unfold h, long_head. cbn [nth]. exact Hf.
    - unfold h, long_head. discriminate. }
  rewrite Eu in Hup. apply some_inj in Hup. subst pkt.
  repeat match goal with |- _ /\ _ => split end; try reflexivity. unfold n. lia.
Qed.

Lemma long_round_trip : forall c lk pt seq hl room hb pno pnl body rest pkt vn v2,
  sender_ok c vn v2 -> numbered pt ->
  create_packet_header c pt seq hl room = Some (hb, pno, pnl) ->
  blen hb + blen body < 16384 ->
  update_payload_length (hb ++ body) pno (blen hb - pnl) (blen hb + blen body) = Some pkt ->
  let found := find_long lk pt (dest_of c pt) in
  exists ph, parse_header lk (pkt ++ rest) None true = Some (POk ph found) /\
    ph_type ph = (if fixed_bit_ok (negb (sc_grease c)) found then pt else PtError) /\
    ph_vn ph = vn /\ ph_vi ph = Some (sc_version_index c) /\
    ph_dcid ph = dest_of c pt /\ ph_scid ph = sc_local0 c /\
    ph_token ph = (match pt with PtInitial => sc_token c | _ => [] end) /\
    ph_epoch ph = epoch_of pt /\ ph_pc ph = space_of pt /\
    ph_offset ph = pno /\ ph_pn_offset ph = pno /\ ph_payload ph = 4 + blen body.
Proof.
  intros c lk pt seq hl room hb pno pnl body rest pkt vn v2 Hc Hn Hcr Hlen Hup. cbv zeta.
  destruct (long_updated c pt seq hl room hb pno pnl body pkt vn v2 Hc Hn Hcr Hlen Hup) as (Hpno & _ & -> & Hlt).
  destruct (first_parsed pt (sc_version_index c) (vn, v2) (negb (sc_grease c)) 3 (or_introl Hn) (so_version _ _ _ Hc) eq_refl)
    as (_ & Hf & _ & _). cbn [snd] in Hf.
  set (h := long_head (first_byte v2 pt (negb (sc_grease c)) 3) vn (dest_of c pt) (sc_local0 c) pt (sc_token c)) in *.
  set (n := 4 + blen body) in *.
  pose proof (parse_long_eq lk None v2 (sc_version_index c) vn pt (negb (sc_grease c)) 3 (dest_of c pt) (sc_local0 c)
    (sc_token c) n (format_32 (u32 seq) ++ body) rest (so_version _ _ _ Hc) Hn eq_refl (dest_of_len _ _ _ pt Hc)
    (so_local0 _ _ _ Hc) (so_token _ _ _ Hc) Hlt) as Hparse.
  specialize (Hparse ltac:(rewrite blen_app; change (blen (format_32 (u32 seq))) with 4; reflexivity)).
  cbv zeta in Hparse. fold h in Hparse. cbn [or_find] in Hparse.
  eexists. split.
  { unfold parse_header.
    replace ((h ++ varint_encode_16 n ++ format_32 (u32 seq) ++ body) ++ rest)
      with ((h ++ varint_encode_16 n) ++ (format_32 (u32 seq) ++ body) ++ rest) by (rewrite <- !app_assoc; reflexivity).
    replace (mem_get 0 ((h ++ varint_encode_16 n) ++ (format_32 (u32 seq) ++ body) ++ rest))
      with (Some (first_byte v2 pt (negb (sc_grease c)) 3)) by (unfold h, long_head; reflexivity).
    cbn [obind]. rewrite Hf. cbn [N.eqb]. change (128 =? 128) with true. cbv iota. exact Hparse. }
  cbn [ph_type ph_vn ph_vi ph_dcid ph_scid ph_token ph_epoch ph_pc ph_offset ph_pn_offset ph_payload].
  assert (Hl2 : blen (h ++ varint_encode_16 n) = blen h + 2) by (rewrite blen_app; reflexivity).
  rewrite Hl2, Hpno. repeat match goal with |- _ /\ _ => split end; try reflexivity.
  destruct Hn as [-> |[-> | ->]]; reflexivity.
Qed.

(** The bytes on the wire. *)
Lemma long_wire : forall c pt seq hl room hb pno pnl body pkt vn v2,
  sender_ok c vn v2 -> numbered pt ->
  create_packet_header c pt seq hl room = Some (hb, pno, pnl) ->
  blen hb + blen body < 16384 ->
  update_payload_length (hb ++ body) pno (blen hb - pnl) (blen hb + blen body) = Some pkt ->
  exists r, long_rest pt (sc_token c) (4 + blen body) r /\
    pkt = long_start v2 pt (negb (sc_grease c)) 3 vn (dest_of c pt) (sc_local0 c) ++ r ++ be32 (seq mod 4294967296) ++ body /\
    pno = blen pkt - (4 + blen body).
Proof.
  intros c pt seq hl room hb pno pnl body pkt vn v2 Hc Hn Hcr Hlen Hup.
  destruct (long_updated c pt seq hl room hb pno pnl body pkt vn v2 Hc Hn Hcr Hlen Hup) as (Hpno & _ & -> & Hlt).
  exists (token_part pt (sc_token c) ++ varint_encode_16 (4 + blen body)).
  destruct (encode_16_spec _ Hlt) as [Hv _].
  split; [|split].
  - exists (token_part pt (sc_token c)), (varint_encode_16 (4 + blen body)). split; [reflexivity|]. split; [exact Hv|].
    unfold token_part. destruct Hn as [-> |[-> | ->]]; cbn [ptype_eqb]; try reflexivity.
    exists (varint_bytes (blen (sc_token c))). split; [reflexivity|].
    apply varint_bytes_is_varint. exact (so_token _ _ _ Hc).
  - unfold long_head, long_start. rewrite !format_32_be. cbn [app]. f_equal.
    repeat (rewrite <- app_assoc; cbn [app]). reflexivity.
  - rewrite Hpno, !blen_app. change (blen (varint_encode_16 (4 + blen body))) with 2.
    change (blen (format_32 (u32 seq))) with 4. lia.
Qed.

(** Retry packets: what follows the header is the token and the integrity tag. *)
Lemma retry_round_trip : forall c lk seq hl room hb pno pnl body vn v2,
  sender_ok c vn v2 ->
  create_packet_header c PtRetry seq hl room = Some (hb, pno, pnl) ->
  body <> [] -> blen body < 65536 ->
  let found := find_long lk PtRetry (dest_of c PtRetry) in
  exists ph, parse_header lk (hb ++ body) None true = Some (POk ph found) /\
    ph_type ph = (if fixed_bit_ok (negb (sc_grease c)) found then PtRetry else PtError) /\
    ph_vn ph = vn /\ ph_vi ph = Some (sc_version_index c) /\
    ph_dcid ph = dest_of c PtRetry /\ ph_scid ph = sc_local0 c /\
    ph_offset ph = blen hb /\ ph_payload ph = blen body.
Proof.
  intros c lk seq hl room hb pno pnl body vn v2 Hc Hcr Hb Hb2. cbv zeta.
  destruct (create_header_eq c PtRetry seq hl room vn v2 Hc (or_intror eq_refl)) as (low & Hlow & _ & E). cbv zeta in E.
  rewrite E in Hcr. clear E. cbn [ptype_eqb] in Hcr.
  set (h := long_head (first_byte v2 PtRetry (negb (sc_grease c)) low) vn (dest_of c PtRetry) (sc_local0 c) PtRetry (sc_token c)) in *.
  destruct (room <? blen h); [discriminate|]. apply some_triple_inj in Hcr; destruct Hcr as (<- & <- & <-).
  assert (Hlow' : low < 16) by lia.
  destruct (first_parsed PtRetry (sc_version_index c) (vn, v2) (negb (sc_grease c)) low (or_intror eq_refl) (so_version _ _ _ Hc) Hlow')
    as (Hpt & Hf & Hq & _). cbn [snd] in *.
  set (f := first_byte v2 PtRetry (negb (sc_grease c)) low) in *.
  set (dcid := dest_of c PtRetry) in *. set (scid := sc_local0 c) in *.
  assert (Hd : blen dcid <= 20) by (apply (dest_of_len c vn v2); exact Hc).
  assert (Hs : blen scid <= 20) by (apply (so_local0 _ _ _ Hc)).
  assert (Hbp : 0 < blen body) by (destruct body; [congruence|rewrite blen_cons; lia]).
  destruct (version_index_entry _ _ (so_version _ _ _ Hc)) as [Hvi Hvn]. cbn [fst] in Hvi, Hvn.
  assert (Hh : blen h = 7 + blen dcid + blen scid).
  { unfold h. rewrite blen_long_head. unfold token_part. cbn [ptype_eqb]. rewrite blen_nil. lia. }
  assert (EP : h ++ body = f :: format_32 vn ++ blen dcid :: dcid ++ blen scid :: scid ++ body).
  { unfold h, long_head, token_part. cbn [ptype_eqb]. cbn [app]. f_equal. rewrite app_nil_r.
    repeat (rewrite <- app_assoc; cbn [app]). reflexivity. }
  eexists. split.
  { unfold parse_header. replace (mem_get 0 (h ++ body)) with (Some f) by (rewrite EP; reflexivity).
    cbn [obind]. rewrite Hf. change (128 =? 128) with true. cbv iota.
    unfold parse_long. rewrite (blen_app h body). rewrite EP. cbn [frames_uint8_decode].
    rewrite dec_32 by lia. rewrite Hvi. destruct (N.eqb_spec vn 0); [lia|].
    rewrite dec_cid by exact Hd. rewrite dec_cid by exact Hs. rewrite Hpt. cbn [obind]. rewrite Hq. cbn beta iota zeta.
    replace (blen h + blen body - blen body) with (blen h) by lia.
    destruct (N.ltb_spec (blen h) (blen h + blen body)); [|lia].
    replace (blen h + blen body - blen h) with (blen body) by lia.
    cbn beta iota zeta. cbn [ptype_eqb or_find]. reflexivity. }
  cbn [ph_type ph_vn ph_vi ph_dcid ph_scid ph_token ph_epoch ph_pc ph_offset ph_pn_offset ph_payload].
  repeat match goal with |- _ /\ _ => split end; try reflexivity; try (unfold u16; lia).
  unfold fixed_bit_ok. destruct (negb (sc_grease c)), (find_long lk PtRetry dcid) as [d|]; cbn [negb andb orb];
      try reflexivity; destruct (cd_grease d); reflexivity.
Qed.

(** * Short headers *)

Lemma bits_first : forall k q s, (k = 0 \/ k = 4) -> (q = 0 \/ q = 64) -> (s = 0 \/ s = 32) ->
  N.lor (N.lor k q) s = k + q + s.
Proof. intros k q s [-> | ->] [-> | ->] [-> | ->]; reflexivity. Qed.

Lemma land64_case : forall b, N.land 64 b = 0 \/ N.land 64 b = 64.
Proof.
  intro b. destruct (N.testbit b 6) eqn:E.
  - right. apply N.bits_inj. intro i. rewrite N.land_spec.
    change 64 with (2 ^ 6). rewrite N.pow2_bits_eqb. destruct (N.eqb_spec 6 i) as [<-|]; [rewrite E; reflexivity|reflexivity].
  - left. apply N.bits_inj. intro i. rewrite N.land_spec, N.bits_0.
    change 64 with (2 ^ 6). rewrite N.pow2_bits_eqb. destruct (N.eqb_spec 6 i) as [<-|]; [rewrite E; reflexivity|reflexivity].
Qed.

Lemma land64_bit : forall b, N.land 64 b = if N.testbit b 6 then 64 else 0.
Proof.
  intro b. destruct (land64_case b) as [H|H]; rewrite H.
  - pose proof (f_equal (fun x => N.testbit x 6) H) as E. cbv beta in E. rewrite N.land_spec in E.
    change (N.testbit 64 6) with true in E. rewrite N.bits_0 in E. cbn [andb] in E. rewrite E. reflexivity.
  - pose proof (f_equal (fun x => N.testbit x 6) H) as E. cbv beta in E. rewrite N.land_spec in E.
    change (N.testbit 64 6) with true in E. cbn [andb] in E. rewrite E. reflexivity.
Qed.

Lemma create_short_eq : forall c seq hl room, blen (sc_remote c) <= 20 -> (sc_spin c = 0 \/ sc_spin c = 32) ->
  let pn_l := create_pn_l hl (blen (sc_remote c)) in
  1 <= pn_l <= 4 /\
  create_packet_header c Pt1rtt seq hl room =
  let h := short_first (fixed_bit c) (sc_spin c =? 32) (sc_key_phase c) (pn_l - 1) :: sc_remote c ++ pn_bytes pn_l seq in
  if room <? blen h then None else Some (h, 1 + blen (sc_remote c), pn_l).
Proof.
  intros c seq hl room Hr Hs. cbv zeta.
  assert (Hp : 1 <= create_pn_l hl (blen (sc_remote c)) <= 4).
  { unfold create_pn_l. destruct (N.ltb_spec (1 + blen (sc_remote c)) hl); cbn [andb]; [|lia].
    destruct (N.ltb_spec hl (1 + blen (sc_remote c) + 4)); lia. }
  split; [exact Hp|].
  unfold create_packet_header. cbn [ptype_eqb]. unfold format_cid.
  destruct (N.ltb_spec 1535 (blen (sc_remote c))); [lia|].
  set (pn_l := create_pn_l hl (blen (sc_remote c))) in *. clearbody pn_l.
  assert (Ef : short_first_byte
      (N.lor (N.lor (if sc_key_phase c then 4 else 0) (if sc_grease c then N.land 64 (sc_grease_byte c) else 64)) (sc_spin c)) pn_l =
      short_first (fixed_bit c) (sc_spin c =? 32) (sc_key_phase c) (pn_l - 1)).
  { unfold fixed_bit. rewrite land64_bit. unfold short_first_byte, short_first.
    assert (pn_l = 1 \/ pn_l = 2 \/ pn_l = 3 \/ pn_l = 4) as Hc by lia.
    destruct Hs as [-> | ->], (sc_grease c), (sc_key_phase c), (N.testbit (sc_grease_byte c) 6);
      destruct Hc as [-> |[-> |[-> | ->]]]; reflexivity. }
  rewrite Ef. reflexivity.
Qed.

Lemma short_first_bits : forall q s k low, low < 4 \/ low < 32 /\ k = false ->
  N.land (short_first q s k low) 128 = 0 /\ (N.land (short_first q s k low) 64 =? 0) = negb q /\
  bit (short_first q s k low) 5 = s /\ short_first q s k low < 128.
Proof.
  intros q s k low H.
  assert (Hi : In low [0;1;2;3;4;5;6;7;8;9;10;11;12;13;14;15;16;17;18;19;20;21;22;23;24;25;26;27;28;29;30;31])
    by (cbn [In]; destruct H as [H|[H _]]; lia).
  assert (k = false \/ In low [0;1;2;3]) as Hk by (destruct H as [H|[_ H]]; [right; cbn [In]; lia|left; exact H]).
  destruct Hk as [-> | Hk].
  - clear H. cbn [In] in Hi. repeat (destruct Hi as [<-|Hi]; [destruct q, s; repeat split; reflexivity|]). destruct Hi.
  - clear H Hi. cbn [In] in Hk. repeat (destruct Hk as [<-|Hk]; [destruct q, s, k; repeat split; reflexivity|]). destruct Hk.
Qed.

Lemma parse_short_eq : forall lk f dcid tail c,
  N.land f 128 = 0 -> blen dcid = lk_cid_len lk -> blen dcid <= 20 -> blen tail < 65536 ->
  find_short lk dcid = Some c ->
  parse_header lk (f :: dcid ++ tail) None true =
  if fixed_bit_ok (negb (N.land f 64 =? 0)) (Some c) then
    Some (POk (mk_ph Pt1rtt 0 (Some (cd_version_index c)) dcid [] [] (1 + blen dcid) (1 + blen dcid) (blen tail) 0 3 0
       (bit f 2) (bit f 5) true (cd_loss_in c) (cd_loss_in c && bit f 3) (cd_loss_in c && bit f 4) (N.land f 64 =? 0)) (Some c))
  else Some PFail.
Proof.
  intros lk f dcid tail c Hf Hd Hd2 Ht Hfind. unfold parse_header, mem_get. change (N.to_nat 0) with 0%nat.
  cbn [nth_error obind]. rewrite Hf. change (0 =? 128) with false. cbv iota.
  unfold parse_short. unfold mem_get. change (N.to_nat 0) with 0%nat. cbn [nth_error obind].
  rewrite <- Hd, blen_cons, blen_app.
  destruct (N.leb_spec (1 + blen dcid) (1 + (blen dcid + blen tail))); [|lia].
  cbn [skipn]. unfold parse_cid. destruct (N.leb_spec (blen dcid) 20); [|lia].
  replace (mem_read 0 (blen dcid) (dcid ++ tail)) with (Some dcid)
    by (symmetry; exact (mem_split3 [] dcid tail 0 (blen dcid) eq_refl eq_refl)).
  cbn [obind].
  replace (or_find None (if 0 <? blen dcid then lk_by_id lk dcid else lk_by_net lk)) with (Some c).
  - cbn beta iota zeta. unfold fixed_bit_ok.
    destruct (N.ltb_spec (1 + (blen dcid + blen tail)) (1 + blen dcid)); [lia|].
    rewrite Bool.orb_false_r.
    destruct (negb (N.land f 64 =? 0) || cd_grease c); cbn [negb]; [|reflexivity].
    replace (u16 (1 + (blen dcid + blen tail) - (1 + blen dcid))) with (blen tail) by (unfold u16; lia). reflexivity.
  - rewrite <- Hfind. unfold find_short. destruct dcid as [|x l]; [reflexivity|].
    destruct (N.ltb_spec 0 (blen (x :: l))); [reflexivity|rewrite blen_cons in *; lia].
Qed.

Lemma short_round_trip : forall c lk seq hl room hb pno pnl body d,
  blen (sc_remote c) <= 20 -> (sc_spin c = 0 \/ sc_spin c = 32) ->
  create_packet_header c Pt1rtt seq hl room = Some (hb, pno, pnl) ->
  lk_cid_len lk = blen (sc_remote c) -> find_short lk (sc_remote c) = Some d ->
  blen hb + blen body < 65536 ->
  if fixed_bit_ok (fixed_bit c) (Some d) then
    exists ph, parse_header lk (hb ++ body) None true = Some (POk ph (Some d)) /\
      ph_type ph = Pt1rtt /\ ph_dcid ph = sc_remote c /\ ph_vi ph = Some (cd_version_index d) /\
      ph_epoch ph = 3 /\ ph_pc ph = 0 /\
      ph_has_spin ph = true /\ ph_spin ph = (sc_spin c =? 32) /\ ph_key_phase ph = sc_key_phase c /\
      ph_offset ph = pno /\ ph_pn_offset ph = pno /\ ph_payload ph = pnl + blen body /\
      1 <= pnl <= 4 /\ hb = firstn (N.to_nat pno) hb ++ pn_bytes pnl seq
  else parse_header lk (hb ++ body) None true = Some PFail.
Proof.
  intros c lk seq hl room hb pno pnl body d Hr Hs Hcr Hlk Hfind Hlen.
  destruct (create_short_eq c seq hl room Hr Hs) as [Hp E]. cbv zeta in E. rewrite E in Hcr. clear E.
  set (pl := create_pn_l hl (blen (sc_remote c))) in *. clearbody pl.
  set (f := short_first (fixed_bit c) (sc_spin c =? 32) (sc_key_phase c) (pl - 1)) in *.
  match type of Hcr with (if ?b then _ else _) = _ => destruct b; [discriminate|] end.
  assert (Hlow : pl - 1 < 4) by lia.
  destruct (short_first_bits (fixed_bit c) (sc_spin c =? 32) (sc_key_phase c) (pl - 1) (or_introl Hlow)) as (B1 & B2 & B3 & _).
  fold f in B1, B2, B3.
  assert (B4 : bit f 2 = sc_key_phase c).
  { unfold f. assert (pl = 1 \/ pl = 2 \/ pl = 3 \/ pl = 4) as [-> |[-> |[-> | ->]]] by lia;
    destruct (fixed_bit c), (sc_spin c =? 32), (sc_key_phase c); reflexivity. }
  clearbody f.
  apply some_triple_inj in Hcr; destruct Hcr as (<- & <- & <-).
  rewrite blen_cons, blen_app, pn_bytes_length in Hlen by exact Hp.
  pose proof (parse_short_eq lk f (sc_remote c) (pn_bytes pl seq ++ body) d B1 (eq_sym Hlk) Hr) as Hparse.
  rewrite blen_app, pn_bytes_length in Hparse by exact Hp. specialize (Hparse ltac:(lia) Hfind).
  rewrite B2, Bool.negb_involutive in Hparse.
  change ((f :: sc_remote c ++ pn_bytes pl seq) ++ body) with (f :: (sc_remote c ++ pn_bytes pl seq) ++ body).
  rewrite <- app_assoc. destruct (fixed_bit_ok (fixed_bit c) (Some d)); [|exact Hparse].
  eexists. split; [exact Hparse|].
  cbn [ph_type ph_vn ph_vi ph_dcid ph_scid ph_token ph_epoch ph_pc ph_offset ph_pn_offset ph_payload ph_spin ph_key_phase ph_has_spin].
  repeat match goal with |- _ /\ _ => split end; try reflexivity; try assumption; try lia.
  change (f :: sc_remote c ++ pn_bytes pl seq) with ((f :: sc_remote c) ++ pn_bytes pl seq).
  rewrite <- blen_cons with (a := f). rewrite take_front. reflexivity.
Qed.

(** * Predicted lengths *)

Lemma long_predicted : forall c pt seq hl room hb pno pnl vn v2,
  sender_ok c vn v2 -> numbered pt ->
  create_packet_header c pt seq hl room = Some (hb, pno, pnl) ->
  predict_long_header_length c pt = blen hb /\ pno + pnl = blen hb.
Proof.
  intros c pt seq hl room hb pno pnl vn v2 Hc Hn Hcr.
  destruct (create_header_eq c pt seq hl room vn v2 Hc (or_introl Hn)) as (low & Hlow & _ & E). cbv zeta in E.
  rewrite E in Hcr. clear E.
  replace (ptype_eqb pt PtRetry) with false in Hcr by (destruct Hn as [-> |[-> | ->]]; reflexivity).
  match type of Hcr with (if ?b then _ else _) = _ => destruct b; [discriminate|] end.
  apply some_triple_inj in Hcr; destruct Hcr as (<- & <- & <-). rewrite blen_app, blen_long_head.
  change (blen ([0; 0] ++ format_32 (u32 seq))) with 6.
  unfold predict_long_header_length. rewrite dest_of_eq by (left; exact Hn). split; [|lia].
  unfold token_part. destruct (ptype_eqb pt PtInitial).
  - rewrite blen_app, varint_encode_eq, varint_bytes_length.
    pose proof (encode_varint_length_pos (blen (sc_token c))).
    destruct (N.leb_spec (encode_varint_length (blen (sc_token c))) 16); [|lia].
    rewrite varint_bytes_length. lia.
  - rewrite blen_nil. lia.
Qed.

Lemma short_predicted : forall c seq pf room hb pno pnl,
  blen (sc_remote c) <= 20 -> (sc_spin c = 0 \/ sc_spin c = 32) ->
  create_packet_header c Pt1rtt seq (predict_header_length (blen (sc_remote c)) seq pf) room = Some (hb, pno, pnl) ->
  predict_header_length (blen (sc_remote c)) seq pf = blen hb /\ pno + pnl = blen hb.
Proof.
  intros c seq pf room hb pno pnl Hr Hs Hcr.
  destruct (create_short_eq c seq (predict_header_length (blen (sc_remote c)) seq pf) room Hr Hs) as [Hp E].
  cbv zeta in E. rewrite E in Hcr. clear E. rewrite create_pn_l_predicted in *.
  match type of Hcr with (if ?b then _ else _) = _ => destruct b; [discriminate|] end.
  apply some_triple_inj in Hcr; destruct Hcr as (<- & <- & <-). rewrite blen_cons, blen_app, pn_bytes_length by exact Hp.
  unfold predict_header_length. split; lia.
Qed.
