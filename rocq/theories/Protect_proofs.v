(** Proofs about packet protection. *)
From Verif Require Import Base Tac Varint_model Varint_spec Varint_proofs Mem Mem_proofs
  PacketNumber_model PacketNumber_proofs Header_model Header_spec Header_proofs Header2_proofs Header3_proofs
  Protect_model Protect_spec.

Lemma xor_bytes_length : forall a m, length (xor_bytes a m) = length a.
Proof. induction a as [|x a IH]; intros [|y m]; cbn; try reflexivity. rewrite IH. reflexivity. Qed.

Lemma xor_bytes_twice : forall a m, xor_bytes (xor_bytes a m) m = a.
Proof.
  induction a as [|x a IH]; intros [|y m]; cbn; try reflexivity.
  rewrite IH, N.lxor_assoc, N.lxor_nilpotent, N.lxor_0_r. reflexivity.
Qed.

Lemma lxor_twice : forall a b, N.lxor (N.lxor a b) b = a.
Proof. intros. rewrite N.lxor_assoc, N.lxor_nilpotent, N.lxor_0_r. reflexivity. Qed.

Lemma land_mask_high : forall b m w k, N.land w k = 0 -> N.land (N.lxor b (N.land m w)) k = N.land b k.
Proof.
  intros b m w k H. apply N.bits_inj. intro i. rewrite !N.land_spec, N.lxor_spec, N.land_spec.
  pose proof (f_equal (fun x => N.testbit x i) H) as E. cbv beta in E. rewrite N.land_spec, N.bits_0 in E.
  destruct (N.testbit w i), (N.testbit k i); cbn [andb] in *; try discriminate; rewrite ?Bool.andb_false_r, ?Bool.xorb_false_r; reflexivity.
Qed.

(** The sample: 16 bytes, four bytes after the start of the packet number. *)
Definition sample_of (pn c : list N) : list N := firstn 16 (skipn 4 (pn ++ c)).

Lemma read_sample : forall b0 H PN C,
  20 <= blen PN + blen C ->
  mem_read (1 + blen H + 4) 16 (b0 :: H ++ PN ++ C) = Some (sample_of PN C).
Proof.
  intros b0 H PN C Hl. rewrite mem_read_some by (rewrite blen_cons, !blen_app; lia).
  f_equal. unfold sample_of. change (N.to_nat 16) with 16%nat. f_equal.
  change (b0 :: H ++ PN ++ C) with ((b0 :: H) ++ PN ++ C).
  replace (N.to_nat (1 + blen H + 4)) with (length (b0 :: H) + 4)%nat by (unfold blen; cbn [length]; lia).
  rewrite skipn_app. rewrite skipn_all2 by lia. cbn [app].
  replace (length (b0 :: H) + 4 - length (b0 :: H))%nat with 4%nat by lia. reflexivity.
Qed.

Lemma sample_same : forall PN PN' C rest, length PN = length PN' -> (length PN <= 4)%nat -> 20 <= blen PN + blen C ->
  sample_of PN' (C ++ rest) = sample_of PN C.
Proof.
  intros PN PN' C rest He Hl Hc. unfold sample_of.
  rewrite !skipn_app. rewrite (skipn_all2 PN) by lia. rewrite (skipn_all2 PN') by lia. cbn [app].
  rewrite <- He. unfold blen in Hc.
  replace (4 - length PN - length C)%nat with 0%nat by lia. cbn [skipn].
  rewrite firstn_app. replace (16 - length (skipn (4 - length PN) C))%nat with 0%nat by (rewrite skipn_length; lia).
  cbn [firstn]. rewrite app_nil_r. reflexivity.
Qed.

Lemma write_first : forall b b' l, mem_write 0 [b'] (b :: l) = Some (b' :: l).
Proof. intros. exact (mem_write3 [] [b] l 0 [b'] eq_refl eq_refl). Qed.

Lemma protect_header_eq : forall cy b0 H PN C w,
  blen PN = N.land b0 3 + 1 -> 20 <= blen PN + blen C ->
  let m := cy_mask cy (sample_of PN C) in
  protect_packet_header cy (b0 :: H ++ PN ++ C) (1 + blen H) w =
  Some (N.lxor b0 (N.land (nth 0 m 0) w) :: H ++ xor_bytes PN (firstn (length PN) (skipn 1 m)) ++ C).
Proof.
  intros cy b0 H PN C w Hp Hc. cbv zeta. unfold protect_packet_header.
  rewrite read_sample by exact Hc. cbn [obind].
  change (mem_get 0 (b0 :: H ++ PN ++ C)) with (Some b0). cbn [obind].
  rewrite write_first. cbn [obind]. rewrite <- Hp.
  set (f := N.lxor b0 _).
  change (f :: H ++ PN ++ C) with ((f :: H) ++ PN ++ C).
  rewrite (mem_split3 (f :: H) PN C) by (rewrite ?blen_cons; reflexivity). cbn [obind].
  rewrite mem_write3.
  - unfold blen at 1. rewrite Nat2N.id. reflexivity.
  - rewrite blen_cons. reflexivity.
  - unfold blen. rewrite xor_bytes_length. reflexivity.
Qed.

Lemma restore_any : forall b pnl n last,
  N.land b 3 + 1 = pnl -> in_window pnl n last -> restore_pn b last (pn_bytes pnl n) = Some n.
Proof.
  intros b pnl n last Hb (H1 & H2 & H3 & H4).
  assert (Hp : 1 <= pnl <= 4) by (rewrite land3 in Hb; lia).
  pose proof (restore_pn_correct 0 pnl n last [] eq_refl Hp H1 H2 H3 H4) as E. rewrite app_nil_r in E.
  rewrite <- E. unfold restore_pn. rewrite (short_first_byte_low 0 pnl eq_refl Hp), Hb. reflexivity.
Qed.

Lemma remove_protection_eq : forall cy b0 H PN C w rest ph (loss_in : bool) last room seq,
  let m := cy_mask cy (sample_of PN C) in
  let bytes := N.lxor b0 (N.land (nth 0 m 0) w) :: H ++ xor_bytes PN (firstn (length PN) (skipn 1 m)) ++ C ++ rest in
  blen PN = N.land b0 3 + 1 -> 20 <= blen PN + blen C ->
  N.land w 128 = 0 -> w = (if N.land b0 128 =? 128 then 15 else if loss_in then 7 else 31) ->
  PN = pn_bytes (blen PN) seq -> in_window (blen PN) seq last ->
  ph_offset ph = 1 + blen H -> ph_pn_offset ph = 1 + blen H -> ph_payload ph = blen PN + blen C ->
  1 + blen H + blen PN <= room ->
  remove_header_protection cy bytes (ph_offset ph + ph_payload ph) ph loss_in last room =
  Some (Some (mk_opened (b0 :: H ++ PN) seq (1 + blen H + blen PN) (blen C)
     (if ptype_eqb (ph_type ph) Pt1rtt then bit b0 2 else ph_key_phase ph)
     (if N.land b0 128 =? 0 then negb loss_in && negb (N.land b0 24 =? 0) else negb (N.land b0 12 =? 0)))).
Proof.
  intros cy b0 H PN C w rest ph loss_in last room seq m bytes Hp Hc Hw Hweq Hpn Hwin Ho Hpo Hpl Hroom.
  set (PN' := xor_bytes PN (firstn (length PN) (skipn 1 m))) in *.
  assert (Hpl4 : (length PN <= 4)%nat) by (unfold blen in Hp; rewrite land3 in Hp; lia).
  assert (Hl' : length PN' = length PN) by (unfold PN'; apply xor_bytes_length).
  unfold remove_header_protection. rewrite Ho, Hpo, Hpl.
  destruct (N.ltb_spec (1 + blen H + (blen PN + blen C)) (1 + blen H + 4 + 16)); [lia|].
  unfold bytes. change (mem_get 0 (?x :: ?l)) with (Some x). cbn [obind].
  rewrite land_mask_high by exact Hw. rewrite <- Hweq.
  rewrite (read_sample _ H PN' (C ++ rest)).
  2: { unfold blen in *. rewrite Hl', app_length. lia. }
  cbn [obind]. rewrite (sample_same PN PN' C rest (eq_sym Hl') Hpl4 Hc). fold m.
  set (f := N.lxor b0 (N.land (nth 0 m 0) w)).
  replace (mem_read 0 (1 + blen H) (f :: H ++ PN' ++ C ++ rest)) with (Some (f :: H)).
  2: { symmetry. apply (mem_split3 [] (f :: H) (PN' ++ C ++ rest) 0 (1 + blen H) eq_refl). rewrite blen_cons. reflexivity. }
  cbn [obind]. unfold f. rewrite lxor_twice. rewrite <- Hp.
  change (?x :: H ++ PN' ++ C ++ rest) with ((x :: H) ++ PN' ++ C ++ rest).
  rewrite (mem_split3 _ PN').
  2: { rewrite blen_cons. reflexivity. }
  2: { unfold blen. rewrite Hl'. reflexivity. }
  cbn [obind]. replace (N.to_nat (blen PN)) with (length PN) by (unfold blen; lia).
  unfold PN'. rewrite xor_bytes_twice.
  destruct (N.ltb_spec room (1 + blen H + blen PN)); [lia|].
  assert (Er : restore_pn b0 last PN = Some seq).
  { rewrite Hpn. apply restore_any; [rewrite <- Hp; reflexivity|exact Hwin]. }
  rewrite Er. cbn [obind]. cbv iota. cbn [app].
  replace (blen PN + blen C - blen PN) with (blen C) by lia. reflexivity.
Qed.

(** What the sender builds before header protection. *)
Lemma long_first_masked : forall v2 pt q m, numbered pt ->
  exists low, low < 16 /\ N.lxor (first_byte v2 pt q 3) (N.land m 15) = first_byte v2 pt q low.
Proof.
  intros v2 pt q m Hn. exists (N.lxor 3 (N.land m 15)).
  assert (Hm : N.land m 15 < 16) by (change 15 with (N.ones 4); rewrite N.land_ones; change (2 ^ 4) with 16; lia).
  apply low_case in Hm. cbn [In] in Hm.
  destruct Hn as [-> |[-> | ->]]; destruct v2, q;
    repeat (destruct Hm as [<-|Hm]; [split; reflexivity|]); destruct Hm.
Qed.

Lemma long_protect_eq : forall c cy pt seq payload hl loss room pkt vn v2,
  sender_ok c vn v2 -> numbered pt -> ciphers_ok cy -> hl = predict_long_header_length c pt ->
  protect_packet c cy pt seq payload hl loss room = Some pkt -> blen pkt < 16384 ->
  let n := 4 + (blen payload + 16) in
  let h := long_head (first_byte v2 pt (negb (sc_grease c)) 3) vn (dest_of c pt) (sc_local0 c) pt (sc_token c)
           ++ varint_encode_16 n in
  exists H, h = first_byte v2 pt (negb (sc_grease c)) 3 :: H /\
  let PN := pn_bytes 4 seq in let C := cy_enc cy seq (h ++ PN) payload in
  let m := cy_mask cy (sample_of PN C) in
  pkt = N.lxor (first_byte v2 pt (negb (sc_grease c)) 3) (N.land (nth 0 m 0) 15) :: H ++
        xor_bytes PN (firstn 4 (skipn 1 m)) ++ C.
Proof.
  intros c cy pt seq payload hl loss room pkt vn v2 Hc Hn Hcy Hhl Hpr Hlen. cbv zeta.
  assert (Hn1 : ptype_eqb pt Pt1rtt = false) by (destruct Hn as [-> |[-> | ->]]; reflexivity).
  unfold protect_packet in Hpr.
  destruct (create_packet_header c pt seq hl room) as [[[hb pno] pnl]|] eqn:Ecr; [|discriminate]. cbn [obind] in Hpr.
  destruct (long_predicted _ _ _ _ _ _ _ _ _ _ Hc Hn Ecr) as [Hpred Hpn]. rewrite <- Hhl in Hpred.
  destruct (create_header_eq c pt seq hl room vn v2 Hc (or_introl Hn)) as (low & Hlow & H3 & E). cbv zeta in E.
  rewrite E in Ecr. clear E. specialize (H3 Hn). subst low.
  replace (ptype_eqb pt PtRetry) with false in Ecr by (destruct Hn as [-> |[-> | ->]]; reflexivity).
  set (f := first_byte v2 pt (negb (sc_grease c)) 3) in *.
  set (h := long_head f vn (dest_of c pt) (sc_local0 c) pt (sc_token c)) in *.
  match type of Ecr with (if ?b then _ else _) = _ => destruct b; [discriminate|] end.
  apply some_triple_inj in Ecr. destruct Ecr as (E1 & E2 & E3). subst pnl pno.
  destruct (first_parsed pt (sc_version_index c) (vn, v2) (negb (sc_grease c)) 3 (or_introl Hn) (so_version _ _ _ Hc) Hlow)
    as (_ & Hf & _ & _). cbn [snd] in Hf. fold f in Hf.
  assert (Hh7 : 7 <= blen h) by (unfold h; rewrite blen_long_head; lia).
  assert (Hhf : h = f :: tl h) by reflexivity.
  rewrite Hn1 in Hpr. unfold pad_payload in Hpr.
  destruct (N.ltb_spec (hl + blen payload) (blen h + 2 + 4 + 16 - 16)) as [Hlt|_]; [lia|].
  subst hb. set (hb := h ++ [0; 0] ++ format_32 (u32 seq)) in *.
  assert (Hhb : hb = f :: tl hb) by reflexivity.
  replace (mem_get 0 hb) with (Some f) in Hpr by reflexivity. cbn [obind] in Hpr.
  replace (mem_write 0 [f] hb) with (Some hb) in Hpr by (rewrite Hhb; symmetry; apply write_first).
  cbn [obind] in Hpr.
  assert (Hpk : hl + blen payload + 16 = blen pkt).
  { destruct (update_payload_length hb (blen h + 2) (blen hb - 4) (hl + blen payload + 16)) as [hb2|] eqn:Eu; [|discriminate].
    cbn [obind] in Hpr.
    match type of Hpr with (if ?b then _ else _) = _ => destruct b; [discriminate|] end.
    assert (Hb2 : blen hb2 = blen hb).
    { unfold update_payload_length in Eu. replace (mem_get 0 hb) with (Some f) in Eu by reflexivity. cbn [obind] in Eu.
      match type of Eu with (if ?b then _ else _) = _ => destruct b; [apply mem_write_length in Eu; exact Eu|injection Eu as <-; reflexivity] end. }
    unfold protect_packet_header in Hpr.
    destruct (mem_read _ _ _) as [sm|]; [|discriminate]. cbn [obind] in Hpr.
    destruct (mem_get 0 _) as [b0|]; [|discriminate]. cbn [obind] in Hpr.
    destruct (mem_write 0 _ _) as [w1|] eqn:W1; [|discriminate]. cbn [obind] in Hpr. apply mem_write_length in W1.
    destruct (mem_read _ _ w1) as [p|]; [|discriminate]. cbn [obind] in Hpr. apply mem_write_length in Hpr.
    rewrite Hpr, W1, blen_app, (ck_enc_len _ Hcy), Hb2. rewrite <- Hpred. lia. }
  rewrite (update_long h (format_32 (u32 seq)) (4 + (blen payload + 16))) in Hpr; try lia.
  2: { rewrite Hhf. cbn [nth]. exact Hf. }
  2: { rewrite Hhf. discriminate. }
  cbn [obind] in Hpr.
  match type of Hpr with (if ?b then _ else _) = _ => destruct b; [discriminate|] end.
  change (format_32 (u32 seq)) with (pn_bytes 4 seq) in Hpr.
  set (n := 4 + (blen payload + 16)) in *.
  set (C := cy_enc cy seq (h ++ varint_encode_16 n ++ pn_bytes 4 seq) payload) in *.
  exists (tl h ++ varint_encode_16 n). split; [rewrite Hhf at 1; reflexivity|].
  rewrite <- (app_assoc h). fold C.
  set (H := tl h ++ varint_encode_16 n).
  assert (EH : blen h + 2 = 1 + blen H).
  { unfold H. rewrite blen_app. rewrite Hhf at 1. rewrite blen_cons. change (blen (varint_encode_16 n)) with 2. lia. }
  rewrite EH in Hpr.
  assert (Ep : (h ++ varint_encode_16 n ++ pn_bytes 4 seq) ++ C = f :: H ++ pn_bytes 4 seq ++ C).
  { rewrite Hhf at 1. unfold H. cbn [app]. rewrite <- !app_assoc. reflexivity. }
  rewrite Ep in Hpr.
  assert (HC : blen C = blen payload + 16) by (unfold C; apply (ck_enc_len _ Hcy)).
  rewrite protect_header_eq in Hpr.
  - apply some_inj in Hpr. symmetry. exact Hpr.
  - change (blen (pn_bytes 4 seq)) with 4. unfold f.
    destruct Hn as [-> |[-> | ->]]; destruct v2, (sc_grease c); reflexivity.
  - change (blen (pn_bytes 4 seq)) with 4. lia.
Qed.

Lemma long_protected : forall c lk cy pt seq payload hl loss room pkt vn v2 d rest last room2,
  sender_ok c vn v2 -> numbered pt -> ciphers_ok cy -> hl = predict_long_header_length c pt ->
  protect_packet c cy pt seq payload hl loss room = Some pkt -> blen pkt < 16384 -> blen pkt <= room2 ->
  find_long lk pt (dest_of c pt) = Some d -> cd_version_index d = sc_version_index c ->
  (sc_grease c = true -> cd_grease d = true) -> in_window 4 seq last ->
  exists ph op, unprotect_packet lk cy (pkt ++ rest) last room2 = Some (UnOk ph op payload (blen pkt)) /\
    ph_type ph = pt /\ ph_vn ph = vn /\ ph_dcid ph = dest_of c pt /\ ph_scid ph = sc_local0 c /\
    ph_token ph = (match pt with PtInitial => sc_token c | _ => [] end) /\
    ph_epoch ph = epoch_of pt /\ ph_pc ph = space_of pt /\
    op_pn64 op = seq /\ op_reserved op = false.
Proof.
  intros c lk cy pt seq payload hl loss room pkt vn v2 d rest last room2 Hc Hn Hcy Hhl Hpr Hlen Hroom Hfind Hvi Hg Hwin.
  destruct (long_protect_eq c cy pt seq payload hl loss room pkt vn v2 Hc Hn Hcy Hhl Hpr Hlen) as (H & Hh & Hpkt).
  cbv zeta in Hh, Hpkt.
  set (q := negb (sc_grease c)) in *. set (f := first_byte v2 pt q 3) in *.
  set (n := 4 + (blen payload + 16)) in *.
  set (h := long_head f vn (dest_of c pt) (sc_local0 c) pt (sc_token c) ++ varint_encode_16 n) in *.
  set (PN := pn_bytes 4 seq) in *. set (C := cy_enc cy seq (h ++ PN) payload) in *.
  set (m := cy_mask cy (sample_of PN C)) in *.
  assert (HPN : blen PN = 4) by reflexivity.
  assert (HC : blen C = blen payload + 16) by (unfold C; apply (ck_enc_len _ Hcy)).
  set (PN' := xor_bytes PN (firstn 4 (skipn 1 m))) in *.
  assert (HPN' : blen PN' = 4) by (unfold PN', blen; rewrite xor_bytes_length; reflexivity).
  destruct (long_first_masked v2 pt q (nth 0 m 0) Hn) as (low & Hlow & Hf'). fold f in Hf'.
  assert (Hlt : n < 16384).
  { rewrite Hpkt in Hlen. rewrite blen_cons, !blen_app in Hlen. unfold n. lia. }
  (* the header that is read *)
  pose proof (parse_long_eq lk None v2 (sc_version_index c) vn pt q low (dest_of c pt) (sc_local0 c) (sc_token c) n
    (PN' ++ C) rest (so_version _ _ _ Hc) Hn Hlow (dest_of_len _ _ _ pt Hc) (so_local0 _ _ _ Hc) (so_token _ _ _ Hc) Hlt) as Hparse.
  specialize (Hparse ltac:(rewrite blen_app, HPN', HC; reflexivity)).
  cbv zeta in Hparse. cbn [or_find] in Hparse. rewrite Hfind in Hparse.
  assert (Hfix : fixed_bit_ok q (Some d) = true).
  { unfold fixed_bit_ok, q. destruct (sc_grease c); [rewrite Hg by reflexivity; reflexivity|reflexivity]. }
  rewrite Hfix in Hparse.
  assert (Hh2 : long_head (first_byte v2 pt q low) vn (dest_of c pt) (sc_local0 c) pt (sc_token c) ++ varint_encode_16 n =
                first_byte v2 pt q low :: H).
  { unfold h, long_head in Hh. cbn [app] in Hh. apply (f_equal (@tl N)) in Hh. cbn [tl] in Hh. unfold long_head. cbn [app]. rewrite <- Hh. reflexivity. }
  rewrite Hh2 in Hparse. rewrite blen_cons in Hparse.
  set (ph := mk_ph _ _ _ _ _ _ _ _ _ _ _ _ _ _ _ _ _ _ _) in Hparse.
  assert (Epk : pkt ++ rest = N.lxor f (N.land (nth 0 m 0) 15) :: H ++ PN' ++ C ++ rest).
  { rewrite Hpkt. cbn [app]. rewrite <- !app_assoc. reflexivity. }
  assert (Hf128 : N.land f 128 = 128).
  { destruct (first_parsed pt (sc_version_index c) (vn, v2) q 3 (or_introl Hn) (so_version _ _ _ Hc) eq_refl) as (_ & Hx & _). exact Hx. }
  assert (Hpar : parse_header lk (pkt ++ rest) None true = Some (POk ph (Some d))).
  { rewrite Epk. unfold parse_header. change (mem_get 0 (?x :: ?l)) with (Some x). cbn [obind].
    rewrite land_mask_high by reflexivity. rewrite Hf128. change (128 =? 128) with true. cbv iota.
    rewrite Hf'. rewrite <- Hparse. cbn [app]. rewrite <- !app_assoc. reflexivity. }
  assert (Hpkl : blen pkt = 1 + blen H + (blen PN + blen C)).
  { rewrite Hpkt, blen_cons, !blen_app, HPN', HPN. lia. }
  pose proof (remove_protection_eq cy f H PN C 15 rest ph (cd_loss_in d) last room2 seq) as Hrem. cbv zeta in Hrem.
  fold m in Hrem. change (length PN) with 4%nat in Hrem. fold PN' in Hrem.
  rewrite Hf128 in Hrem. change (128 =? 128) with true in Hrem. cbv iota in Hrem.
  assert (Hlow3 : N.land f 3 + 1 = 4).
  { unfold f. destruct Hn as [-> |[-> | ->]]; destruct v2, q; reflexivity. }
  assert (Hres : (N.land f 12 =? 0) = true).
  { unfold f. destruct Hn as [-> |[-> | ->]]; destruct v2, q; reflexivity. }
  assert (Hoff : ph_offset ph = 1 + blen H) by reflexivity.
  assert (Hpoff : ph_pn_offset ph = 1 + blen H) by reflexivity.
  assert (Hpay : ph_payload ph = blen PN + blen C) by (unfold ph; cbn [ph_payload]; unfold n; lia).
  specialize (Hrem ltac:(rewrite Hlow3; reflexivity) ltac:(lia) eq_refl eq_refl eq_refl Hwin Hoff Hpoff Hpay ltac:(lia)).
  eexists ph, _. split.
  - unfold unprotect_packet. rewrite Hpar. cbn [obind].
    replace (ph_type ph) with pt by reflexivity.
    assert (Hv : negb (match ph_vi ph with Some i => i =? cd_version_index d | None => false end) = false).
    { unfold ph. cbn [ph_vi]. rewrite Hvi, N.eqb_refl. reflexivity. }
    rewrite Hv. rewrite Epk. rewrite Hrem. cbn [obind op_payload_offset op_payload_length op_pn64 op_header].
    set (f' := N.lxor f (N.land (nth 0 m 0) 15)).
    replace (mem_read (1 + blen H + blen PN) (blen C) (f' :: H ++ PN' ++ C ++ rest)) with (Some C).
    2: { symmetry. replace (f' :: H ++ PN' ++ C ++ rest) with ((f' :: H ++ PN') ++ C ++ rest)
           by (cbn [app]; rewrite <- !app_assoc; reflexivity).
         apply mem_split3; [rewrite blen_cons, blen_app, HPN', HPN; lia|reflexivity]. }
    cbn [obind].
    destruct (N.ltb_spec room2 (1 + blen H + blen PN + (blen C - 16))); [lia|].
    assert (Hdec : cy_dec cy seq (f :: H ++ PN) C = Some payload).
    { unfold C. rewrite Hh. apply (ck_dec _ Hcy). }
    rewrite Hdec. rewrite Hpkl, Hoff, Hpay.
    destruct Hn as [-> |[-> | ->]]; reflexivity.
  - cbn [op_pn64 op_reserved]. rewrite Hres. unfold ph.
    cbn [ph_type ph_vn ph_vi ph_dcid ph_scid ph_token ph_epoch ph_pc].
    repeat match goal with |- _ /\ _ => split end; try reflexivity; destruct Hn as [-> |[-> | ->]]; reflexivity.
Qed.
