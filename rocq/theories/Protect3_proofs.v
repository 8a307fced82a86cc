(** Proofs about packet protection: what is accepted is authenticated, and nothing is read
    or written outside of the buffers. *)
From Verif Require Import Base Tac Varint_model Varint_spec Varint_proofs Mem Mem_proofs
  PacketNumber_model PacketNumber_proofs Header_model Header_spec Header_proofs Header2_proofs Header3_proofs
  Protect_model Protect_spec Protect_proofs Protect2_proofs.

Lemma read_pn_some : forall k v m bytes, length bytes = k -> exists r, read_pn k v m bytes = Some r.
Proof.
  induction k as [|k IH]; intros v m bytes H; cbn [read_pn]; [eexists; reflexivity|].
  destruct bytes as [|b bytes]; [discriminate|]. cbn [length] in H. apply IH. congruence.
Qed.

Lemma restore_pn_some : forall b last bytes, blen bytes = N.land b 3 + 1 -> exists n, restore_pn b last bytes = Some n.
Proof.
  intros b last bytes H. unfold restore_pn.
  destruct (read_pn_some (N.to_nat (N.land b 3 + 1)) 0 max64 bytes) as [[p m] E]; [unfold blen in H; lia|].
  rewrite E. eexists. reflexivity.
Qed.

(** Everything that removing the header protection does, on a packet whose packet number
    starts at the offset. *)
Lemma remove_protection_shape : forall cy bytes length ph loss_in last room,
  1 <= ph_offset ph -> ph_pn_offset ph = ph_offset ph -> length = ph_offset ph + ph_payload ph ->
  length <= blen bytes -> blen bytes <= room ->
  remove_header_protection cy bytes length ph loss_in last room = Some None \/
  exists b0 H PN' C rest, bytes = b0 :: H ++ PN' ++ C ++ rest /\ ph_offset ph = 1 + blen H /\
    length = 1 + blen H + blen PN' + blen C /\ 20 <= blen PN' + blen C /\
    let w := if N.land b0 128 =? 128 then 15 else if loss_in then 7 else 31 in
    let m := cy_mask cy (sample_of PN' C) in
    let first := N.lxor b0 (N.land (nth 0 m 0) w) in
    let PN := xor_bytes PN' (firstn (N.to_nat (blen PN')) (skipn 1 m)) in
    blen PN' = N.land first 3 + 1 /\
    exists pn64, restore_pn first last PN = Some pn64 /\
    remove_header_protection cy bytes length ph loss_in last room =
    Some (Some (mk_opened (first :: H ++ PN) pn64 (1 + blen H + blen PN') (blen C)
      (if ptype_eqb (ph_type ph) Pt1rtt then bit first 2 else ph_key_phase ph)
      (if N.land first 128 =? 0 then negb loss_in && negb (N.land first 24 =? 0) else negb (N.land first 12 =? 0)))).
Proof.
  intros cy bytes len ph loss_in last room H1 H2 H3 H4 H5. unfold remove_header_protection. rewrite H2.
  destruct (N.ltb_spec len (ph_offset ph + 4 + 16)) as [H|H]; [left; reflexivity|right].
  destruct (mem_cut 0 (ph_offset ph) bytes) as (a0 & A & B & E & La & LA); [lia|].
  destruct a0; [|rewrite blen_cons in La; lia]. cbn [app] in E. clear La.
  destruct A as [|b0 HH]; [rewrite blen_nil in LA; lia|]. rewrite blen_cons in LA.
  assert (LB : blen bytes = 1 + blen HH + blen B) by (rewrite E, blen_app, blen_cons; lia).
  set (w := if N.land b0 128 =? 128 then 15 else if loss_in then 7 else 31).
  (* the sample *)
  pose proof (read_sample b0 HH [] B) as Hs. rewrite blen_nil in Hs. specialize (Hs ltac:(lia)). cbn [app] in Hs.
  set (m := cy_mask cy (sample_of [] B)).
  set (first := N.lxor b0 (N.land (nth 0 m 0) w)).
  set (pnl := N.land first 3 + 1).
  assert (Hpnl : 1 <= pnl <= 4) by (unfold pnl; rewrite land3; lia).
  destruct (mem_cut 0 pnl B) as (a0 & PN' & B2 & E2 & La & LP); [lia|].
  destruct a0; [|rewrite blen_cons in La; lia]. cbn [app] in E2. clear La.
  assert (LB2 : blen B = pnl + blen B2) by (rewrite E2, blen_app; lia).
  destruct (mem_cut 0 (len - ph_offset ph - pnl) B2) as (a0 & C & rest & E3 & La & LC); [lia|].
  destruct a0; [|rewrite blen_cons in La; lia]. cbn [app] in E3. clear La.
  exists b0, HH, PN', C, rest.
  assert (Eb : bytes = b0 :: HH ++ PN' ++ C ++ rest) by (rewrite E, E2, E3; reflexivity).
  split; [exact Eb|]. split; [lia|]. split; [lia|]. split; [lia|].
  assert (Hsame : sample_of PN' C = sample_of [] B).
  { rewrite E2, E3. unfold sample_of at 2. cbn [app]. symmetry. apply (sample_same PN' PN' C rest eq_refl); unfold blen in *; lia. }
  cbv zeta. fold w. rewrite Hsame. fold m. fold first. fold pnl.
  split; [exact LP|].
  assert (HPN : blen (xor_bytes PN' (firstn (N.to_nat (blen PN')) (skipn 1 m))) = N.land first 3 + 1).
  { unfold blen at 1. rewrite xor_bytes_length. fold pnl. rewrite <- LP. reflexivity. }
  destruct (restore_pn_some first last _ HPN) as [pn64 Epn]. exists pn64. split; [exact Epn|].
  rewrite E at 1. change (mem_get 0 ((b0 :: HH) ++ B)) with (Some b0). cbn [obind]. fold w.
  replace (ph_offset ph + 4) with (1 + blen HH + 4) by lia.
  rewrite E at 1. cbn [app]. rewrite Hs. cbn [obind]. fold m. fold first.
  replace (mem_read 0 (ph_offset ph) bytes) with (Some (b0 :: HH)).
  2: { symmetry. rewrite E. apply (mem_split3 [] (b0 :: HH) B 0 (ph_offset ph) eq_refl). rewrite blen_cons. lia. }
  cbn [obind]. fold pnl.
  replace (mem_read (ph_offset ph) pnl bytes) with (Some PN').
  2: { symmetry. rewrite E, E2. apply mem_split3; [rewrite blen_cons; lia|lia]. }
  cbn [obind]. destruct (N.ltb_spec room (ph_offset ph + pnl)); [lia|].
  rewrite LP in Epn. rewrite LP. rewrite Epn. cbn [obind]. cbv iota.
  replace (ph_offset ph + pnl) with (1 + blen HH + pnl) by lia.
  replace (ph_payload ph - pnl) with (blen C) by lia. reflexivity.
Qed.

Lemma unprotect_safe : forall lk cy bytes last room, bytes <> [] -> blen bytes <= room ->
  unprotect_packet lk cy bytes last room <> None.
Proof.
  intros lk cy bytes last room Hb Hr. unfold unprotect_packet.
  destruct (parse_header_safe lk bytes None true Hb) as (r & -> & Hin). cbn [obind].
  destruct r as [|vn|ph cnx]; try discriminate. cbn [header_in] in Hin. destruct Hin as (_ & _ & _ & Hlen & Hoff).
  assert (Hcl : (if room <? blen bytes then None else Some (UnClear ph)) <> None).
  { destruct (N.ltb_spec room (blen bytes)); [lia|discriminate]. }
  assert (Hmain : (numbered (ph_type ph) \/ ph_type ph = Pt1rtt) -> forall c, cnx = Some c ->
    (if negb (match ph_vi ph with Some i => i =? cd_version_index c | None => false end) then Some UnFail
     else
      o <~ remove_header_protection cy bytes (ph_offset ph + ph_payload ph) ph (cd_loss_in c) last room ;;
      match o with
      | None => Some UnFail
      | Some op =>
        cipher <~ mem_read (op_payload_offset op) (op_payload_length op) bytes ;;
        if room <? op_payload_offset op + (op_payload_length op - 16) then None
        else match cy_dec cy (op_pn64 op) (op_header op) cipher with
             | None => Some UnFail
             | Some text => Some (UnOk ph op text (ph_offset ph + ph_payload ph))
             end
      end) <> None).
  { intros Ht c ->. destruct (negb _); [discriminate|].
    destruct Hoff as [Ho1 Ho2]; [destruct Ht as [Ht|Ht]; [left; exact Ht|right; split; [exact Ht|discriminate]]|].
    destruct (remove_protection_shape cy bytes (ph_offset ph + ph_payload ph) ph (cd_loss_in c) last room Ho1 Ho2 eq_refl Hlen Hr)
      as [-> | (b0 & H & PN' & C & rest & Eb & E1 & E2 & E3 & Hx)]; [cbn [obind]; discriminate|].
    cbv zeta in Hx. destruct Hx as (_ & pn64 & _ & ->). cbn [obind op_payload_offset op_payload_length op_pn64 op_header].
    assert (Lb : blen bytes = 1 + blen H + blen PN' + blen C + blen rest).
    { rewrite Eb, blen_cons, !blen_app. lia. }
    rewrite mem_read_some by lia. cbn [obind].
    destruct (N.ltb_spec room (1 + blen H + blen PN' + (blen C - 16))); [lia|].
    destruct (cy_dec _ _ _ _); discriminate. }
  assert (Hmain2 : (numbered (ph_type ph) \/ ph_type ph = Pt1rtt) ->
    match cnx with None => Some (UnUnknown ph) | Some c =>
    (if negb (match ph_vi ph with Some i => i =? cd_version_index c | None => false end) then Some UnFail
     else
      o <~ remove_header_protection cy bytes (ph_offset ph + ph_payload ph) ph (cd_loss_in c) last room ;;
      match o with
      | None => Some UnFail
      | Some op =>
        cipher <~ mem_read (op_payload_offset op) (op_payload_length op) bytes ;;
        if room <? op_payload_offset op + (op_payload_length op - 16) then None
        else match cy_dec cy (op_pn64 op) (op_header op) cipher with
             | None => Some UnFail
             | Some text => Some (UnOk ph op text (ph_offset ph + ph_payload ph))
             end
      end) end <> None).
  { intro Ht. destruct cnx as [c|]; [apply (Hmain Ht c eq_refl)|discriminate]. }
  clear Hmain Hoff. unfold numbered in Hmain2. destruct (ph_type ph); cbv zeta; try exact Hcl; apply Hmain2; tauto.
Qed.

Lemma unprotect_authentic : forall lk cy bytes last room ph op text consumed,
  bytes <> [] -> blen bytes <= room ->
  unprotect_packet lk cy bytes last room = Some (UnOk ph op text consumed) ->
  exists cipher w, (w = 15 \/ w = 7 \/ w = 31) /\
    consumed = blen (op_header op) + blen cipher /\ consumed <= blen bytes /\
    cy_dec cy (op_pn64 op) (op_header op) cipher = Some text /\
    protect_packet_header cy (op_header op ++ cipher) (ph_pn_offset ph) w = Some (firstn (N.to_nat consumed) bytes).
Proof.
  intros lk cy bytes last room ph op text consumed Hb Hr Hun. unfold unprotect_packet in Hun.
  destruct (parse_header_safe lk bytes None true Hb) as (r & Er & Hin). rewrite Er in Hun. cbn [obind] in Hun.
  destruct r as [|vn|ph' cnx]; try discriminate. cbn [header_in] in Hin. destruct Hin as (_ & _ & _ & Hlen & Hoff).
  assert (Hx : exists c, (numbered (ph_type ph') \/ ph_type ph' = Pt1rtt) /\ cnx = Some c /\
     (o <~ remove_header_protection cy bytes (ph_offset ph' + ph_payload ph') ph' (cd_loss_in c) last room ;;
      match o with
      | None => Some UnFail
      | Some op =>
        cipher <~ mem_read (op_payload_offset op) (op_payload_length op) bytes ;;
        if room <? op_payload_offset op + (op_payload_length op - 16) then None
        else match cy_dec cy (op_pn64 op) (op_header op) cipher with
             | None => Some UnFail
             | Some text => Some (UnOk ph' op text (ph_offset ph' + ph_payload ph'))
             end
      end) = Some (UnOk ph op text consumed)).
  { unfold numbered. destruct (ph_type ph'); try (destruct (room <? blen bytes); discriminate);
    (destruct cnx as [c|]; [|discriminate]);
    (destruct (negb (match ph_vi ph' with Some i => i =? cd_version_index c | None => false end)); [discriminate|]);
    exists c; (split; [tauto|]); (split; [reflexivity|]); exact Hun. }
  clear Hun. destruct Hx as (c & Ht & -> & Hun).
  destruct Hoff as [Ho1 Ho2]; [destruct Ht as [Ht|Ht]; [left; exact Ht|right; split; [exact Ht|discriminate]]|].
  destruct (remove_protection_shape cy bytes (ph_offset ph' + ph_payload ph') ph' (cd_loss_in c) last room Ho1 Ho2 eq_refl Hlen Hr)
    as [E | (b0 & H & PN' & C & rest & Eb & E1 & E2 & E3 & Hx)]; [rewrite E in Hun; discriminate|].
  cbv zeta in Hx. destruct Hx as (Hpnl & pn64 & Hpn & E). rewrite E in Hun. clear E.
  cbn [obind op_payload_offset op_payload_length op_pn64 op_header] in Hun.
  set (w := if N.land b0 128 =? 128 then 15 else if cd_loss_in c then 7 else 31) in *.
  set (m := cy_mask cy (sample_of PN' C)) in *.
  set (first := N.lxor b0 (N.land (nth 0 m 0) w)) in *.
  set (PN := xor_bytes PN' (firstn (N.to_nat (blen PN')) (skipn 1 m))) in *.
  replace (mem_read (1 + blen H + blen PN') (blen C) bytes) with (Some C) in Hun.
  2: { symmetry. rewrite Eb. replace (b0 :: H ++ PN' ++ C ++ rest) with ((b0 :: H ++ PN') ++ C ++ rest)
         by (cbn [app]; rewrite <- !app_assoc; reflexivity).
       apply mem_split3; [rewrite blen_cons, blen_app; lia|reflexivity]. }
  cbn [obind] in Hun.
  match type of Hun with (if ?b then _ else _) = _ => destruct b; [discriminate|] end.
  destruct (cy_dec cy pn64 (first :: H ++ PN) C) as [text'|] eqn:Ed; [|discriminate].
  assert (Eq : forall a b d e a' b' d' e', Some (UnOk a b d e) = Some (UnOk a' b' d' e') -> a = a' /\ b = b' /\ d = d' /\ e = e')
    by (intros a b d e a' b' d' e' X; inversion X; repeat split).
  apply Eq in Hun. destruct Hun as (<- & <- & <- & <-). clear Eq.
  assert (HPN : length PN = length PN') by (unfold PN; apply xor_bytes_length).
  exists C, w. split; [unfold w; destruct (N.land b0 128 =? 128); [tauto|destruct (cd_loss_in c); tauto]|].
  cbn [op_header op_pn64].
  assert (HlPN : blen PN = blen PN') by (unfold blen; rewrite HPN; reflexivity).
  split. { rewrite blen_cons, blen_app, HlPN. lia. }
  split; [exact Hlen|]. split; [exact Ed|].
  rewrite Ho2, E1. cbn [app]. rewrite <- app_assoc.
  rewrite protect_header_eq; [|rewrite HlPN; exact Hpnl|rewrite HlPN; exact E3].
  assert (Hs : sample_of PN C = sample_of PN' C).
  { rewrite <- (app_nil_r C) at 1. apply (sample_same PN' PN C []); [symmetry; exact HPN| |exact E3].
    unfold blen in Hpnl. rewrite land3 in Hpnl. lia. }
  rewrite Hs. fold m. unfold first. rewrite lxor_twice.
  rewrite HPN. unfold PN. replace (N.to_nat (blen PN')) with (length PN') by (unfold blen; lia).
  rewrite xor_bytes_twice. f_equal.
  rewrite <- E1, E2, Eb.
  replace (b0 :: H ++ PN' ++ C ++ rest) with ((b0 :: H ++ PN' ++ C) ++ rest) by (cbn [app]; rewrite <- !app_assoc; reflexivity).
  replace (1 + blen H + blen PN' + blen C) with (blen (b0 :: H ++ PN' ++ C)) by (rewrite blen_cons, !blen_app; lia).
  rewrite take_front. reflexivity.
Qed.

Lemma toy_ok : ciphers_ok toy.
Proof.
  constructor.
  - reflexivity.
  - intros n a p. cbn [cy_enc toy]. unfold blen. rewrite app_length, map_length.
    change (length (toy_tag n a)) with 16%nat. lia.
  - intros n a p. cbn [cy_enc cy_dec toy].
    assert (L : length (map (N.lxor 90) p ++ toy_tag n a) = (length p + 16)%nat)
      by (rewrite app_length, map_length; reflexivity).
    unfold blen. rewrite L. destruct (N.ltb_spec (N.of_nat (length p + 16)) 16); [lia|].
    replace (length p + 16 - 16)%nat with (length (map (N.lxor 90) p)) by (rewrite map_length; lia).
    rewrite skipn_app, skipn_all, Nat.sub_diag. cbn [skipn app].
    destruct (list_eq_dec N.eq_dec (toy_tag n a) (toy_tag n a)) as [_|F]; [|destruct (F eq_refl)].
    rewrite firstn_app, firstn_all, Nat.sub_diag. cbn [firstn]. rewrite app_nil_r, map_map.
    f_equal. rewrite <- (map_id p) at 2. apply map_ext. intro x. rewrite <- N.lxor_assoc, N.lxor_nilpotent. apply N.lxor_0_l.
Qed.

(** A version negotiation packet of 1537 bytes. *)
Lemma oversize_overflow : exists lk cy bytes last, bytes <> [] /\ blen bytes = 1537 /\
  unprotect_packet lk cy bytes last 1536 = None.
Proof.
  exists (mk_lookup 0 None (fun _ => None) (fun _ => None)), toy, (128 :: 0 :: 0 :: 0 :: 0 :: 0 :: 0 :: repeat 0 1530), 0.
  split; [discriminate|]. split; vm_compute; reflexivity.
Qed.
