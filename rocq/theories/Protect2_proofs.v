(** Proofs about packet protection: short headers, authenticity, safety. *)
From Verif Require Import Base Tac Varint_model Varint_spec Varint_proofs Mem Mem_proofs
  PacketNumber_model PacketNumber_proofs Header_model Header_spec Header_proofs Header2_proofs Header3_proofs
  Protect_model Protect_spec Protect_proofs.

Lemma mem_fill_len : forall v n, blen (mem_fill v n) = n.
Proof. intros. unfold mem_fill, blen. rewrite repeat_length. lia. Qed.

Definition loss_first (b0 : N) (loss : option (bool * bool)) : N :=
  match loss with
  | Some (q, l) => N.lor (N.lor b0 (if q then 16 else 0)) (if l then 8 else 0)
  | None => b0
  end.

Lemma loss_first_bits : forall q s k low loss, low < 4 ->
  let f := loss_first (short_first q s k low) loss in
  N.land f 128 = 0 /\ (N.land f 64 =? 0) = negb q /\ bit f 5 = s /\ bit f 2 = k /\ N.land f 3 = low /\
  (loss = None -> N.land f 24 = 0) /\
  (forall ql ll, loss = Some (ql, ll) -> bit f 4 = ql /\ bit f 3 = ll).
Proof.
  intros q s k low loss H. cbv zeta. assert (Hi : In low [0;1;2;3]) by (cbn [In]; lia). cbn [In] in Hi.
  repeat (destruct Hi as [<-|Hi]; [destruct loss as [[[] []]|], q, s, k;
    (repeat match goal with |- _ /\ _ => split end; try reflexivity;
     first [intro E; discriminate | intros ql ll E; try discriminate; injection E as <- <-; split; reflexivity])|]).
  destruct Hi.
Qed.

Lemma bit_land : forall b n, bit b n = negb (N.land b (2 ^ n) =? 0).
Proof.
  intros b n. unfold bit. f_equal.
  assert (E : N.land (N.shiftr b n) 1 = N.shiftr (N.land b (2 ^ n)) n).
  { rewrite N.shiftr_land. f_equal. rewrite N.shiftr_div_pow2, N.div_same; [reflexivity|]. apply N.pow_nonzero. discriminate. }
  rewrite E.
  assert (C : N.land b (2 ^ n) = 0 \/ N.land b (2 ^ n) = 2 ^ n).
  { destruct (N.testbit b n) eqn:T.
    - right. apply N.bits_inj. intro i. rewrite N.land_spec, N.pow2_bits_eqb.
      destruct (N.eqb_spec n i) as [<-|]; [rewrite T; reflexivity|rewrite Bool.andb_false_r; reflexivity].
    - left. apply N.bits_inj. intro i. rewrite N.land_spec, N.pow2_bits_eqb, N.bits_0.
      destruct (N.eqb_spec n i) as [<-|]; [rewrite T; reflexivity|rewrite Bool.andb_false_r; reflexivity]. }
  destruct C as [-> | ->]; [rewrite N.shiftr_0_l; reflexivity|].
  rewrite N.shiftr_div_pow2, N.div_same by (apply N.pow_nonzero; discriminate).
  destruct (N.eqb_spec (2 ^ n) 0) as [Z|_]; [apply N.pow_nonzero in Z; [destruct Z|discriminate]|reflexivity].
Qed.

Lemma short_protect_eq : forall c cy seq payload pf loss room pkt,
  blen (sc_remote c) <= 20 -> (sc_spin c = 0 \/ sc_spin c = 32) -> ciphers_ok cy ->
  let hl := predict_header_length (blen (sc_remote c)) seq pf in
  protect_packet c cy Pt1rtt seq payload hl loss room = Some pkt ->
  let pnl := predict_pn_l seq pf in
  let f := loss_first (short_first (fixed_bit c) (sc_spin c =? 32) (sc_key_phase c) (pnl - 1)) loss in
  let text := payload ++ mem_fill 0 (4 - pnl - blen payload) in
  let PN := pn_bytes pnl seq in let C := cy_enc cy seq (f :: sc_remote c ++ PN) text in
  let m := cy_mask cy (sample_of PN C) in
  pkt = N.lxor f (N.land (nth 0 m 0) (match loss with Some _ => 7 | None => 31 end)) :: sc_remote c ++
        xor_bytes PN (firstn (length PN) (skipn 1 m)) ++ C.
Proof.
  intros c cy seq payload pf loss room pkt Hr Hs Hcy hl Hpr pnl f text PN C m.
  unfold protect_packet in Hpr.
  destruct (create_short_eq c seq hl room Hr Hs) as [Hp E]. cbv zeta in E.
  unfold hl in E, Hp. rewrite create_pn_l_predicted in E, Hp. fold hl in E. fold pnl in E, Hp.
  rewrite E in Hpr. clear E.
  set (f0 := short_first (fixed_bit c) (sc_spin c =? 32) (sc_key_phase c) (pnl - 1)) in *.
  match type of Hpr with obind (if ?b then _ else _) _ = _ => destruct b; [discriminate|] end.
  cbn [obind] in Hpr. change (mem_get 0 (?x :: ?l)) with (Some x) in Hpr. cbn [obind] in Hpr.
  rewrite write_first in Hpr. cbn [obind ptype_eqb] in Hpr.
  assert (Hf : (match loss with Some (q, l) => N.lor (N.lor f0 (if q then 16 else 0)) (if l then 8 else 0) | None => f0 end) = f)
    by (unfold f, loss_first; reflexivity).
  rewrite Hf in Hpr.
  assert (Hlow : pnl - 1 < 4) by lia.
  destruct (loss_first_bits (fixed_bit c) (sc_spin c =? 32) (sc_key_phase c) (pnl - 1) loss Hlow) as (B1 & _ & _ & _ & B5 & _).
  fold f0 in B1, B5. fold f in B1, B5.
  clearbody f. clearbody f0.
  fold PN in Hpr.
  assert (HPN : blen PN = pnl) by (unfold PN; apply pn_bytes_length; exact Hp).
  assert (Hpad : pad_payload payload hl (1 + blen (sc_remote c) + 4 + 16 - 16) = text).
  { unfold pad_payload, text, hl, predict_header_length. fold pnl.
    destruct (N.ltb_spec (1 + blen (sc_remote c) + pnl + blen payload) (1 + blen (sc_remote c) + 4 + 16 - 16)).
    - f_equal. f_equal. lia.
    - replace (4 - pnl - blen payload) with 0 by lia. unfold mem_fill. cbn [N.to_nat repeat]. rewrite app_nil_r. reflexivity. }
  rewrite Hpad in Hpr.
  assert (Hup : forall a b d, update_payload_length (f :: sc_remote c ++ PN) a b d = Some (f :: sc_remote c ++ PN)).
  { intros a b d. unfold update_payload_length. change (mem_get 0 (?x :: ?l)) with (Some x). cbn [obind]. rewrite B1. reflexivity. }
  rewrite Hup in Hpr. cbn [obind] in Hpr. fold C in Hpr.
  match type of Hpr with (if ?b then _ else _) = _ => destruct b; [discriminate|] end.
  change ((f :: sc_remote c ++ PN) ++ C) with (f :: (sc_remote c ++ PN) ++ C) in Hpr. rewrite <- app_assoc in Hpr.
  assert (HC : blen C = blen payload + (4 - pnl - blen payload) + 16).
  { unfold C. rewrite (ck_enc_len _ Hcy). unfold text. rewrite blen_app, mem_fill_len. lia. }
  rewrite protect_header_eq in Hpr; [|rewrite B5; lia|lia].
  apply some_inj in Hpr. rewrite <- Hpr. destruct loss as [[ql ll]|]; reflexivity.
Qed.

Lemma short_protected : forall c lk cy seq payload pf loss room pkt d last room2,
  blen (sc_remote c) <= 20 -> (sc_spin c = 0 \/ sc_spin c = 32) -> ciphers_ok cy ->
  protect_packet c cy Pt1rtt seq payload (predict_header_length (blen (sc_remote c)) seq pf) loss room = Some pkt ->
  blen pkt < 65536 -> blen pkt <= room2 ->
  lk_cid_len lk = blen (sc_remote c) -> find_short lk (sc_remote c) = Some d ->
  (fixed_bit c = false -> cd_grease d = true) -> cd_loss_in d = (match loss with Some _ => true | None => false end) ->
  in_window (predict_pn_l seq pf) seq last ->
  exists ph op pad, unprotect_packet lk cy pkt last room2 = Some (UnOk ph op (payload ++ mem_fill 0 pad) (blen pkt)) /\
    pad <= 3 /\ (3 <= blen payload -> pad = 0) /\
    ph_type ph = Pt1rtt /\ ph_dcid ph = sc_remote c /\ ph_epoch ph = 3 /\ ph_pc ph = 0 /\
    ph_spin ph = (sc_spin c =? 32) /\
    (forall q l, loss = Some (q, l) -> ph_loss_q ph = q /\ ph_loss_l ph = l) /\
    op_pn64 op = seq /\ op_key_phase op = sc_key_phase c /\ op_reserved op = false.
Proof.
  intros c lk cy seq payload pf loss room pkt d last room2 Hr Hs Hcy Hpr Hlen Hroom Hlk Hfind Hg Hloss Hwin.
  pose proof (short_protect_eq c cy seq payload pf loss room pkt Hr Hs Hcy) as Hpkt. cbv zeta in Hpkt. specialize (Hpkt Hpr).
  destruct (create_short_eq c seq (predict_header_length (blen (sc_remote c)) seq pf) 0 Hr Hs) as [Hp _].
  rewrite create_pn_l_predicted in Hp.
  set (pnl := predict_pn_l seq pf) in *.
  set (f0 := short_first (fixed_bit c) (sc_spin c =? 32) (sc_key_phase c) (pnl - 1)) in *.
  set (f := loss_first f0 loss) in *.
  set (w := match loss with Some _ => 7 | None => 31 end) in *.
  set (text := payload ++ mem_fill 0 (4 - pnl - blen payload)) in *.
  set (PN := pn_bytes pnl seq) in *. set (C := cy_enc cy seq (f :: sc_remote c ++ PN) text) in *.
  set (m := cy_mask cy (sample_of PN C)) in *. set (H := sc_remote c) in *.
  assert (HPN : blen PN = pnl) by (unfold PN; apply pn_bytes_length; exact Hp).
  assert (HC : blen C = blen text + 16) by (unfold C; apply (ck_enc_len _ Hcy)).
  assert (Htext : blen text = blen payload + (4 - pnl - blen payload)) by (unfold text; rewrite blen_app, mem_fill_len; reflexivity).
  assert (Hlow : pnl - 1 < 4) by lia.
  destruct (loss_first_bits (fixed_bit c) (sc_spin c =? 32) (sc_key_phase c) (pnl - 1) loss Hlow) as (B1 & B2 & B3 & B4 & B5 & B6 & B7).
  fold f0 in B1, B2, B3, B4, B5, B6, B7. fold f in B1, B2, B3, B4, B5, B6, B7.
  set (f' := N.lxor f (N.land (nth 0 m 0) w)) in *.
  assert (Hwcase : w = 7 \/ w = 31) by (unfold w; destruct loss; [left|right]; reflexivity).
  assert (F1 : N.land f' 128 = 0) by (unfold f'; rewrite land_mask_high; [exact B1|destruct Hwcase as [-> | ->]; reflexivity]).
  assert (F2 : N.land f' 64 = N.land f 64) by (unfold f'; apply land_mask_high; destruct Hwcase as [-> | ->]; reflexivity).
  assert (F3 : bit f' 5 = bit f 5).
  { rewrite !bit_land. unfold f'. rewrite land_mask_high; [reflexivity|destruct Hwcase as [-> | ->]; reflexivity]. }
  set (PN' := xor_bytes PN (firstn (length PN) (skipn 1 m))) in *.
  assert (HPN' : blen PN' = pnl) by (rewrite <- HPN; unfold PN', blen; rewrite xor_bytes_length; reflexivity).
  assert (Hpkl : blen pkt = 1 + blen H + (blen PN + blen C)).
  { rewrite Hpkt, blen_cons, !blen_app, HPN', HPN. lia. }
  pose proof (parse_short_eq lk f' H (PN' ++ C) d F1 (eq_sym Hlk) Hr) as Hparse.
  rewrite blen_app in Hparse. specialize (Hparse ltac:(lia) Hfind).
  rewrite F2, B2, Bool.negb_involutive in Hparse.
  assert (Hfix : fixed_bit_ok (fixed_bit c) (Some d) = true).
  { unfold fixed_bit_ok. destruct (fixed_bit c); [reflexivity|rewrite Hg; reflexivity]. }
  rewrite Hfix in Hparse. rewrite <- Hpkt in Hparse.
  set (ph := mk_ph _ _ _ _ _ _ _ _ _ _ _ _ _ _ _ _ _ _ _) in Hparse.
  pose proof (remove_protection_eq cy f H PN C w [] ph (cd_loss_in d) last room2 seq) as Hrem. cbv zeta in Hrem.
  fold m in Hrem. fold PN' in Hrem. fold f' in Hrem. rewrite app_nil_r in Hrem. rewrite <- Hpkt in Hrem.
  assert (Hoff : ph_offset ph = 1 + blen H) by reflexivity.
  assert (Hpoff : ph_pn_offset ph = 1 + blen H) by reflexivity.
  assert (Hpay : ph_payload ph = blen PN + blen C) by (unfold ph; cbn [ph_payload]; rewrite HPN', HPN; reflexivity).
  rewrite B1 in Hrem. change (0 =? 128) with false in Hrem. change (0 =? 0) with true in Hrem. cbv iota in Hrem.
  specialize (Hrem ltac:(lia) ltac:(lia) ltac:(destruct Hwcase as [-> | ->]; reflexivity)
    ltac:(rewrite Hloss; unfold w; destruct loss as [[? ?]|]; reflexivity) ltac:(rewrite HPN; reflexivity)
    ltac:(rewrite HPN; exact Hwin) Hoff Hpoff Hpay ltac:(lia)).
  eexists ph, _, (4 - pnl - blen payload). split.
  - unfold unprotect_packet. rewrite Hparse. cbn [obind].
    change (ph_type ph) with Pt1rtt. cbv iota.
    assert (Hv : negb (match ph_vi ph with Some i => i =? cd_version_index d | None => false end) = false).
    { unfold ph. cbn [ph_vi]. rewrite N.eqb_refl. reflexivity. }
    rewrite Hv. rewrite Hrem. cbn [obind op_payload_offset op_payload_length op_pn64 op_header].
    replace (mem_read (1 + blen H + blen PN) (blen C) pkt) with (Some C).
    2: { symmetry. rewrite Hpkt. replace (f' :: H ++ PN' ++ C) with ((f' :: H ++ PN') ++ C ++ [])
           by (rewrite app_nil_r; cbn [app]; rewrite <- !app_assoc; reflexivity).
         apply mem_split3; [rewrite blen_cons, blen_app, HPN', HPN; lia|reflexivity]. }
    cbn [obind].
    destruct (N.ltb_spec room2 (1 + blen H + blen PN + (blen C - 16))); [lia|].
    assert (Hdec : cy_dec cy seq (f :: H ++ PN) C = Some text) by (unfold C; apply (ck_dec _ Hcy)).
    rewrite Hdec. rewrite Hpkl, Hoff, Hpay. reflexivity.
  - cbn [op_pn64 op_reserved op_key_phase]. change (ph_type ph) with Pt1rtt. cbn [ptype_eqb]. cbv iota.
    repeat match goal with |- _ /\ _ => split end; try reflexivity; try lia.
    + unfold ph. cbn [ph_spin]. rewrite F3. exact B3.
    + intros q l El. unfold ph. cbn [ph_loss_q ph_loss_l]. rewrite Hloss.
      destruct (B7 q l El) as [X Y]. rewrite El. cbn [andb].
      assert (w = 7) by (unfold w; rewrite El; reflexivity).
      rewrite !bit_land in *. unfold f'. subst w. rewrite H0. rewrite !land_mask_high by reflexivity. split; assumption.
    + exact B4.
    + rewrite Hloss. destruct loss as [[? ?]|]; [reflexivity|]. rewrite (B6 eq_refl). reflexivity.
Qed.
