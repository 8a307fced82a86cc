(** Proofs about datagrams of unknown connections: nothing is read or written outside of
    the buffers, and replies are small and rare. *)
From Verif Require Import Base Tac Varint_model Varint_spec Varint_proofs Mem Mem_proofs
  PacketNumber_model PacketNumber_proofs Header_model Header_spec Header_proofs Header2_proofs Header3_proofs
  Protect_model Protect_spec Protect_proofs Protect2_proofs Protect3_proofs
  Rtoken_model Rtoken_spec Rtoken_proofs Rtoken2_proofs Ports_model Segment_model Segment_spec Segment_proofs Segment2_proofs Segment3_proofs.

(** * Sizes of the replies *)

Lemma versions_length : blen (flat_map (fun e => format_32 (fst e)) supported_versions) = 52.
Proof. reflexivity. Qed.

Lemma draw_some : forall vn l, (exists d, In d l /\ N.lor (N.land d 4042322160) 168430090 <> vn) -> exists g, draw_vn vn l = Some g.
Proof.
  intros vn. induction l as [|d l IH]; intros (x & Hin & Hx); [destruct Hin|]. cbn [draw_vn].
  destruct (N.eqb_spec (N.lor (N.land d 4042322160) 168430090) vn) as [E|_]; [|eexists; reflexivity].
  apply IH. destruct Hin as [-> |Hin]; [contradiction|]. exists x. auto.
Qed.

Lemma draw_inv : forall vn l g, draw_vn vn l = Some g -> g <> vn /\ exists d, In d l /\ g = N.lor (N.land d 4042322160) 168430090.
Proof.
  intros vn. induction l as [|d l IH]; intros g H; [discriminate|]. cbn [draw_vn] in H.
  destruct (N.eqb_spec (N.lor (N.land d 4042322160) 168430090) vn) as [E|E].
  - destruct (IH _ H) as (H1 & x & Hin & Hx). split; [exact H1|]. exists x. split; [right; exact Hin|exact Hx].
  - apply some_inj in H. subst g. split; [exact E|]. exists d. split; [left; reflexivity|reflexivity].
Qed.

Lemma mem_get_in : forall i m b, mem_get i m = Some b -> In b m.
Proof. intros i m b H. unfold mem_get in H. eapply nth_error_In, H. Qed.

Lemma byte_at : forall i m b, bytes_ok m -> mem_get i m = Some b -> b < 256.
Proof. intros i m b Hm H. apply mem_get_in in H. unfold bytes_ok in Hm. rewrite Forall_forall in Hm. apply Hm, H. Qed.

Lemma version_reply : forall lk rn vn raw b, bytes_ok raw -> version_negotiation lk rn vn raw = Some [AVersion b] ->
  exists first dcid scid g tail b0 v, raw = b0 :: v ++ (blen dcid :: dcid) ++ (blen scid :: scid) ++ tail /\ blen v = 4 /\
    128 <= first < 256 /\ draw_vn vn (rn_vns rn) = Some g /\
    b = first :: format_32 0 ++ (blen scid :: scid) ++ (blen dcid :: dcid) ++
        flat_map (fun e => format_32 (fst e)) supported_versions ++ format_32 g /\ blen b <= 573.
Proof.
  intros lk rn vn raw b Hb H. unfold version_negotiation in H.
  destruct (mem_get 5 raw) as [dl|] eqn:Edl; [|discriminate]. cbn [obind] in H.
  destruct (mem_get (6 + dl) raw) as [sl|] eqn:Esl; [|discriminate]. cbn [obind] in H.
  pose proof (byte_at _ _ _ Hb Edl) as Hdl. pose proof (byte_at _ _ _ Hb Esl) as Hsl.
  match type of H with obind ?x _ = _ => destruct x as [[c|]|]; [apply some_inj in H; discriminate| |discriminate] end. cbn [obind] in H.
  destruct (mem_read (6 + dl + 1) sl raw) as [scid|] eqn:Es; [|discriminate]. cbn [obind] in H.
  destruct (mem_read 6 dl raw) as [dcid|] eqn:Ed; [|discriminate]. cbn [obind] in H.
  destruct (draw_vn vn (rn_vns rn)) as [g|] eqn:Eg; [|discriminate]. cbn [obind] in H.
  match type of H with (if ?c then _ else _) = _ => destruct c; [discriminate|] end.
  assert (Hinj : forall x y, Some [AVersion x] = Some [AVersion y] -> x = y) by (intros x y E; injection E; auto).
  apply Hinj in H. rename H into Hbytes. clear Hinj.
  (* the shape of the datagram *)
  assert (Lr : 6 + dl + 1 + sl <= blen raw).
  { unfold mem_read in Es. destruct (N.leb_spec (6 + dl + 1 + sl) (blen raw)) as [A|A]; [exact A|discriminate]. }
  destruct raw as [|b0 [|v0 [|v1 [|v2 [|v3 [|dl' r]]]]]]; try (rewrite ?blen_cons, ?blen_nil in Lr; lia).
  change (mem_get 5 (b0 :: v0 :: v1 :: v2 :: v3 :: dl' :: r)) with (Some dl') in Edl. apply some_inj in Edl. subst dl'.
  rewrite !blen_cons in Lr.
  destruct (split_at dl r ltac:(lia)) as [Er Ld]. set (d := firstn (N.to_nat dl) r) in *. set (r2 := skipn (N.to_nat dl) r) in *.
  assert (Lr2 : blen r2 = blen r - dl) by (apply (f_equal blen) in Er; rewrite blen_app in Er; lia).
  destruct r2 as [|sl' r3] eqn:Er2; [rewrite blen_nil in Lr2; lia|].
  assert (Esl' : sl' = sl).
  { rewrite Er in Esl. unfold mem_get in Esl.
    replace (b0 :: v0 :: v1 :: v2 :: v3 :: dl :: d ++ sl' :: r3) with ((b0 :: v0 :: v1 :: v2 :: v3 :: dl :: d) ++ sl' :: r3) in Esl by reflexivity.
    rewrite nth_error_app2 in Esl by (cbn [length]; unfold blen in Ld; lia).
    replace (N.to_nat (6 + dl) - length (b0 :: v0 :: v1 :: v2 :: v3 :: dl :: d))%nat with 0%nat in Esl by (cbn [length]; unfold blen in Ld; lia).
    cbn [nth_error] in Esl. congruence. }
  subst sl'. rewrite blen_cons in Lr2.
  destruct (split_at sl r3 ltac:(lia)) as [Er3 Ls]. set (s := firstn (N.to_nat sl) r3) in *. set (tail := skipn (N.to_nat sl) r3) in *.
  assert (Edd : dcid = d).
  { rewrite Er in Ed. pose proof (mem_split3 [b0; v0; v1; v2; v3; dl] d (sl :: r3) 6 dl eq_refl (eq_sym Ld)) as X.
    cbn [app] in X. rewrite X in Ed. congruence. }
  assert (Ess : scid = s).
  { rewrite Er, Er3 in Es. pose proof (mem_split3 (b0 :: v0 :: v1 :: v2 :: v3 :: dl :: d ++ [sl]) s tail (6 + dl + 1) sl) as X.
    rewrite !blen_cons, blen_app, blen_cons, blen_nil in X.
    cbn [app] in X. rewrite <- !app_assoc in X. cbn [app] in X. rewrite X in Es; [congruence|lia|lia]. }
  subst dcid scid.
  exists (N.lor (u8 (rn_byte rn 0)) 128), d, s, g, tail, b0, [v0; v1; v2; v3].
  rewrite Ld, Ls. split. { rewrite Er, Er3. cbn [app]. reflexivity. }
  split; [reflexivity|]. split.
  { assert (A : forallb (fun y => (128 <=? N.lor y 128) && (N.lor y 128 <? 256)) (map N.of_nat (seq 0 256)) = true) by (vm_compute; reflexivity).
    rewrite forallb_forall in A. specialize (A (u8 (rn_byte rn 0))). apply andb_prop in A.
    - destruct A as [A B]. apply N.leb_le in A. apply N.ltb_lt in B. split; assumption.
    - apply in_map_iff. exists (N.to_nat (u8 (rn_byte rn 0))). split; [apply N2Nat.id|]. apply in_seq. pose proof (u8_lt (rn_byte rn 0)). lia. }
  split; [reflexivity|]. split; [symmetry; exact Hbytes|].
  rewrite <- Hbytes. rewrite blen_cons, !blen_app, !blen_cons, versions_length. change (blen (format_32 0)) with 4. change (blen (format_32 g)) with 4. lia.
Qed.

Lemma busy_eq : forall cf rn ph vi e, ph_vi ph = Some vi -> version_entry vi = Some e ->
  ciphers_ok (snd (sf_keys cf vi (ph_dcid ph))) -> blen (ph_scid ph) <= 20 -> blen (rn_cid rn) <= 20 ->
  exists b, busy_packet cf rn ph = Some [ABusy b] /\ blen b = 34 + blen (ph_scid ph) + blen (rn_cid rn).
Proof.
  intros cf rn ph vi e Hvi He Hcy Hs Hr. unfold busy_packet. rewrite Hvi.
  destruct (create_long_eq PtInitial (ph_scid ph) (rn_cid rn) false (ph_vn ph) vi e 0 [] 1536 (or_introl (or_introl eq_refl)) He Hs Hr) as (low & Hl & H3 & E).
  specialize (H3 (or_introl eq_refl)). subst low. cbv zeta in E. rewrite E. clear E. cbn [ptype_eqb negb].
  set (h := long_head (first_byte (snd e) PtInitial true 3) (ph_vn ph) (ph_scid ph) (rn_cid rn) PtInitial []).
  assert (Lh : blen h = 8 + blen (ph_scid ph) + blen (rn_cid rn)).
  { unfold h. rewrite blen_long_head. change (blen (token_part PtInitial [])) with 1. lia. }
  destruct (N.ltb_spec 1536 (blen h + 6)); [lia|]. cbn [obind].
  set (hb := h ++ [0; 0] ++ format_32 (u32 0)).
  assert (Lhb : blen hb = blen h + 6) by (unfold hb; rewrite !blen_app; reflexivity).
  assert (Hf : exists t, h = first_byte (snd e) PtInitial true 3 :: t) by (eexists; reflexivity).
  destruct Hf as [t Et].
  assert (U : update_payload_length hb (blen h + 2) (blen hb - 4) (blen hb + 4 + 16) = Some (h ++ varint_encode_16 (4 + 4 + 16) ++ format_32 (u32 0))).
  { apply (update_long h (format_32 (u32 0)) (4 + 4 + 16)); try lia.
    - rewrite Et. cbn [nth]. destruct (snd e); reflexivity.
    - rewrite Et. discriminate. }
  rewrite U.
  cbn [obind]. set (cy := snd (sf_keys cf vi (ph_dcid ph))) in *.
  set (hd := h ++ varint_encode_16 (4 + 4 + 16) ++ format_32 (u32 0)).
  set (C := cy_enc cy 0 hd [28; 2; 0; 0]).
  assert (LC : blen C = 20) by (unfold C; rewrite (ck_enc_len _ Hcy); reflexivity).
  assert (Ehd : hd ++ C = first_byte (snd e) PtInitial true 3 :: (t ++ varint_encode_16 (4 + 4 + 16)) ++ format_32 (u32 0) ++ C).
  { unfold hd. rewrite Et. cbn [app]. rewrite <- !app_assoc. reflexivity. }
  assert (Lt : blen h = 1 + blen t) by (rewrite Et, blen_cons; lia).
  rewrite Ehd. replace (blen h + 2) with (1 + blen (t ++ varint_encode_16 (4 + 4 + 16))) by (rewrite blen_app; change (blen (varint_encode_16 (4 + 4 + 16))) with 2; lia).
  rewrite protect_header_eq.
  2: { destruct (snd e); reflexivity. }
  2: { rewrite LC. change (blen (format_32 (u32 0))) with 4. lia. }
  cbn [obind]. set (m := cy_mask cy _).
  match goal with |- context[1536 <? blen ?l] => set (pk := l) end.
  assert (Lpk : blen pk = 34 + blen (ph_scid ph) + blen (rn_cid rn)).
  { unfold pk. rewrite blen_cons, !blen_app, LC. unfold blen at 3. rewrite xor_bytes_length.
    change (blen (varint_encode_16 (4 + 4 + 16))) with 2. change (length (format_32 (u32 0))) with 4%nat. lia. }
  destruct (N.ltb_spec 1536 (blen pk)); [lia|]. exists pk. auto.
Qed.

Lemma retry_eq : forall cf rn pe now ph vi e, ph_vi ph = Some vi -> version_entry vi = Some e -> aead_ok (sf_ticket cf) ->
  (forall vi p, blen (sf_retry_tag cf vi p) = 16) -> now + 200000000 < two64 -> 0 < blen (ph_dcid ph) ->
  blen (ph_dcid ph) <= 20 -> blen (ph_scid ph) <= 20 -> blen (rn_cid rn) <= 20 -> blen (rn_nonce rn) = 8 -> bytes_ok (rn_nonce rn) ->
  exists token low, issued (sf_ticket cf) (pe_ip pe) (now + 120000000) (ph_dcid ph) (rn_cid rn) 0 token /\ low < 4 /\ blen token <= 82 /\
    let h := long_head (first_byte (snd e) PtRetry true low) (ph_vn ph) (ph_scid ph) (rn_cid rn) PtRetry token ++ token in
    retry_packet cf rn pe now ph = Some [ARetry (h ++ sf_retry_tag cf vi (blen (ph_dcid ph) :: ph_dcid ph ++ h))] /\
    blen h = 7 + blen (ph_scid ph) + blen (rn_cid rn) + blen token.
Proof.
  intros cf rn pe now ph vi e Hvi He Hae Htag Hnow Hd0 Hd Hs Hr Hn8 Hnb. unfold retry_packet.
  assert (Hu : u64 (now + 120000000) = now + 120000000) by (unfold u64; apply N.mod_small; lia). rewrite Hu.
  assert (Hexp : expiry (now + 120000000) (ph_dcid ph) < two64).
  { unfold expiry. destruct (ph_dcid ph) as [|x l]; [rewrite blen_nil in Hd0; lia|lia]. }
  destruct (retry_text_eq (now + 120000000) (ph_dcid ph) (rn_cid rn) 0 Hd Hr Hexp) as (pad & Et & Lt).
  set (text := clear_text (now + 120000000) (ph_dcid ph) (rn_cid rn) 0 ++ pad) in *.
  assert (Hprep : exists token, prepare_retry_token (sf_ticket cf) (pe_ip pe) (now + 120000000) (ph_dcid ph) (rn_cid rn) 0 (rn_nonce rn) 256 = Some (Some token) /\ blen token <= 82).
  { unfold prepare_retry_token. rewrite Et. unfold encrypt_retry_token. destruct (N.ltb_spec 256 (blen text + 1 + 16)); [lia|].
    destruct (rn_nonce rn) as [|r0 r] eqn:En; [rewrite blen_nil in Hn8; lia|].
    set (n0 := if blen (ph_dcid ph) =? 0 then N.lor r0 128 else N.land r0 127).
    assert (Hx : exists s, parse_64 (n0 :: r) = Some s).
    { rewrite blen_cons in Hn8. destruct r as [|r1 [|r2 [|r3 [|r4 [|r5 [|r6 [|r7 r]]]]]]]; try (rewrite ?blen_cons, ?blen_nil in Hn8; lia).
      unfold parse_64, frames_uint64_decode, frames_uint32_decode. eexists. reflexivity. }
    destruct Hx as [s Hx]. rewrite Hx. cbn [obind].
    assert (L : blen ((n0 :: r) ++ ae_enc (sf_ticket cf) s (pe_ip pe) text) = 8 + (blen text + 16)).
    { rewrite blen_app, (ao_len _ Hae). rewrite blen_cons in Hn8. rewrite blen_cons. lia. }
    destruct (N.ltb_spec 256 (blen ((n0 :: r) ++ ae_enc (sf_ticket cf) s (pe_ip pe) text))); [lia|].
    eexists. split; [reflexivity|]. lia. }
  destruct Hprep as (token & Hprep & Ltok). rewrite Hprep. cbn [obind].
  destruct (create_long_eq PtRetry (ph_scid ph) (rn_cid rn) false (ph_vn ph) vi e 0 token 1536 (or_intror eq_refl) He Hs Hr) as (low & Hl & _ & E).
  cbv zeta in E. rewrite Hvi, E. clear E. cbn [ptype_eqb negb].
  set (h := long_head (first_byte (snd e) PtRetry true low) (ph_vn ph) (ph_scid ph) (rn_cid rn) PtRetry token).
  assert (Lh : blen h = 7 + blen (ph_scid ph) + blen (rn_cid rn)).
  { unfold h. rewrite blen_long_head. change (blen (token_part PtRetry token)) with 0. lia. }
  destruct (N.ltb_spec 1536 (blen h)); [lia|]. cbn [obind fst].
  destruct (N.ltb_spec (blen h + blen token) 1536); [|lia].
  assert (Lh2 : blen (h ++ token) = blen h + blen token) by apply blen_app. rewrite Lh2.
  destruct (N.ltb_spec (blen h + blen token + 16) 1536); [|lia].
  destruct (N.ltb_spec (blen h + blen token + blen (ph_dcid ph) + 1) 1536); [|lia]. cbn [andb].
  exists token, low. split.
  { split; [exists (rn_nonce rn); auto|]. repeat (split; [assumption || (vm_compute; reflexivity)|]). exact Hexp. }
  split; [exact Hl|]. split; [exact Ltok|]. cbv zeta. fold h. split; [reflexivity|]. rewrite Lh2, Lh. lia.
Qed.
