(** Proofs about datagrams of unknown connections: the connections that are created. *)
From Verif Require Import Base Tac Varint_model Varint_spec Varint_proofs Mem Mem_proofs
  PacketNumber_model PacketNumber_proofs Header_model Header_spec Header_proofs Header2_proofs Header3_proofs
  Protect_model Protect_spec Protect_proofs Protect2_proofs Protect3_proofs
  Rtoken_model Rtoken_spec Rtoken_proofs Rtoken2_proofs Ports_model Segment_model Segment_spec Segment_proofs.

(** Decryption of the first Initial packet. *)
Lemma open_authentic : forall cf raw ph vi head plen, initial_at raw vi (ph_vn ph) (ph_dcid ph) (ph_scid ph) (ph_token ph) head plen ->
  ph_vi ph = Some vi -> ph_offset ph = blen head -> ph_pn_offset ph = blen head -> ph_payload ph = plen -> blen raw <= 1536 ->
  exists o, screen_open cf raw ph = Some o /\
    forall pn, o = Some pn -> authentic (fst (sf_keys cf vi (ph_dcid ph))) raw head plen pn.
Proof.
  intros cf raw ph vi head plen Hi Hvi Ho Hpo Hpl Hr. unfold screen_open. rewrite Hvi. set (cy := fst (sf_keys cf vi (ph_dcid ph))).
  destruct Hi as (v2 & q & low & rest & after & He & Hlow & Ehead & Hrest & Eraw & Hafter).
  assert (H1 : 1 <= ph_offset ph). { rewrite Ho, Ehead. unfold long_start. cbn [app]. rewrite blen_cons. lia. }
  assert (H2 : ph_pn_offset ph = ph_offset ph) by congruence.
  assert (H3 : ph_offset ph + ph_payload ph <= blen raw) by (rewrite Ho, Hpl, Eraw, blen_app; lia).
  assert (Hb0 : forall b0 t, raw = b0 :: t -> N.land b0 128 = 128).
  { intros b0 t Er. rewrite Er, Ehead in Eraw. unfold long_start in Eraw. cbn [app] in Eraw. injection Eraw as -> _.
    assert (Hin : In low (map N.of_nat (seq 0 16))) by (apply in_map_iff; exists (N.to_nat low); split; [lia|apply in_seq; lia]).
    cbn [seq map In] in Hin. clear - Hin.
    repeat (destruct Hin as [<-|Hin]; [destruct q, v2; vm_compute; reflexivity|]). destruct Hin. }
  destruct (remove_protection_shape cy raw (ph_offset ph + ph_payload ph) ph false 0 1536 H1 H2 eq_refl H3 Hr)
    as [E | (b0 & H & PN' & C & rest' & Eb & E1 & E2 & E3 & Hx)].
  { rewrite E. cbn [obind]. eexists. split; [reflexivity|]. discriminate. }
  cbv zeta in Hx. destruct Hx as (Hpnl & pn64 & Hpn & E). rewrite E. clear E.
  cbn [obind op_payload_offset op_payload_length op_pn64 op_header].
  rewrite (Hb0 _ _ Eb) in *. change (128 =? 128) with true in *. cbv iota in *.
  set (m := cy_mask cy (sample_of PN' C)) in *.
  set (first := N.lxor b0 (N.land (nth 0 m 0) 15)) in *.
  set (PN := xor_bytes PN' (firstn (N.to_nat (blen PN')) (skipn 1 m))) in *.
  replace (mem_read (1 + blen H + blen PN') (blen C) raw) with (Some C).
  2: { symmetry. rewrite Eb. replace (b0 :: H ++ PN' ++ C ++ rest') with ((b0 :: H ++ PN') ++ C ++ rest')
         by (cbn [app]; rewrite <- !app_assoc; reflexivity).
       apply mem_split3; [rewrite blen_cons, blen_app; lia|reflexivity]. }
  cbn [obind].
  assert (Lb : blen raw = 1 + blen H + blen PN' + blen C + blen rest') by (rewrite Eb, blen_cons, !blen_app; lia).
  destruct (N.ltb_spec 1536 (1 + blen H + blen PN' + (blen C - 16))); [lia|].
  eexists. split; [reflexivity|]. intros pn Epn.
  destruct (cy_dec cy pn64 (first :: H ++ PN) C) as [text'|] eqn:Ed; [|discriminate]. injection Epn as <-.
  assert (HPN : length PN = length PN') by (unfold PN; apply xor_bytes_length).
  assert (HlPN : blen PN = blen PN') by (unfold blen; rewrite HPN; reflexivity).
  exists (first :: H ++ PN), C, text'. split; [exact Ed|].
  rewrite <- Hpo, <- Hpl, H2, E1. cbn [app]. rewrite <- app_assoc.
  rewrite protect_header_eq; [|rewrite HlPN; exact Hpnl|rewrite HlPN; exact E3].
  assert (Hs : sample_of PN C = sample_of PN' C).
  { rewrite <- (app_nil_r C) at 1. apply (sample_same PN' PN C []); [symmetry; exact HPN| |exact E3].
    unfold blen in Hpnl. rewrite land3 in Hpnl. lia. }
  rewrite Hs. fold m. unfold first. rewrite lxor_twice.
  rewrite HPN. unfold PN. replace (N.to_nat (blen PN')) with (length PN') by (unfold blen; lia).
  rewrite xor_bytes_twice. f_equal.
  rewrite <- E1, E2, Eb.
  replace (b0 :: H ++ PN' ++ C ++ rest') with ((b0 :: H ++ PN' ++ C) ++ rest') by (cbn [app]; rewrite <- !app_assoc; reflexivity).
  replace (1 + blen H + blen PN' + blen C) with (blen (b0 :: H ++ PN' ++ C)) by (rewrite blen_cons, !blen_app; lia).
  rewrite take_front. reflexivity.
Qed.

(** The result of the screening. *)
Lemma screen_inv : forall cf st pe now raw plen ph st1 code,
  screen_initial cf st pe now raw plen ph = Some (st1, code) ->
  st_next_reset st1 = st_next_reset st /\
  match code with
  | ScCreated v od =>
    1200 <= plen /\ 8 <= blen (ph_dcid ph) /\ sf_client_only cf = false /\ sf_busy cf = false /\ st_conns st < sf_max_conns cf /\
    (exists reg, st1 = create_cnx cf st ph reg) /\
    exists pn, screen_open cf raw ph = Some (Some pn) /\
      validation cf pe now (st_half st) (ph_dcid ph) (ph_token ph) pn v od
  | _ => st_lk st1 = st_lk st /\ st_conns st1 = st_conns st /\ st_half st1 = st_half st
  end.
Proof.
  intros cf st pe now raw plen ph st1 code H. unfold screen_initial in H.
  destruct (N.ltb_spec plen 1200) as [_|H1]; [inv_pair H; auto|].
  destruct (N.ltb_spec (blen (ph_dcid ph)) 8) as [_|H2]; [inv_pair H; auto|].
  destruct (sf_client_only cf) eqn:H3; [inv_pair H; auto|].
  destruct (sf_busy cf || (sf_max_conns cf <=? st_conns st)) eqn:H4; [inv_pair H; auto|].
  apply Bool.orb_false_iff in H4. destruct H4 as [H4 H5]. apply N.leb_gt in H5.
  destruct (screen_open cf raw ph) as [[pn|]|] eqn:Eo; [|cbn [obind] in H; inv_pair H; auto|discriminate]. cbn [obind] in H.
  destruct (N.ltb_spec 0 (blen (ph_token ph))) as [Ht|Ht].
  - destruct (verify_retry_token (sf_ticket cf) (st_reg st) (pe_ip pe) now (ph_dcid ph) (u32 pn) (ph_token ph) true) as [w|] eqn:Ew; [|discriminate].
    cbn [obind] in H. cbv beta iota zeta in H.
    destruct (negb (v_ok w) && negb (match v_new w with Some b => b | None => false end)) eqn:Hbad; [inv_pair H; auto|].
    match type of H with (if ?c then _ else _) = _ => destruct c eqn:Hr end; [inv_pair H; auto|].
    inv_pair H. split; [reflexivity|]. repeat match goal with |- _ /\ _ => split end; auto.
    { exists (v_reg w). reflexivity. }
    exists pn. split; [reflexivity|]. unfold validation. destruct (v_ok w) eqn:Hok.
    + exists (st_reg st), w. auto.
    + cbn [negb andb] in Hbad, Hr. apply Bool.orb_false_iff in Hr. destruct Hr as [Hr Ha]. apply Bool.orb_false_iff in Hr. destruct Hr as [Hf Hh].
      apply N.leb_gt in Hh. repeat match goal with |- _ /\ _ => split end; auto. right. exists (st_reg st), w. repeat split; auto.
      destruct (v_new w) as [[]|]; [reflexivity|discriminate|discriminate].
  - cbn [obind] in H. cbv beta iota zeta in H. cbn [negb andb] in H.
    match type of H with (if ?c then _ else _) = _ => destruct c eqn:Hr end; [inv_pair H; auto|].
    inv_pair H. split; [reflexivity|]. repeat match goal with |- _ /\ _ => split end; auto.
    { exists (st_reg st). reflexivity. }
    exists pn. split; [reflexivity|]. unfold validation.
    apply Bool.orb_false_iff in Hr. destruct Hr as [Hr Ha]. apply Bool.orb_false_iff in Hr. destruct Hr as [Hf Hh].
    apply N.leb_gt in Hh. repeat match goal with |- _ /\ _ => split end; auto. left. destruct (ph_token ph); [reflexivity|]. rewrite blen_cons in Ht. lia.
Qed.

(** What a segment does, by action: enough for the invariants of the walk. *)
Definition extends (st st1 : sstate) (acts : list action) : Prop :=
  st_conns st1 = st_conns st + created acts /\ st_half st1 = st_half st + created acts /\
  lk_cid_len (st_lk st1) = lk_cid_len (st_lk st) /\ lk_by_id (st_lk st1) = lk_by_id (st_lk st) /\
  (forall d, find_long (st_lk st1) PtInitial d = None ->
     find_long (st_lk st) PtInitial d = None /\ ~ In d (created_ids acts)) /\
  (lk_by_icid (st_lk st) [] = None -> lk_by_icid (st_lk st1) [] = None).

Lemma extends_same : forall st st1, st_lk st1 = st_lk st -> st_conns st1 = st_conns st -> st_half st1 = st_half st ->
  forall acts, created acts = 0 -> created_ids acts = [] -> extends st st1 acts.
Proof. intros st st1 E1 E2 E3 acts Hc Hi. unfold extends. rewrite E1, E2, E3, Hc, Hi. repeat split; auto; lia. Qed.

Lemma find_created : forall cf st ph reg d, 8 <= blen (ph_dcid ph) ->
  find_long (st_lk (create_cnx cf st ph reg)) PtInitial d = None -> find_long (st_lk st) PtInitial d = None /\ d <> ph_dcid ph.
Proof.
  intros cf st ph reg d H8 H. unfold create_cnx, find_long in *. cbn [st_lk lk_cid_len lk_by_net lk_by_id lk_by_icid] in H.
  destruct (lk_cid_len (st_lk st) =? 0); [discriminate|].
  destruct (if blen d =? lk_cid_len (st_lk st) then lk_by_id (st_lk st) d else None); [discriminate|].
  cbn [ptype_eqb orb] in *. destruct (list_eq_dec N.eq_dec d (ph_dcid ph)); [discriminate|]. auto.
Qed.

Lemma extends_create : forall cf st ph reg v od, 8 <= blen (ph_dcid ph) ->
  extends st (create_cnx cf st ph reg) [ACreate (ph_dcid ph) v od].
Proof.
  intros cf st ph reg v od H8. unfold extends. repeat match goal with |- _ /\ _ => split end; try reflexivity.
  - intros d Hd. apply find_created in Hd; [|exact H8]. destruct Hd as [Hd Hn]. split; [exact Hd|]. cbn [created_ids flat_map app In]. intros [E|[]]. congruence.
  - intro Hn. unfold create_cnx. cbn [st_lk lk_by_icid]. destruct (list_eq_dec N.eq_dec [] (ph_dcid ph)) as [E|_]; [|exact Hn].
    rewrite <- E, blen_nil in H8. lia.
Qed.

Lemma segment_cases : forall cf known st rn pe now raw plen prev st1 acts prev1 next,
  incoming_segment cf known st rn pe now raw plen prev = Some (st1, acts, prev1, next) ->
  extends st st1 acts /\
  (st_next_reset st1 = st_next_reset st \/ next = None /\ exists b, acts = [AReset b]) /\
  (forall c, next = Some c -> exists ph cnx, parse_header (st_lk st) raw None true = Some (POk ph cnx) /\ c = ph_offset ph + ph_payload ph) /\
  match acts with
  | [ACreate d v od] => exists ph, parse_header (st_lk st) raw None true = Some (POk ph None) /\ ph_type ph = PtInitial /\ d = ph_dcid ph /\
      screen_initial cf st pe now raw plen ph = Some (st1, ScCreated v od)
  | [AVersion b] => 1200 <= plen /\ addr_refused cf pe = false /\ prev = [] /\ next = None /\ exists vn, parse_header (st_lk st) raw None true = Some (PBadVersion vn) /\
      version_negotiation (st_lk st) rn vn raw = Some [AVersion b]
  | [ARetry b] => 1200 <= plen /\ addr_refused cf pe = false /\ next = None /\ exists ph, parse_header (st_lk st) raw None true = Some (POk ph None) /\ ph_type ph = PtInitial /\
      screen_initial cf st pe now raw plen ph = Some (st1, ScRetry) /\ retry_packet cf rn pe now ph = Some [ARetry b]
  | [ABusy b] => 1200 <= plen /\ addr_refused cf pe = false /\ exists ph, parse_header (st_lk st) raw None true = Some (POk ph None) /\ ph_type ph = PtInitial /\
      screen_initial cf st pe now raw plen ph = Some (st1, ScBusy) /\ busy_packet cf rn ph = Some [ABusy b]
  | [AReset b] => addr_refused cf pe = false /\ next = None /\ exists ph, parse_header (st_lk st) raw None true = Some (POk ph None) /\ ph_type ph = Pt1rtt /\
      same_dest prev (ph_dcid ph) = true /\
      0 < blen (ph_dcid ph) /\ process_unexpected cf st rn (blen raw) now ph = Some (st1, [AReset b])
  | _ => True
  end.
Proof.
  intros cf known st rn pe now raw plen prev st1 acts prev1 next H. unfold incoming_segment in H.
  assert (Hsame : forall st, extends st st []) by (intro; apply extends_same; reflexivity).
  destruct (parse_header (st_lk st) raw None true) as [[|vn|ph cnx]|] eqn:Ep; [| | |discriminate]; cbn [obind] in H.
  - inv4 H. split; [apply Hsame|]. split; [auto|]. split; [discriminate|exact I].
  - destruct prev; [|inv4 H; split; [apply Hsame|]; split; [auto|]; split; [discriminate|exact I]].
    destruct ((1200 <=? plen) && negb (addr_refused cf pe)) eqn:Hc; [|inv4 H; split; [apply Hsame|]; split; [auto|]; split; [discriminate|exact I]].
    apply Bool.andb_true_iff in Hc. destruct Hc as [Hc1 Hc2]. apply N.leb_le in Hc1. apply Bool.negb_true_iff in Hc2.
    destruct (version_negotiation (st_lk st) rn vn raw) as [a|] eqn:E; [|discriminate]. cbn [obind] in H. inv4 H.
    assert (Ha : acts = [] \/ exists b, acts = [AVersion b]).
    { clear - E. unfold version_negotiation in E.
      repeat (match type of E with
        | obind ?x _ = _ => destruct x; [|discriminate]; cbn [obind] in E
        | match ?x with _ => _ end = _ => destruct x; try discriminate end); apply some_inj in E; subst; eauto. }
    destruct Ha as [-> |[b ->]].
    + split; [apply Hsame|]. split; [auto|]. split; [discriminate|exact I].
    + split; [apply extends_same; reflexivity|]. split; [auto|]. split; [discriminate|]. repeat (split; [auto|]). exists vn. auto.
  - assert (Hcons : forall c, Some (ph_offset ph + ph_payload ph) = Some c -> exists ph0 cnx0, Some (POk ph cnx) = Some (POk ph0 cnx0) /\ c = ph_offset ph0 + ph_payload ph0).
    { intros c E. apply some_inj in E. subst c. eauto. }
    assert (Hcons2 : forall (b : bool) c, (if b then Some (ph_offset ph + ph_payload ph) else None) = Some c -> exists ph0 cnx0, Some (POk ph cnx) = Some (POk ph0 cnx0) /\ c = ph_offset ph0 + ph_payload ph0).
    { intros [] c E; [auto|discriminate]. }
    destruct (ph_type ph) eqn:Et.
    1,2,4: match type of H with (if ?c then _ else _) = _ => destruct c end; [discriminate|]; inv4 H; split; [apply Hsame|]; split; [auto|]; split; [discriminate|exact I].
    2,3: destruct cnx; inv4 H; (split; [apply Hsame|]); (split; [auto|]); (split; [first [discriminate | apply Hcons2]|exact I]).
    + destruct cnx as [c0|]; [inv4 H; (split; [apply Hsame|]); (split; [auto|]); (split; [first [apply Hcons | apply Hcons2]|exact I])|].
      destruct (screen_initial cf st pe now raw plen ph) as [[s code]|] eqn:Es; [|discriminate]. cbn [obind] in H.
      destruct (screen_inv _ _ _ _ _ _ _ _ _ Es) as [Hnr Hs].
      assert (Hsimple : match code with ScCreated _ _ => False | _ => True end -> forall a, created a = 0 -> created_ids a = [] -> extends st s a).
      { destruct code; intros Hx a Ha Hb; try (destruct Hs as (? & ? & ?); apply extends_same; assumption). destruct Hx. }
      destruct code as [| | | | | |v od].
      1,2,5: inv4 H; split; [apply Hsimple; [exact I|reflexivity|reflexivity]|]; split; [auto|]; split; [discriminate|exact I].
      * (* busy *)
        destruct ((1200 <=? plen) && negb (addr_refused cf pe)) eqn:Hc;
          [|cbn [obind] in H; inv4 H; split; [apply Hsimple; [exact I|reflexivity|reflexivity]|]; split; [auto|]; split; [auto|exact I]].
        apply Bool.andb_true_iff in Hc. destruct Hc as [Hc1 Hc2]. apply N.leb_le in Hc1. apply Bool.negb_true_iff in Hc2.
        destruct (busy_packet cf rn ph) as [a|] eqn:E; [|discriminate]. cbn [obind] in H. inv4 H.
        assert (Ha : exists b, acts = [ABusy b]).
        { clear - E. unfold busy_packet in E.
          repeat (match type of E with
            | obind ?x _ = _ => destruct x; [|discriminate]; cbn [obind] in E
            | match ?x with _ => _ end = _ => destruct x; try discriminate end); apply some_inj in E; subst; eauto. }
        destruct Ha as [b ->].
        split; [apply Hsimple; [exact I|reflexivity|reflexivity]|]. split; [auto|]. split; [apply Hcons|].
        split; [exact Hc1|]. split; [exact Hc2|]. exists ph. auto.
      * inv4 H; split; [apply Hsimple; [exact I|reflexivity|reflexivity]|]; split; [auto|]; split; [auto|exact I].
      * destruct ((1200 <=? plen) && negb (addr_refused cf pe)) eqn:Hc;
          [|cbn [obind] in H; inv4 H; split; [apply Hsimple; [exact I|reflexivity|reflexivity]|]; split; [auto|]; split; [discriminate|exact I]].
        apply Bool.andb_true_iff in Hc. destruct Hc as [Hc1 Hc2]. apply N.leb_le in Hc1. apply Bool.negb_true_iff in Hc2.
        destruct (retry_packet cf rn pe now ph) as [a|] eqn:E; [|discriminate]. cbn [obind] in H. inv4 H.
        assert (Ha : acts = [] \/ exists b, acts = [ARetry b]).
        { clear - E. unfold retry_packet in E. destruct (prepare_retry_token _ _ _ _ _ _ _ _) as [[t|]|]; [|cbn [obind] in E; apply some_inj in E; subst; eauto|discriminate].
          cbn [obind] in E. match type of E with obind ?x _ = _ => destruct x; [|discriminate] end. cbn [obind] in E. apply some_inj in E. subst. eauto. }
        destruct Ha as [-> |[b ->]].
        -- split; [apply Hsimple; [exact I|reflexivity|reflexivity]|]. split; [auto|]. split; [discriminate|exact I].
        -- split; [apply Hsimple; [exact I|reflexivity|reflexivity]|]. split; [auto|]. split; [discriminate|].
           split; [exact Hc1|]. split; [exact Hc2|]. split; [reflexivity|]. exists ph. auto.
      * destruct Hs as (_ & H8 & _ & _ & _ & (reg & Hst) & _). inv4 H.
        split; [apply extends_create; exact H8|]. split; [auto|]. split; [apply Hcons2|]. exists ph. repeat split; auto.
    + destruct cnx as [c0|]; [inv4 H; (split; [apply Hsame|]); (split; [auto|]); (split; [first [apply Hcons | apply Hcons2]|exact I])|].
      match type of H with (if ?c then _ else _) = _ => destruct c end; [inv4 H; split; [apply Hsame|]; split; [auto|]; split; [discriminate|exact I]|].
      destruct (same_dest prev (ph_dcid ph)) eqn:Esame; cbn [negb] in H; [|inv4 H; split; [apply Hsame|]; split; [auto|]; split; [discriminate|exact I]].
      destruct ((0 <? blen (ph_dcid ph)) && negb (addr_refused cf pe)) eqn:Hc; [|inv4 H; split; [apply Hsame|]; split; [auto|]; split; [discriminate|exact I]].
      apply Bool.andb_true_iff in Hc. destruct Hc as [Hc1 Hc2]. apply N.ltb_lt in Hc1. apply Bool.negb_true_iff in Hc2.
      destruct (process_unexpected cf st rn (blen raw) now ph) as [[s a]|] eqn:Eu; [|discriminate]. cbn [obind] in H. inv4 H.
      pose proof Eu as Eu2. unfold process_unexpected in Eu.
      match type of Eu with (if ?c then _ else _) = _ => destruct c eqn:Hc end.
      2: { apply some_pair_inj in Eu. destruct Eu as [<- <-]. split; [apply Hsame|]. split; [auto|]. split; [discriminate|exact I]. }
      match type of Eu with (if ?c then _ else _) = _ => destruct c end; [discriminate|].
      apply some_pair_inj in Eu. destruct Eu as [<- <-].
      split; [apply extends_same; reflexivity|]. split; [right; eauto|]. split; [discriminate|].
      split; [exact Hc2|]. split; [reflexivity|]. exists ph. auto.
Qed.
