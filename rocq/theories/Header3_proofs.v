(** Proofs about packet headers: reading any datagram is safe. *)
From Verif Require Import Base Tac Varint_model Varint_spec Varint_proofs Mem Mem_proofs
  PacketNumber_model Header_model Header_spec Header_proofs.

Lemma cid_decode_inv : forall l cid r, cid_decode l = Some (cid, r) ->
  blen cid <= 20 /\ l = blen cid :: cid ++ r.
Proof.
  intros l cid r H. unfold cid_decode in H. destruct l as [|n l]; [discriminate|].
  destruct (N.ltb_spec 20 n); [discriminate|]. destruct (N.ltb_spec (blen l) n); [discriminate|]. cbn [orb] in H.
  inv_pair H. assert (E : blen (firstn (N.to_nat n) l) = n).
  { unfold blen in *. rewrite firstn_length. lia. }
  rewrite E. split; [assumption|]. rewrite firstn_skipn. reflexivity.
Qed.

Lemma rest_16_le : forall length offset, offset <= length -> offset + rest_16 length offset <= length.
Proof.
  intros. unfold rest_16, u16. destruct (N.ltb_spec offset length).
  - pose proof (N.mod_le (length - offset) 65536). lia.
  - change (0 mod 65536) with 0. lia.
Qed.

Lemma u16_le : forall n, u16 n <= n.
Proof. intro. unfold u16. pose proof (N.mod_le n 65536). lia. Qed.

Lemma parse_type_some : forall flags vn vi, get_version_index vn = Some vi ->
  exists pt, parse_long_packet_type flags vi = Some pt /\ long_type pt.
Proof.
  intros flags vn vi H. destruct (version_index_back vn vi H) as ([v b] & E & _).
  unfold parse_long_packet_type. rewrite E. eexists. split; [reflexivity|].
  unfold long_type, numbered.
  destruct b; repeat match goal with |- context[if ?c then _ else _] => destruct c end; tauto.
Qed.

Lemma blen_skip : forall n (l : list N), blen (skipn n l) <= blen l.
Proof. intros. unfold blen. rewrite skipn_length. lia. Qed.

Lemma parse_long_safe : forall lk bytes cnx, exists r, parse_long lk bytes cnx = Some r /\ header_in bytes r.
Proof.
  intros lk bytes cnx. unfold parse_long.
  destruct (frames_uint8_decode bytes) as [[flags r1]|] eqn:E1; [|exists PFail; split; [reflexivity|exact I]].
  destruct (frames_uint32_decode r1) as [[vn r2]|] eqn:E2; [|exists PFail; split; [reflexivity|exact I]].
  assert (L2 : blen r2 + 5 = blen bytes).
  { unfold frames_uint8_decode in E1. destruct bytes as [|b bs]; [discriminate|]. inv_pair E1.
    unfold frames_uint32_decode in E2. destruct r1 as [|? [|? [|? [|? ?]]]]; try discriminate. inv_pair E2.
    rewrite !blen_cons. lia. }
  set (vi := get_version_index vn).
  destruct (if vn =? 0 then Some None else match vi with None => None | Some i => Some (Some i) end) as [ovi|] eqn:Ev;
    [|eexists; split; [reflexivity|exact I]].
  destruct (cid_decode r2) as [[dcid r3]|] eqn:E3; [|exists PFail; split; [reflexivity|exact I]].
  destruct (cid_decode_inv _ _ _ E3) as [Hd L3].
  destruct (cid_decode r3) as [[scid r4]|] eqn:E4; [|exists PFail; split; [reflexivity|exact I]].
  destruct (cid_decode_inv _ _ _ E4) as [Hs L4].
  assert (L4' : blen r4 + 7 <= blen bytes).
  { apply (f_equal blen) in L3. apply (f_equal blen) in L4. rewrite blen_cons, blen_app in L3, L4. lia. }
  clear E1 E2 E3 E4 L3 L4 L2. set (L := blen bytes) in *.
  destruct ovi as [i|].
  2: { eexists; split; [reflexivity|]. cbn [header_in ph_dcid ph_scid ph_pn_offset ph_offset ph_payload].
       repeat match goal with |- _ /\ _ => split end; try assumption; try lia; try (apply rest_16_le; lia).
       cbn [ph_type]. intros [[?|[?|?]]|[? _]]; discriminate. }
  assert (Hvi : vi = Some i).
  { destruct (vn =? 0); [discriminate|]. destruct vi; [|discriminate]. injection Ev as ->. reflexivity. }
  destruct (parse_type_some flags vn i Hvi) as (pt & Ept & Hpt). rewrite Ept. cbn [obind].
  (* after the first switch *)
  match goal with |- context [match ?x with (_, _) => _ end] => set (sw := x) end.
  assert (Hsw : exists pt2 pc epoch token r5 offset2, sw = (pt2, pc, epoch, token, r5, offset2) /\
    offset2 + blen r5 = L /\ 1 <= offset2).
  { unfold sw. destruct pt.
    3: { destruct (frames_varlen_decode r4) as [[tl r]|] eqn:E;
           [|do 6 eexists; split; [reflexivity|]; rewrite blen_nil; lia].
         destruct (N.ltb_spec (blen r) tl); [do 6 eexists; split; [reflexivity|]; rewrite blen_nil; lia|].
         apply frames_varint_decode_len in E. pose proof (blen_skip (N.to_nat tl) r).
         do 6 eexists; split; [reflexivity|]. lia. }
    all: do 6 eexists; split; [reflexivity|]; lia. }
  clearbody sw. destruct Hsw as (pt2 & pc & epoch & token & r5 & offset2 & -> & L5 & L6).
  match goal with |- context [match ?x with (_, _) => _ end] => set (sw := x) end.
  assert (Hsw : exists pt3 plen perr r6, sw = (pt3, plen, perr, r6) /\ offset2 + perr <= L /\
    (pt3 = PtError \/ L - blen r6 + plen <= L /\ 1 <= L - blen r6)).
  { assert (Hr : offset2 + rest_16 L offset2 <= L) by (apply rest_16_le; lia).
    unfold sw. destruct pt2.
    1: do 4 eexists; split; [reflexivity|]; split; [lia|left; reflexivity].
    3: { destruct (N.ltb_spec offset2 L); do 4 eexists; (split; [reflexivity|]); (split; [lia|]); [right; lia|left; reflexivity]. }
    all: destruct (frames_varlen_decode r5) as [[n r]|] eqn:E;
      [|do 4 eexists; split; [reflexivity|]; split; [exact Hr|left; reflexivity]];
      apply frames_varint_decode_len in E;
      destruct (N.ltb_spec (blen r) n); do 4 eexists; (split; [reflexivity|]);
      [split; [exact Hr|left; reflexivity]|split; [lia|right; lia]]. }
  clearbody sw. destruct Hsw as (pt3 & plen & perr & r6 & -> & H1 & H2).
  destruct (ptype_eqb pt3 PtError) eqn:Ep.
  - eexists; split; [reflexivity|]. cbn [header_in ph_dcid ph_scid ph_pn_offset ph_offset ph_payload].
    repeat match goal with |- _ /\ _ => split end; try assumption; try lia.
    cbn [ph_type]. intros [[?|[?|?]]|[? _]]; discriminate.
  - assert (H3 : L - blen r6 + plen <= L /\ 1 <= L - blen r6) by (destruct H2 as [-> |H2]; [discriminate|exact H2]).
    eexists; split; [reflexivity|]. cbn [header_in ph_dcid ph_scid ph_pn_offset ph_offset ph_payload].
    pose proof (u16_le plen). fold L. repeat match goal with |- _ /\ _ => split end; try assumption; try lia.
    all: intros _; split; [lia|reflexivity].
Qed.

Lemma parse_short_safe : forall lk bytes cnx receiving, bytes <> [] ->
  exists r, parse_short lk bytes cnx receiving = Some r /\ header_in bytes r.
Proof.
  intros lk bytes cnx receiving Hb. unfold parse_short.
  destruct bytes as [|b0 bs]; [congruence|]. clear Hb.
  change (mem_get 0 (b0 :: bs)) with (Some b0). cbn [obind skipn].
  set (cid_len := match cnx with Some c => if receiving then lk_cid_len lk else cd_remote_len c | None => lk_cid_len lk end).
  assert (Hr : exists dcid offset found,
    (if 1 + cid_len <=? blen (b0 :: bs) then
       dcid <~ parse_cid bs cid_len ;;
       Some (dcid, 1 + blen dcid, or_find cnx (if 0 <? lk_cid_len lk then lk_by_id lk dcid else lk_by_net lk))
     else Some ([], blen (b0 :: bs), cnx)) = Some (dcid, offset, found) /\ blen dcid <= 20 /\ offset <= blen (b0 :: bs) /\ 1 <= offset).
  { destruct (N.leb_spec (1 + cid_len) (blen (b0 :: bs))) as [H|H].
    - rewrite blen_cons in *. unfold parse_cid. destruct (N.leb_spec cid_len 20).
      + rewrite mem_read_some by lia. cbn [obind].
        assert (blen (firstn (N.to_nat cid_len) (skipn (N.to_nat 0) bs)) = cid_len).
        { change (N.to_nat 0) with 0%nat. cbn [skipn]. unfold blen in *. rewrite firstn_length. lia. }
        do 3 eexists. split; [reflexivity|]. lia.
      + cbn [obind]. do 3 eexists. split; [reflexivity|]. rewrite blen_nil. lia.
    - do 3 eexists. split; [reflexivity|]. rewrite blen_nil. rewrite blen_cons in *. lia. }
  destruct Hr as (dcid & offset & found & -> & H1 & H2 & H3). cbn [obind]. cbn beta iota zeta.
  destruct found as [c|].
  - match goal with |- context [if ?b then Some PFail else _] => destruct b end; [eexists; split; [reflexivity|exact I]|].
    eexists; split; [reflexivity|]. cbn [header_in ph_dcid ph_scid ph_pn_offset ph_offset ph_payload].
    pose proof (u16_le (blen (b0 :: bs) - offset)). rewrite blen_nil.
    repeat match goal with |- _ /\ _ => split end; try lia.
    all: intros _; split; [exact H3|reflexivity].
  - eexists; split; [reflexivity|]. cbn [header_in ph_dcid ph_scid ph_pn_offset ph_offset ph_payload].
    pose proof (rest_16_le _ _ H2). rewrite blen_nil. repeat match goal with |- _ /\ _ => split end; try lia.
    cbn [ph_type]. intros [[?|[?|?]]|[_ Hc]]; try discriminate. congruence.
Qed.

Lemma parse_header_safe : forall lk bytes cnx receiving, bytes <> [] ->
  exists r, parse_header lk bytes cnx receiving = Some r /\ header_in bytes r.
Proof.
  intros lk bytes cnx receiving Hb. unfold parse_header.
  destruct bytes as [|b bs] eqn:E; [congruence|]. change (mem_get 0 (b :: bs)) with (Some b). cbn [obind].
  destruct (N.land b 128 =? 128); [apply parse_long_safe|apply parse_short_safe; discriminate].
Qed.
