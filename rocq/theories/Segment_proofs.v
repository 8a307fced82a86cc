(** Proofs about datagrams of unknown connections: what the parsed headers are, and the
    walk over the segments of a datagram. *)
From Verif Require Import Base Tac Varint_model Varint_spec Varint_proofs Mem Mem_proofs
  PacketNumber_model PacketNumber_proofs Header_model Header_spec Header_proofs Header2_proofs Header3_proofs
  Protect_model Protect_spec Protect_proofs Protect2_proofs Protect3_proofs
  Rtoken_model Rtoken_spec Rtoken_proofs Rtoken2_proofs Ports_model Segment_model Segment_spec.

Lemma be32_inv : forall l vn r, bytes_ok l -> frames_uint32_decode l = Some (vn, r) ->
  l = be32 vn ++ r /\ vn < 4294967296.
Proof.
  intros l vn r Hb H. unfold frames_uint32_decode in H.
  destruct l as [|a [|b [|c [|d l]]]]; try discriminate. unfold bytes_ok in Hb.
  repeat match goal with H : Forall _ (_ :: _) |- _ => inversion_clear H end. unfold is_byte in *.
  apply some_pair_inj in H. destruct H as [H ->].
  rewrite !lor_shiftl8, lor_shiftl16 in H by lia. subst vn. split; [|lia].
  unfold be32. cbn [app]. repeat f_equal; lia.
Qed.

Lemma bytes_ok_app : forall a b, bytes_ok (a ++ b) -> bytes_ok a /\ bytes_ok b.
Proof. intros a b H. unfold bytes_ok in *. apply Forall_app in H. exact H. Qed.

Lemma split_at : forall n (l : list N), n <= blen l -> l = firstn (N.to_nat n) l ++ skipn (N.to_nat n) l /\
  blen (firstn (N.to_nat n) l) = n.
Proof. intros n l H. rewrite firstn_skipn. split; [reflexivity|]. unfold blen in *. rewrite firstn_length. lia. Qed.

Lemma initial_bits : forall b0 vi vn v2, b0 < 256 -> N.land b0 128 = 128 -> version_entry vi = Some (vn, v2) ->
  parse_long_packet_type b0 vi = Some PtInitial ->
  exists (q : bool) low, low < 16 /\ b0 = 128 + (if q then 64 else 0) + 16 * type_bits v2 PtInitial + low.
Proof.
  intros b0 vi vn v2 Hb H1 He Hp. unfold parse_long_packet_type in Hp. rewrite He in Hp.
  exists (64 <=? b0 mod 128), (b0 mod 16). split; [lia|].
  assert (E1 : N.land b0 128 = 128 * (b0 / 128 mod 2)).
  { assert (A : forallb (fun b => N.land b 128 =? 128 * (b / 128 mod 2)) (map N.of_nat (seq 0 256)) = true) by (vm_compute; reflexivity).
    rewrite forallb_forall in A. apply N.eqb_eq, A. apply in_map_iff. exists (N.to_nat b0). split; [lia|]. apply in_seq. lia. }
  assert (E2 : N.land (N.shiftr b0 4) 3 = b0 / 16 mod 4).
  { change 3 with (N.ones 2). rewrite N.land_ones, N.shiftr_div_pow2. reflexivity. }
  rewrite E2 in Hp. rewrite E1 in H1.
  destruct (N.leb_spec 64 (b0 mod 128)); destruct v2; cbn [type_bits].
  all: repeat match type of Hp with context[?a =? ?b] => destruct (N.eqb_spec a b); try discriminate Hp end; lia.
Qed.

Lemma initial_inv : forall lk raw ph, bytes_ok raw -> parse_header lk raw None true = Some (POk ph None) ->
  ph_type ph = PtInitial ->
  exists vi head plen, ph_vi ph = Some vi /\ initial_at raw vi (ph_vn ph) (ph_dcid ph) (ph_scid ph) (ph_token ph) head plen /\
    ph_offset ph = blen head /\ ph_pn_offset ph = blen head /\ ph_payload ph = u16 plen /\ find_long lk PtInitial (ph_dcid ph) = None /\
    blen (ph_dcid ph) <= 20 /\ blen (ph_scid ph) <= 20.
Proof.
  intros lk raw ph Hb Hp Ht. unfold parse_header in Hp.
  destruct raw as [|b0 bs]; [discriminate|]. change (mem_get 0 (b0 :: bs)) with (Some b0) in Hp. cbn [obind] in Hp.
  destruct (N.eqb_spec (N.land b0 128) 128) as [H128|_].
  2: { exfalso. unfold parse_short in Hp. change (mem_get 0 (b0 :: bs)) with (Some b0) in Hp. cbn [obind] in Hp.
       match type of Hp with (obind ?x _) = _ => destruct x as [[[d o] f]|] end; [|discriminate]. cbn [obind] in Hp.
       destruct f as [c|].
       - match type of Hp with (if ?c then _ else _) = _ => destruct c end; [discriminate|]. apply some_inj in Hp. discriminate.
       - apply some_inj in Hp. apply (f_equal (fun r => match r with POk h _ => ph_type h | _ => PtError end)) in Hp.
         cbn [ph_type] in Hp. congruence. }
  unfold parse_long in Hp. cbn [frames_uint8_decode] in Hp.
  assert (Hbs : bytes_ok bs) by (inversion Hb; assumption). assert (Hb0 : b0 < 256) by (inversion Hb; assumption).
  destruct (frames_uint32_decode bs) as [[vn r2]|] eqn:E2; [|discriminate].
  destruct (be32_inv _ _ _ Hbs E2) as [Ebs Hvn]. assert (Hr2 : bytes_ok r2) by (rewrite Ebs in Hbs; apply bytes_ok_app in Hbs; apply Hbs).
  set (vi := get_version_index vn) in *.
  destruct (if vn =? 0 then Some None else match vi with None => None | Some i => Some (Some i) end) as [ovi|] eqn:Ev; [|discriminate].
  destruct (cid_decode r2) as [[dcid r3]|] eqn:E3; [|discriminate].
  destruct (cid_decode_inv _ _ _ E3) as [Hd L3]. subst r2.
  assert (Hr3 : bytes_ok r3). { inversion_clear Hr2. apply bytes_ok_app in H0. apply H0. }
  destruct (cid_decode r3) as [[scid r4]|] eqn:E4; [|discriminate].
  destruct (cid_decode_inv _ _ _ E4) as [Hs L4]. subst r3.
  assert (Hr4 : bytes_ok r4). { inversion_clear Hr3. apply bytes_ok_app in H0. apply H0. }
  cbv zeta in Hp.
  destruct ovi as [i|].
  2: { apply some_inj in Hp. apply (f_equal (fun r => match r with POk h _ => ph_type h | _ => PtError end)) in Hp. cbn [ph_type] in Hp. congruence. }
  assert (Hvi : vi = Some i).
  { destruct (vn =? 0); [discriminate|]. destruct vi; [|discriminate]. injection Ev as ->. reflexivity. }
  destruct (version_index_back vn i Hvi) as ([vn' v2] & Ee & E'). cbn [fst] in E'. subst vn'.
  destruct (parse_long_packet_type b0 i) as [pt|] eqn:Ept; [|discriminate]. cbn [obind] in Hp.
  assert (Hpt : pt = PtInitial).
  { destruct pt; try reflexivity; exfalso; cbv beta iota zeta in Hp;
      repeat (match type of Hp with context[match ?x with _ => _ end] => lazymatch x with context[match _ with _ => _ end] => fail | _ => destruct x end end; cbv beta iota zeta in Hp; cbn [ptype_eqb] in Hp);
      try discriminate Hp; apply some_inj in Hp; apply (f_equal (fun r => match r with POk h _ => ph_type h | _ => PtError end)) in Hp; cbn [ph_type] in Hp; congruence. }
  subst pt. cbv beta iota zeta in Hp.
  destruct (initial_bits _ _ _ _ Hb0 H128 Ee Ept) as (q & low & Hlow & Eb0).
  destruct (frames_varlen_decode r4) as [[tl r]|] eqn:E5.
  2: { exfalso. cbn [ptype_eqb] in Hp. apply some_inj in Hp. apply (f_equal (fun r => match r with POk h _ => ph_type h | _ => PtError end)) in Hp. cbn [ph_type] in Hp. congruence. }
  destruct (N.ltb_spec (blen r) tl) as [_|Htl].
  { exfalso. cbn [ptype_eqb] in Hp. apply some_inj in Hp. apply (f_equal (fun r => match r with POk h _ => ph_type h | _ => PtError end)) in Hp. cbn [ph_type] in Hp. congruence. }
  destruct (frames_varint_decode_is_varint _ _ _ Hr4 E5) as (pl & Er4 & Hpl).
  destruct (split_at tl r Htl) as [Er Ltok].
  set (token := firstn (N.to_nat tl) r) in *. set (r5 := skipn (N.to_nat tl) r) in *.
  assert (Hr5 : bytes_ok r5). { rewrite Er4 in Hr4. apply bytes_ok_app in Hr4. destruct Hr4 as [_ Hr]. rewrite Er in Hr. apply bytes_ok_app in Hr. apply Hr. }
  destruct (frames_varlen_decode r5) as [[plen r6]|] eqn:E6.
  2: { exfalso. cbn [ptype_eqb] in Hp. apply some_inj in Hp. apply (f_equal (fun r => match r with POk h _ => ph_type h | _ => PtError end)) in Hp. cbn [ph_type] in Hp. congruence. }
  destruct (N.ltb_spec (blen r6) plen) as [_|Hplen].
  { exfalso. cbn [ptype_eqb] in Hp. apply some_inj in Hp. apply (f_equal (fun r => match r with POk h _ => ph_type h | _ => PtError end)) in Hp. cbn [ph_type] in Hp. congruence. }
  destruct (frames_varint_decode_is_varint _ _ _ Hr5 E6) as (pp & Er5 & Hpp).
  cbn [ptype_eqb or_find] in Hp.
  destruct (find_long lk PtInitial dcid) as [c|] eqn:Ef.
  { exfalso. apply some_inj in Hp. apply (f_equal (fun r => match r with POk _ c => c | _ => None end)) in Hp. discriminate. }
  rewrite Bool.andb_false_r in Hp. apply some_inj in Hp.
  apply (f_equal (fun r => match r with POk h _ => h | _ => ph end)) in Hp. subst ph.
  cbn [ph_vi ph_vn ph_dcid ph_scid ph_token ph_offset ph_pn_offset ph_payload].
  set (rest := (pl ++ token) ++ pp).
  exists i, (long_start v2 PtInitial q low vn dcid scid ++ rest), plen.
  assert (Eraw : b0 :: bs = (long_start v2 PtInitial q low vn dcid scid ++ rest) ++ r6).
  { unfold long_start, rest. rewrite Ebs, Eb0, Er4, Er, Er5, <- !app_assoc. cbn [app]. rewrite <- !app_assoc. cbn [app].
    rewrite <- !app_assoc. reflexivity. }
  assert (Hoff : blen (b0 :: bs) - blen r6 = blen (long_start v2 PtInitial q low vn dcid scid ++ rest)).
  { rewrite Eraw. rewrite (blen_app _ r6). lia. }
  split; [reflexivity|]. split.
  { exists v2, q, low, rest, r6. split; [exact Ee|]. split; [exact Hlow|]. split; [reflexivity|].
    split; [|split; [exact Eraw|exact Hplen]].
    exists (pl ++ token), pp. split; [reflexivity|]. split; [exact Hpp|]. exists pl. split; [reflexivity|]. rewrite Ltok. exact Hpl. }
  rewrite Hoff. repeat match goal with |- _ /\ _ => split end; try reflexivity; try exact Ef; assumption.
Qed.

Lemma short_inv : forall lk raw ph, parse_header lk raw None true = Some (POk ph None) -> ph_type ph = Pt1rtt ->
  exists b0 bs, raw = b0 :: bs /\ N.land b0 128 <> 128 /\
    (ph_dcid ph = [] \/ lk_cid_len lk <= 20 /\ blen (ph_dcid ph) = lk_cid_len lk /\ lk_by_id lk (ph_dcid ph) = None /\
       exists tail, bs = ph_dcid ph ++ tail).
Proof.
  intros lk raw ph Hp Ht. unfold parse_header in Hp.
  destruct raw as [|b0 bs]; [discriminate|]. change (mem_get 0 (b0 :: bs)) with (Some b0) in Hp. cbn [obind] in Hp.
  exists b0, bs. split; [reflexivity|].
  destruct (N.eqb_spec (N.land b0 128) 128) as [H128|H128].
  - exfalso. unfold parse_long, parse_long_packet_type, obind in Hp.
    repeat (match type of Hp with context[match ?x with _ => _ end] => lazymatch x with context[match _ with _ => _ end] => fail | _ => destruct x end end; cbv beta iota zeta in Hp; cbn [ptype_eqb obind] in Hp); try discriminate Hp;
      apply some_inj in Hp; apply (f_equal (fun r => match r with POk h _ => ph_type h | _ => PtError end)) in Hp; cbn [ph_type] in Hp; congruence.
  - split; [exact H128|]. unfold parse_short in Hp. change (mem_get 0 (b0 :: bs)) with (Some b0) in Hp. cbn [obind skipn] in Hp.
    destruct (N.leb_spec (1 + lk_cid_len lk) (blen (b0 :: bs))) as [Hl|Hl].
    + unfold parse_cid in Hp. rewrite blen_cons in Hl. destruct (N.leb_spec (lk_cid_len lk) 20) as [H20|H20].
      * rewrite mem_read_some in Hp by lia. cbn [obind] in Hp. change (N.to_nat 0) with 0%nat in Hp. cbn [skipn] in Hp.
        destruct (split_at (lk_cid_len lk) bs ltac:(lia)) as [Eb Lb].
        set (d := firstn (N.to_nat (lk_cid_len lk)) bs) in *. cbn [or_find] in Hp. cbv beta iota zeta in Hp.
        destruct (if 0 <? lk_cid_len lk then lk_by_id lk d else lk_by_net lk) as [c|] eqn:Ef.
        -- match type of Hp with (if ?c then _ else _) = _ => destruct c end; [discriminate|].
           apply some_inj in Hp. apply (f_equal (fun r => match r with POk _ c => c | _ => None end)) in Hp. discriminate.
        -- apply some_inj in Hp. apply (f_equal (fun r => match r with POk h _ => h | _ => ph end)) in Hp. subst ph. cbn [ph_dcid].
           destruct (N.ltb_spec 0 (lk_cid_len lk)).
           ++ right. repeat match goal with |- _ /\ _ => split end; try assumption. exists (skipn (N.to_nat (lk_cid_len lk)) bs). exact Eb.
           ++ left. destruct d; [reflexivity|]. rewrite blen_cons in Lb. lia.
      * left. cbn [obind or_find] in Hp. cbv beta iota zeta in Hp.
        destruct (if 0 <? lk_cid_len lk then lk_by_id lk [] else lk_by_net lk) as [c|] eqn:Ef.
        -- match type of Hp with (if ?c then _ else _) = _ => destruct c end; [discriminate|].
           apply some_inj in Hp. apply (f_equal (fun r => match r with POk _ c => c | _ => None end)) in Hp. discriminate.
        -- apply some_inj in Hp. apply (f_equal (fun r => match r with POk h _ => h | _ => ph end)) in Hp. subst ph. reflexivity.
    + left. cbv beta iota zeta in Hp. apply some_inj in Hp. apply (f_equal (fun r => match r with POk h _ => h | _ => ph end)) in Hp. subst ph. reflexivity.
Qed.

Lemma bad_version_inv : forall lk raw vn, bytes_ok raw -> parse_header lk raw None true = Some (PBadVersion vn) ->
  exists b0 r, raw = b0 :: be32 vn ++ r /\ 128 <= b0 < 256 /\ vn <> 0 /\ vn < 4294967296 /\ get_version_index vn = None.
Proof.
  intros lk raw vn Hb Hp. unfold parse_header in Hp.
  destruct raw as [|b0 bs]; [discriminate|]. change (mem_get 0 (b0 :: bs)) with (Some b0) in Hp. cbn [obind] in Hp.
  assert (Hbs : bytes_ok bs) by (inversion Hb; assumption). assert (Hb0 : b0 < 256) by (inversion Hb; assumption).
  destruct (N.eqb_spec (N.land b0 128) 128) as [H128|H128].
  2: { exfalso. unfold parse_short in Hp. change (mem_get 0 (b0 :: bs)) with (Some b0) in Hp. cbn [obind] in Hp.
       match type of Hp with (obind ?x _) = _ => destruct x as [[[d o] f]|] end; [|discriminate]. cbn [obind] in Hp.
       destruct f as [c|]; [match type of Hp with (if ?c then _ else _) = _ => destruct c end; [discriminate|]|]; apply some_inj in Hp; discriminate. }
  assert (H1 : 128 <= b0).
  { destruct (N.le_gt_cases 128 b0) as [H|H]; [exact H|exfalso]. pose proof (N.land_spec b0 128 7) as T. rewrite H128 in T.
    change (N.testbit 128 7) with true in T. rewrite Bool.andb_true_r in T.
    destruct (N.eq_dec b0 0) as [-> |Hz]; [rewrite N.bits_0 in T; discriminate|].
    rewrite N.bits_above_log2 in T; [discriminate|]. apply N.log2_lt_pow2; [lia|]. exact H. }
  unfold parse_long in Hp. cbn [frames_uint8_decode] in Hp.
  destruct (frames_uint32_decode bs) as [[vn' r2]|] eqn:E2; [|discriminate].
  destruct (be32_inv _ _ _ Hbs E2) as [Ebs Hvn].
  exists b0, r2. destruct (N.eqb_spec vn' 0) as [_|Hz].
  - exfalso. unfold parse_long_packet_type, obind in Hp. repeat (match type of Hp with context[match ?x with _ => _ end] => lazymatch x with context[match _ with _ => _ end] => fail | _ => destruct x end end; cbv beta iota zeta in Hp; cbn [ptype_eqb obind] in Hp); discriminate Hp.
  - destruct (get_version_index vn') eqn:Eg.
    + exfalso. unfold parse_long_packet_type, obind in Hp. repeat (match type of Hp with context[match ?x with _ => _ end] => lazymatch x with context[match _ with _ => _ end] => fail | _ => destruct x end end; cbv beta iota zeta in Hp; cbn [ptype_eqb obind] in Hp); discriminate Hp.
    + apply some_inj in Hp. injection Hp as <-. rewrite <- Ebs. repeat split; assumption.
Qed.

(** * The walk *)

Ltac inv4 H := apply some_inj in H; apply pair_equal_spec in H; let H4 := fresh in destruct H as [H H4];
  apply pair_equal_spec in H; let H3 := fresh in destruct H as [H H3];
  apply pair_equal_spec in H; let H2 := fresh in destruct H as [H H2]; subst.

(** A segment produces at most one action. *)
Lemma one_action : forall cf known st rn pe now raw plen prev st1 acts prev1 next,
  incoming_segment cf known st rn pe now raw plen prev = Some (st1, acts, prev1, next) ->
  acts = [] \/ exists a, acts = [a].
Proof.
  intros cf known st rn pe now raw plen prev st1 acts prev1 next H. unfold incoming_segment in H.
  destruct (parse_header (st_lk st) raw None true) as [[|vn|ph cnx]|]; [| | |discriminate]; cbn [obind] in H.
  - inv4 H. left. reflexivity.
  - destruct prev; [|inv4 H; left; reflexivity].
    match type of H with (if ?c then _ else _) = _ => destruct c end; [|inv4 H; left; reflexivity].
    destruct (version_negotiation (st_lk st) rn vn raw) as [a|] eqn:E; [|discriminate]. cbn [obind] in H. inv4 H.
    unfold version_negotiation in E.
    repeat (match type of E with
      | obind ?x _ = _ => destruct x; [|discriminate]; cbn [obind] in E
      | match ?x with _ => _ end = _ => destruct x; try discriminate end); apply some_inj in E; subst; eauto.
  - destruct (ph_type ph); try (match type of H with (if ?c then _ else _) = _ => destruct c end; [discriminate|inv4 H; left; reflexivity]);
      (destruct cnx; [inv4 H; left; reflexivity|]); try (inv4 H; left; reflexivity).
    + destruct (screen_initial cf st pe now raw plen ph) as [[s code]|]; [|discriminate]. cbn [obind] in H.
      destruct code; try (inv4 H; eauto; fail).
      * match type of H with obind (if ?c then _ else _) _ = _ => destruct c end; [|cbn [obind] in H; inv4 H; eauto].
        destruct (busy_packet cf rn ph) as [a|] eqn:E; [|discriminate]. cbn [obind] in H. inv4 H.
        unfold busy_packet in E.
        repeat (match type of E with
          | obind ?x _ = _ => destruct x; [|discriminate]; cbn [obind] in E
          | match ?x with _ => _ end = _ => destruct x; try discriminate end); apply some_inj in E; subst; eauto.
      * match type of H with obind (if ?c then _ else _) _ = _ => destruct c end; [|cbn [obind] in H; inv4 H; eauto].
        destruct (retry_packet cf rn pe now ph) as [a|] eqn:E; [|discriminate]. cbn [obind] in H. inv4 H.
        unfold retry_packet in E. destruct (prepare_retry_token _ _ _ _ _ _ _ _) as [[t|]|]; [|cbn [obind] in E; apply some_inj in E; subst; eauto|discriminate].
        cbn [obind] in E. match type of E with obind ?x _ = _ => destruct x; [|discriminate] end. cbn [obind] in E. apply some_inj in E. subst. eauto.
    + match type of H with (if ?c then _ else _) = _ => destruct c end; [inv4 H; left; reflexivity|].
      match type of H with (if ?c then _ else _) = _ => destruct c end; [inv4 H; left; reflexivity|].
      match type of H with (if ?c then _ else _) = _ => destruct c end; [|inv4 H; left; reflexivity].
      unfold process_unexpected in H.
      match type of H with obind (if ?c then _ else _) _ = _ => destruct c end; [|cbn [obind] in H; inv4 H; left; reflexivity].
      match type of H with obind (if ?c then _ else _) _ = _ => destruct c end; [discriminate|]. cbn [obind] in H. inv4 H. eauto.
Qed.

(** Every action comes from a segment of the datagram, after the actions before it; [P] is
    any invariant of the walk. *)
Lemma walk : forall cf known rns pe now plen (P : sstate -> list N -> list N -> list action -> Prop),
  (forall st rn raw prev before st1 acts prev1 consumed, P st raw prev before ->
     incoming_segment cf known st rn pe now raw plen prev = Some (st1, acts, prev1, Some consumed) ->
     P st1 (skipn (N.to_nat consumed) raw) prev1 (before ++ acts)) ->
  forall fuel st raw prev before st' acts, P st raw prev before ->
  incoming_segments fuel cf known st rns pe now raw plen prev = Some (st', acts) ->
  forall a1 a a2, acts = a1 ++ a :: a2 ->
  exists sti rawi previ i st1 prev1 next, P sti rawi previ (before ++ a1) /\
    incoming_segment cf known sti (rns i) pe now rawi plen previ = Some (st1, [a], prev1, next) /\
    (next = None -> a2 = [] /\ st' = st1).
Proof.
  intros cf known rns pe now plen P HP. induction fuel as [|f IH]; intros st raw prev before st' acts HI H a1 a a2 Ea.
  - destruct raw; cbn [incoming_segments] in H; [|discriminate]. inv_pair H. destruct a1; discriminate.
  - cbn [incoming_segments] in H. destruct raw as [|b0 bs] eqn:Eraw; [inv_pair H; destruct a1; discriminate|].
    rewrite <- Eraw in *. clear Eraw.
    destruct (incoming_segment cf known st (rns f) pe now raw plen prev) as [[[[st1 as1] prev1] next]|] eqn:E; [|discriminate].
    cbn [obind] in H. pose proof (one_action _ _ _ _ _ _ _ _ _ _ _ _ _ E) as Hone.
    assert (Hhere : forall a1 a2 , as1 = a1 ++ a :: a2 -> as1 = [a] /\ a1 = [] /\ a2 = []).
    { intros x y Ex. destruct Hone as [-> |[z ->]]; [destruct x; discriminate|].
      destruct x as [|x0 x]; [injection Ex as -> <-; auto|]. injection Ex as _ Ex. destruct x; discriminate. }
    assert (Hstop : forall s, Some (st1, as1) = Some (s, acts) -> exists sti rawi previ i st1 prev1 next, P sti rawi previ (before ++ a1) /\
      incoming_segment cf known sti (rns i) pe now rawi plen previ = Some (st1, [a], prev1, next) /\
      (next = None -> a2 = [] /\ s = st1)).
    { intros s Hs. apply some_pair_inj in Hs. destruct Hs as [<- <-]. destruct (Hhere _ _ Ea) as (-> & -> & ->).
      rewrite app_nil_r. do 7 eexists. split; [exact HI|]. split; [exact E|]. auto. }
    destruct next as [c|]; [|apply Hstop; exact H].
    destruct (N.eqb_spec c 0) as [_|Hc]; [apply Hstop; exact H|].
    destruct (incoming_segments f cf known st1 rns pe now (skipn (N.to_nat c) raw) plen prev1) as [[st2 as2]|] eqn:E2; [|discriminate].
    cbn [obind] in H. apply some_pair_inj in H. destruct H as [<- <-].
    destruct as1 as [|z as1'].
    + cbn [app] in Ea. pose proof (HP _ _ _ _ _ _ _ _ _ HI E) as HI1. rewrite app_nil_r in HI1.
      apply (IH _ _ _ _ _ _ HI1 E2 _ _ _ Ea).
    + destruct Hone as [Hn|[z' Hn]]; [discriminate|]. injection Hn as -> ->. cbn [app] in Ea.
      destruct a1 as [|x a1].
      * cbn [app] in Ea. injection Ea as <- <-. rewrite app_nil_r. do 7 eexists. split; [exact HI|]. split; [exact E|]. discriminate.
      * cbn [app] in Ea. injection Ea as <- Ea. pose proof (HP _ _ _ _ _ _ _ _ _ HI E) as HI1.
        destruct (IH _ _ _ _ _ _ HI1 E2 _ _ _ Ea) as (sti & rawi & previ & i & s1 & p1 & n & H1 & H2 & H3).
        exists sti, rawi, previ, i, s1, p1, n. rewrite <- app_assoc in H1. cbn [app] in H1. auto.
Qed.
