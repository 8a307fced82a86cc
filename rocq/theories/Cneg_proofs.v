(** Proofs about version negotiation and Retry. *)
From Verif Require Import Base Tac Varint_model Varint_spec Varint_proofs Mem Mem_proofs
  PacketNumber_model PacketNumber_proofs Header_model Header_spec Header_proofs Header2_proofs Header3_proofs
  Protect_model Protect_spec Protect_proofs Protect2_proofs Protect3_proofs
  Rtoken_model Rtoken_spec Rtoken_proofs Rtoken2_proofs Ports_model Segment_model Segment_spec Segment_proofs Segment2_proofs Segment3_proofs
  Segment4_proofs Segment5_proofs Segment6_proofs Cneg_model Cneg_spec.

Lemma same_id_true : forall a b, same_id a b = true <-> a = b.
Proof. intros a b. unfold same_id. destruct (list_eq_dec N.eq_dec a b); split; auto; discriminate. Qed.

Lemma format_be32 : forall v, v < 4294967296 -> format_32 v = be32 v.
Proof.
  intros v Hv. unfold format_32, be32, u8. rewrite shiftr24, shiftr16, shiftr8. reflexivity.
Qed.

Lemma supported_index : forall v, supported v <-> get_version_index v <> None.
Proof.
  intro v. unfold supported, get_version_index. generalize 0. generalize supported_versions.
  induction l as [|[w b] l IH]; intro i; cbn [map fst version_index_from].
  - split; [intros []|congruence].
  - destruct (N.eqb_spec w v) as [-> |Hne]; [split; [discriminate|intros _; left; reflexivity]|].
    rewrite <- IH. split; [intros [E|E]; [congruence|exact E]|intro; right; assumption].
Qed.

(** The list of versions is decoded into words. *)
Lemma count_words : forall proposed words nb, Forall (fun v => v < 4294967296) words ->
  count_versions proposed (flat_map be32 words) nb =
    if existsb (fun v => (v =? proposed) || (v =? 0)) words then None
    else Some (nb + N.of_nat (length (filter (fun v => match get_version_index v with Some _ => true | None => false end) words))).
Proof.
  intros proposed. induction words as [|v words IH]; intros nb Hw; [cbn; rewrite N.add_0_r; reflexivity|].
  inversion Hw as [|? ? Hv Hw']. subst. cbn [flat_map existsb filter].
  rewrite <- format_be32 by exact Hv. pose proof (dec_32 v (flat_map be32 words) Hv) as D.
  unfold format_32 in *. cbn [app] in *. cbn [count_versions]. rewrite D.
  destruct ((v =? proposed) || (v =? 0)); [reflexivity|]. cbn [orb]. rewrite IH by exact Hw'.
  destruct (existsb _ words); [reflexivity|]. destruct (get_version_index v); cbn [length]; f_equal; lia.
Qed.

Lemma count_some : forall proposed bytes nb n, bytes_ok bytes -> count_versions proposed bytes nb = Some n ->
  exists words, Forall (fun v => v < 4294967296) words /\ bytes = flat_map be32 words.
Proof.
  intros proposed bytes. remember (length bytes) as k eqn:Ek. revert bytes Ek.
  induction k as [k IH] using lt_wf_ind. intros bytes Ek nb n Hb H.
  destruct bytes as [|b0 [|b1 [|b2 [|b3 r]]]]; cbn [count_versions] in H; try discriminate.
  - exists []. split; [constructor|reflexivity].
  - destruct (frames_uint32_decode (b0 :: b1 :: b2 :: b3 :: r)) as [[v r']|] eqn:D; [|discriminate].
    destruct (_ || _); [discriminate|].
    change (b0 :: b1 :: b2 :: b3 :: r) with ([b0; b1; b2; b3] ++ r) in Hb. apply bytes_ok_app in Hb. destruct Hb as [Hb4 Hbr].
    destruct (IH (length r) ltac:(cbn [length] in Ek; lia) r eq_refl _ _ Hbr H) as (ws & Hws & Er).
    assert (Hb : bytes_ok (b0 :: b1 :: b2 :: b3 :: r)).
    { change (b0 :: b1 :: b2 :: b3 :: r) with ([b0; b1; b2; b3] ++ r). apply Forall_app. split; assumption. }
    destruct (be32_inv _ _ _ Hb D) as [E4 Hv].
    assert (Er' : r' = r) by (unfold be32 in E4; cbn [app] in E4; congruence). subst r'.
    exists (v :: ws). split; [constructor; assumption|]. cbn [flat_map]. rewrite <- Er. exact E4.
Qed.

Lemma filter_some : forall words,
  0 < N.of_nat (length (filter (fun v => match get_version_index v with Some _ => true | None => false end) words)) <->
  exists v, In v words /\ supported v.
Proof.
  induction words as [|w words IH]; [cbn; split; [lia|intros (v & [] & _)]|].
  cbn [filter]. destruct (get_version_index w) eqn:E.
  - cbn [length]. split; [intros _|lia]. exists w. split; [left; reflexivity|]. apply supported_index. congruence.
  - rewrite IH. split; intros (v & Hin & Hs); [exists v; split; [right|]; assumption|].
    destruct Hin as [<-|Hin]; [apply supported_index in Hs; congruence|]. exists v. split; assumption.
Qed.

Lemma vn_exact : forall ct bytes ph vs, bytes_ok bytes ->
  incoming_version_negotiation ct bytes ph = VnAbort vs <->
  ct_phase ct = CInitSent /\ ph_dcid ph = ct_local ct /\ ph_scid ph = ct_initial ct /\ ph_vn ph = 0 /\
  vs = skipn (N.to_nat (ph_offset ph)) bytes /\
  exists words, Forall (fun v => v < 4294967296) words /\ vs = flat_map be32 words /\
    ~ In (ct_proposed ct) words /\ ~ In 0 words /\ exists v, In v words /\ supported v.
Proof.
  intros ct bytes ph vs Hb. unfold incoming_version_negotiation. split.
  - intro H. destruct (ct_phase ct); try discriminate.
    destruct (same_id (ph_dcid ph) (ct_local ct)) eqn:E1; [|discriminate]. apply same_id_true in E1.
    destruct (N.eqb_spec (ph_vn ph) 0) as [E2|]; [|discriminate].
    destruct (same_id (ph_scid ph) (ct_initial ct)) eqn:E3; [|discriminate]. apply same_id_true in E3. cbn [negb orb] in H. cbv zeta in H.
    set (v := skipn (N.to_nat (ph_offset ph)) bytes) in *.
    assert (Hbv : bytes_ok v).
    { rewrite <- (firstn_skipn (N.to_nat (ph_offset ph)) bytes) in Hb. apply bytes_ok_app in Hb. apply Hb. }
    destruct (count_versions (ct_proposed ct) v 0) as [nb|] eqn:Ec; [|discriminate].
    destruct (count_some _ _ _ _ Hbv Ec) as (words & Hw & Ev). destruct (N.eqb_spec nb 0) as [|Hnb]; [discriminate|].
    assert (Hvs : vs = v) by congruence. subst vs. repeat (split; [assumption || reflexivity|]).
    exists words. split; [exact Hw|]. split; [exact Ev|]. rewrite Ev, count_words in Ec by exact Hw.
    destruct (existsb _ words) eqn:Ex; [discriminate|]. apply some_inj in Ec.
    assert (Hno : forall x, (x = ct_proposed ct \/ x = 0) -> ~ In x words).
    { intros x Hx Hin. assert (Ht : existsb (fun v => (v =? ct_proposed ct) || (v =? 0)) words = true); [|congruence].
      apply existsb_exists. exists x. split; [exact Hin|]. destruct Hx as [-> | ->]; [rewrite N.eqb_refl; reflexivity|apply Bool.orb_true_r]. }
    split; [apply Hno; left; reflexivity|]. split; [apply Hno; right; reflexivity|]. apply filter_some. lia.
  - intros (-> & E1 & E3 & E2 & -> & words & Hw & Ev & Hp & Hz & Hs). rewrite E1, E2, E3.
    rewrite (proj2 (same_id_true _ _) eq_refl), (proj2 (same_id_true _ _) eq_refl). cbn [negb orb N.eqb]. cbv zeta.
    rewrite Ev, count_words by exact Hw.
    destruct (existsb _ words) eqn:Ex.
    { apply existsb_exists in Ex. destruct Ex as (x & Hin & Hx). apply Bool.orb_true_iff in Hx. destruct Hx as [Hx|Hx]; apply N.eqb_eq in Hx; subst x; contradiction. }
    apply filter_some in Hs. rewrite N.add_0_l. destruct (N.eqb_spec (N.of_nat (length (filter (fun v => match get_version_index v with Some _ => true | None => false end) words))) 0); [lia|reflexivity].
Qed.

(** The header of a version negotiation packet. *)
Lemma vn_parsed : forall lk first dcid scid words, 128 <= first < 256 -> blen dcid <= 20 -> blen scid <= 20 ->
  exists ph, parse_header lk (vn_packet first dcid scid words) None true = Some (POk ph (find_other lk dcid)) /\
    ph_type ph = PtVersion /\ ph_vn ph = 0 /\ ph_dcid ph = dcid /\ ph_scid ph = scid /\
    skipn (N.to_nat (ph_offset ph)) (vn_packet first dcid scid words) = flat_map be32 words.
Proof.
  intros lk first dcid scid words Hf Hd Hs. set (b := vn_packet first dcid scid words).
  assert (Eb : b = first :: format_32 0 ++ blen dcid :: dcid ++ blen scid :: scid ++ flat_map be32 words).
  { reflexivity. }
  assert (H128 : N.land first 128 = 128).
  { assert (A : forallb (fun n => N.land n 128 =? 128) (map N.of_nat (seq 128 128)) = true) by (vm_compute; reflexivity).
    rewrite forallb_forall in A. apply N.eqb_eq, A. apply in_map_iff. exists (N.to_nat first). split; [lia|]. apply in_seq. lia. }
  eexists. split.
  - unfold parse_header. rewrite Eb. change (mem_get 0 (first :: ?l)) with (Some first). cbn [obind]. rewrite H128. change (128 =? 128) with true. cbv iota.
    unfold parse_long. cbn [frames_uint8_decode]. rewrite dec_32 by lia. change (0 =? 0) with true. cbv iota.
    rewrite dec_cid by exact Hd. rewrite dec_cid by exact Hs. cbv zeta. cbn [or_find]. reflexivity.
  - cbn [ph_type ph_vn ph_dcid ph_scid ph_offset]. repeat (split; [reflexivity|]).
    rewrite Eb. set (r := flat_map be32 words).
    assert (E2 : first :: format_32 0 ++ blen dcid :: dcid ++ blen scid :: scid ++ r = (first :: format_32 0 ++ blen dcid :: dcid ++ blen scid :: scid) ++ r).
    { cbn [app]. repeat (rewrite <- ?app_assoc; cbn [app]). reflexivity. }
    rewrite E2, blen_app. set (a := first :: format_32 0 ++ blen dcid :: dcid ++ blen scid :: scid).
    replace (blen a + blen r - blen r) with (blen a) by lia. rewrite skipn_app.
    replace (N.to_nat (blen a)) with (length a) by (unfold blen; lia). rewrite skipn_all, Nat.sub_diag. reflexivity.
Qed.

Lemma vn_parse_inv : forall lk bytes ph cnx, bytes_ok bytes -> parse_header lk bytes None true = Some (POk ph cnx) -> ph_type ph = PtVersion ->
  exists first rest, bytes = first :: be32 0 ++ (blen (ph_dcid ph) :: ph_dcid ph) ++ (blen (ph_scid ph) :: ph_scid ph) ++ rest /\
    128 <= first < 256 /\ ph_vn ph = 0 /\ blen (ph_dcid ph) <= 20 /\ blen (ph_scid ph) <= 20 /\ cnx = find_other lk (ph_dcid ph) /\
    skipn (N.to_nat (ph_offset ph)) bytes = rest.
Proof.
  intros lk bytes ph cnx Hb Hp Ht. unfold parse_header in Hp.
  destruct bytes as [|b0 bs]; [discriminate|]. change (mem_get 0 (b0 :: bs)) with (Some b0) in Hp. cbn [obind] in Hp.
  assert (Hbs : bytes_ok bs) by (inversion Hb; assumption). assert (Hb0 : b0 < 256) by (inversion Hb; assumption).
  destruct (N.eqb_spec (N.land b0 128) 128) as [H128|H128].
  2: { exfalso. unfold parse_short in Hp. change (mem_get 0 (b0 :: bs)) with (Some b0) in Hp. cbn [obind] in Hp.
       match type of Hp with (obind ?x _) = _ => destruct x as [[[d o] f]|] end; [|discriminate]. cbn [obind] in Hp.
       destruct f as [c|]; [match type of Hp with (if ?c then _ else _) = _ => destruct c end; [discriminate|]|]; apply some_inj in Hp;
         apply (f_equal (fun r => match r with POk h _ => ph_type h | _ => PtVersion end)) in Hp; cbn [ph_type] in Hp; congruence. }
  assert (H1 : 128 <= b0).
  { assert (A : forallb (fun n => (128 <=? n) || negb (N.land n 128 =? 128)) (map N.of_nat (seq 0 256)) = true) by (vm_compute; reflexivity).
    rewrite forallb_forall in A. specialize (A b0 ltac:(apply in_map_iff; exists (N.to_nat b0); split; [lia|]; apply in_seq; lia)).
    rewrite H128 in A. cbn [negb orb N.eqb] in A. change (128 =? 128) with true in A. cbn [negb] in A. rewrite Bool.orb_false_r in A. apply N.leb_le, A. }
  unfold parse_long in Hp. cbn [frames_uint8_decode] in Hp.
  destruct (frames_uint32_decode bs) as [[vn r2]|] eqn:E1; [|discriminate].
  destruct (be32_inv _ _ _ Hbs E1) as [Ebs Hvn]. subst bs. apply bytes_ok_app in Hbs. destruct Hbs as [_ Hb2].
  destruct (N.eqb_spec vn 0) as [-> |Hv0].
  - cbv iota zeta in Hp. destruct (cid_decode r2) as [[dcid r3]|] eqn:E2; [|discriminate].
    destruct (cid_decode_inv _ _ _ E2) as [Hd ->]. destruct (cid_decode r3) as [[scid r4]|] eqn:E3; [|discriminate].
    destruct (cid_decode_inv _ _ _ E3) as [Hs ->].
    apply some_inj in Hp. pose proof (f_equal (fun r => match r with POk h _ => h | _ => ph end) Hp) as Hh. cbv beta iota in Hh.
    apply (f_equal (fun r => match r with POk _ c => c | _ => None end)) in Hp. cbn [or_find] in Hp.
    subst ph cnx. cbn [ph_type ph_vn ph_dcid ph_scid ph_offset].
    exists b0, r4. split; [reflexivity|]. split; [lia|]. repeat (split; [assumption || reflexivity|]).
    set (a := b0 :: be32 0 ++ blen dcid :: dcid ++ blen scid :: scid).
    assert (E4 : b0 :: be32 0 ++ blen dcid :: dcid ++ blen scid :: scid ++ r4 = a ++ r4).
    { unfold a. cbn [app]. repeat (rewrite <- ?app_assoc; cbn [app]). reflexivity. }
    rewrite E4, blen_app. replace (blen a + blen r4 - blen r4) with (blen a) by lia. rewrite skipn_app.
    replace (N.to_nat (blen a)) with (length a) by (unfold blen; lia). rewrite skipn_all, Nat.sub_diag. reflexivity.
  - exfalso. destruct (get_version_index vn) as [i|]; [|discriminate]. unfold parse_long_packet_type, obind in Hp.
    repeat (match type of Hp with context[match ?x with _ => _ end] => lazymatch x with context[match _ with _ => _ end] => fail | _ => destruct x end end; cbv beta iota zeta in Hp; cbn [ptype_eqb obind] in Hp); try discriminate Hp;
      apply some_inj in Hp; apply (f_equal (fun r => match r with POk h _ => ph_type h | _ => PtVersion end)) in Hp; cbn [ph_type] in Hp; congruence.
Qed.

(** What makes a client give up, exactly. *)
Lemma client_vn : forall lk tag ct bytes vs, bytes_ok bytes -> blen bytes <= 1536 ->
  client_receive lk tag ct bytes = Some (CrVersion (VnAbort vs)) <->
  exists first words, bytes = vn_packet first (ct_local ct) (ct_initial ct) words /\ 128 <= first < 256 /\ vs = flat_map be32 words /\
    blen (ct_local ct) <= 20 /\ blen (ct_initial ct) <= 20 /\ find_other lk (ct_local ct) <> None /\
    ct_phase ct = CInitSent /\ Forall (fun v => v < 4294967296) words /\
    ~ In (ct_proposed ct) words /\ ~ In 0 words /\ exists v, In v words /\ supported v.
Proof.
  intros lk tag ct bytes vs Hb Hl. unfold client_receive. split.
  - intro H. destruct (parse_header lk bytes None true) as [[|vn|ph [c|]]|] eqn:Ep; cbn [obind] in H; try discriminate.
    destruct (ph_type ph) eqn:Et; try discriminate.
    2: { destruct (1536 <? blen bytes); [discriminate|]. destruct (incoming_retry tag ct bytes ph); cbn [obind] in H; discriminate. }
    destruct (1536 <? blen bytes); [discriminate|]. apply some_inj in H.
    assert (Hv : incoming_version_negotiation ct bytes ph = VnAbort vs) by congruence.
    apply (vn_exact _ _ _ _ Hb) in Hv. destruct Hv as (Hph & Ed & Es & E0 & Evs & words & Hw & Ew & Hrest).
    destruct (vn_parse_inv _ _ _ _ Hb Ep Et) as (first & rest & Ebytes & Hf & _ & Hd & Hs & Hc & Er).
    rewrite Ed in *. rewrite Es in *.
    exists first, words. split; [unfold vn_packet; rewrite <- Ew, Evs, Er; exact Ebytes|]. split; [exact Hf|]. split; [exact Ew|].
    split; [exact Hd|]. split; [exact Hs|]. split; [congruence|]. split; [exact Hph|]. split; [exact Hw|exact Hrest].
  - intros (first & words & -> & Hf & -> & Hd & Hs & Hfind & Hph & Hw & Hrest).
    destruct (vn_parsed lk first (ct_local ct) (ct_initial ct) words Hf Hd Hs) as (ph & Ep & Et & E0 & Ed & Es & Eo).
    rewrite Ep. cbn [obind]. destruct (find_other lk (ct_local ct)) as [c|]; [|congruence]. rewrite Et.
    destruct (N.ltb_spec 1536 (blen (vn_packet first (ct_local ct) (ct_initial ct) words))); [lia|]. f_equal. f_equal.
    apply (vn_exact _ _ _ _ Hb). repeat (split; [assumption|]). split; [symmetry; exact Eo|]. exists words.
    split; [exact Hw|]. split; [reflexivity|exact Hrest].
Qed.
