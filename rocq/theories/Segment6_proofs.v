(** Proofs about datagrams of unknown connections: replies and safety. *)
From Verif Require Import Base Tac Varint_model Varint_spec Varint_proofs Mem Mem_proofs
  PacketNumber_model PacketNumber_proofs Header_model Header_spec Header_proofs Header2_proofs Header3_proofs
  Protect_model Protect_spec Protect_proofs Protect2_proofs Protect3_proofs
  Rtoken_model Rtoken_spec Rtoken_proofs Rtoken2_proofs Ports_model Segment_model Segment_spec Segment_proofs Segment2_proofs Segment3_proofs Segment5_proofs.

Lemma reply_inv : forall cf known st rns pe now bytes st' a1 a a2 b,
  env_ok cf (st_lk st) rns -> bytes_ok bytes -> now + 200000000 < two64 ->
  incoming_packet cf known st rns pe now bytes = Some (st', a1 ++ a :: a2) -> is_reply a -> reply_of a = Some b ->
  1200 <= blen bytes /\ addr_refused cf pe = false /\ blen b <= 573 /\ (is_busy a = true -> blen b <= 74) /\
  (is_busy a = false -> a2 = []) /\ (forall x, In x a1 -> is_busy x = true \/ is_create x = true).
Proof.
  intros cf known st rns pe now bytes st' a1 a a2 b He Hb Hnow H Hr Eb.
  destruct (packet_action _ _ _ _ _ _ _ _ _ _ _ H) as (sti & seg & previ & i & st1 & prev1 & next & Hw & E & Hend).
  destruct (segment_cases _ _ _ _ _ _ _ _ _ _ _ _ _ E) as (_ & _ & _ & Hc). clear E.
  destruct Hw as ((pre & Epre) & (X1 & X2 & X3 & X4 & X5 & _) & _ & Hbefore).
  assert (Hbs : bytes_ok seg) by (rewrite Epre in Hb; apply bytes_ok_app in Hb; apply Hb).
  assert (Hbef : forall x, In x a1 -> is_busy x = true \/ is_create x = true).
  { intros x Hx. specialize (Hbefore x Hx). destruct x; try destruct Hbefore; cbn; auto. }
  assert (Hcid : blen (rn_cid (rns i)) <= 20) by (rewrite (eo_cid _ _ _ He); apply (eo_cid_len _ _ _ He)).
  destruct a as [d v od|b'|b'|b'|b']; try destruct Hr; cbn [reply_of] in Eb; apply some_inj in Eb; subst b'; cbn [is_busy].
  - destruct Hc as (H1 & H2 & _ & H3 & vn & _ & Hv). destruct (version_reply _ _ _ _ _ Hbs Hv) as (_ & _ & _ & _ & _ & _ & _ & _ & _ & _ & _ & _ & L).
    repeat match goal with |- _ /\ _ => split end; auto; try discriminate. intros _. apply (Hend H3).
  - destruct Hc as (H1 & H2 & H3 & ph & Hp & Ht & Hs & Hv).
    destruct (initial_inv _ _ _ Hbs Hp Ht) as (vi & head & plen & Hvi & Hin & _ & _ & _ & _ & Hd & Hsc).
    destruct Hin as (v2 & _ & _ & _ & _ & Hve & _).
    assert (Hd8 : 0 < blen (ph_dcid ph)).
    { unfold screen_initial in Hs. destruct (blen bytes <? 1200); [inv_pair Hs; discriminate|]. destruct (N.ltb_spec (blen (ph_dcid ph)) 8); [inv_pair Hs; discriminate|lia]. }
    destruct (retry_eq cf (rns i) pe now ph vi (ph_vn ph, v2) Hvi Hve (eo_ticket _ _ _ He) (eo_tag _ _ _ He) Hnow Hd8 Hd Hsc Hcid
      (proj1 (eo_nonce _ _ _ He i)) (proj2 (eo_nonce _ _ _ He i))) as (token & low & _ & _ & Lt & Er & Lh). cbv zeta in Er, Lh.
    rewrite Hv in Er. assert (Hinj : forall x y, Some [ARetry x] = Some [ARetry y] -> x = y) by (intros x y E; injection E; auto).
    apply Hinj in Er. subst b. rewrite blen_app, (eo_tag _ _ _ He), Lh.
    repeat match goal with |- _ /\ _ => split end; auto; try discriminate; try lia. intros _. apply (Hend H3).
  - destruct Hc as (H1 & H2 & ph & Hp & Ht & Hs & Hv).
    destruct (initial_inv _ _ _ Hbs Hp Ht) as (vi & head & plen & Hvi & Hin & _ & _ & _ & _ & Hd & Hsc).
    destruct Hin as (v2 & _ & _ & _ & _ & Hve & _).
    destruct (busy_eq cf (rns i) ph vi (ph_vn ph, v2) Hvi Hve (eo_write _ _ _ He _ _) Hsc Hcid) as (b' & Eb & Lb).
    rewrite Hv in Eb. assert (Hinj : forall x y, Some [ABusy x] = Some [ABusy y] -> x = y) by (intros x y E; injection E; auto).
    apply Hinj in Eb. subst b'.
    repeat match goal with |- _ /\ _ => split end; auto; try discriminate; try lia.
Qed.

Lemma bytes_out_app : forall a b, bytes_out (a ++ b) = bytes_out a + bytes_out b.
Proof.
  induction a as [|x a IH]; intro b; [reflexivity|]. cbn [app]. unfold bytes_out in *. cbn [fold_right]. rewrite IH.
  destruct (reply_of x); lia.
Qed.

Lemma quiet_out : forall l, (forall x, In x l -> is_busy x = true \/ is_create x = true) -> bytes_out (filter not_busy l) = 0.
Proof.
  induction l as [|x l IH]; intro H; [reflexivity|]. cbn [filter].
  assert (IH' : bytes_out (filter not_busy l) = 0) by (apply IH; intros y Hy; apply H; right; exact Hy).
  destruct (H x (or_introl eq_refl)) as [E|E]; destruct x; cbn [is_busy is_create] in E; try discriminate;
    cbn [not_busy is_busy negb]; [exact IH'|]; unfold bytes_out; cbn [fold_right reply_of]; exact IH'.
Qed.

Lemma replies_small : forall cf known st rns pe now bytes st' acts,
  env_ok cf (st_lk st) rns -> bytes_ok bytes -> now + 200000000 < two64 -> bytes <> [] ->
  incoming_packet cf known st rns pe now bytes = Some (st', acts) ->
  bytes_out (filter not_busy acts) < blen bytes.
Proof.
  intros cf known st rns pe now bytes st' acts He Hb Hnow Hne H.
  assert (Hpos : 0 < blen bytes) by (destruct bytes; [congruence|rewrite blen_cons; lia]).
  destruct (List.Exists_dec (fun x => is_busy x = false /\ is_create x = false) acts) as [Hex|Hno].
  { intro x. destruct (is_busy x), (is_create x); [right|right|right|left]; try (intros [? ?]; discriminate). split; reflexivity. }
  - apply Exists_exists in Hex. destruct Hex as (x & Hin & Hx1 & Hx2). apply in_split in Hin. destruct Hin as (a1 & a2 & ->).
    destruct (reply_of x) as [b|] eqn:Eb; [|destruct x; discriminate].
    assert (Hall : a2 = [] /\ (forall y, In y a1 -> is_busy y = true \/ is_create y = true) /\ blen b < blen bytes).
    { assert (Hc : is_reply x \/ exists b, x = AReset b) by (destruct x; try discriminate; cbn; eauto).
      destruct Hc as [Hr|[b' ->]].
      - destruct (reply_inv _ _ _ _ _ _ _ _ _ _ _ _ He Hb Hnow H Hr Eb) as (G1 & _ & G2 & _ & G3 & G4). split; [auto|]. split; [auto|]. lia.
      - cbn [reply_of] in Eb. apply some_inj in Eb. subst b'.
        destruct (reset_inv _ _ _ _ _ _ _ _ _ _ _ (eo_secret _ _ _ He) H) as (-> & _ & _ & _ & [_ L] & _).
        split; [reflexivity|]. split; [|exact L].
        destruct (packet_action _ _ _ _ _ _ _ _ _ _ _ H) as (sti & seg & previ & i & st1 & prev1 & next & Hw & _).
        destruct Hw as (_ & _ & _ & Hbefore). intros y Hy. specialize (Hbefore y Hy). destruct y; try destruct Hbefore; cbn; auto. }
    destruct Hall as (-> & Ha1 & L). rewrite filter_app, bytes_out_app, (quiet_out _ Ha1). cbn [filter]. unfold not_busy at 1. rewrite Hx1. cbn [negb].
    unfold bytes_out. cbn [fold_right]. rewrite Eb. lia.
  - rewrite quiet_out; [exact Hpos|]. intros x Hx. destruct (is_busy x) eqn:E1; [auto|]. destruct (is_create x) eqn:E2; [auto|].
    exfalso. apply Hno. apply Exists_exists. exists x. auto.
Qed.

(** * Busy packets *)

Lemma busy_out : forall cf known rns pe now plen, forall fuel st raw prev st' acts,
  env_ok cf (st_lk st) rns -> bytes_ok raw ->
  incoming_segments fuel cf known st rns pe now raw plen prev = Some (st', acts) ->
  17 * bytes_out (filter is_busy acts) <= 74 * blen raw.
Proof.
  intros cf known rns pe now plen. induction fuel as [|f IH]; intros st raw prev st' acts He Hb H.
  - destruct raw; cbn [incoming_segments] in H; [|discriminate]. apply some_pair_inj in H. destruct H as [_ <-]. cbn. lia.
  - cbn [incoming_segments] in H. destruct raw as [|b0 bs] eqn:Eraw; [apply some_pair_inj in H; destruct H as [_ <-]; cbn; lia|].
    rewrite <- Eraw in *. clear Eraw.
    destruct (incoming_segment cf known st (rns f) pe now raw plen prev) as [[[[st1 as1] prev1] next]|] eqn:E; [|discriminate].
    cbn [obind] in H. destruct (segment_cases _ _ _ _ _ _ _ _ _ _ _ _ _ E) as (Hext & _ & Hnx & Hc).
    assert (Hone : bytes_out (filter is_busy as1) = 0 \/
      bytes_out (filter is_busy as1) <= 74 /\ 17 <= blen raw /\ forall c, next = Some c -> 17 <= c).
    { pose proof (one_action _ _ _ _ _ _ _ _ _ _ _ _ _ E) as [-> |[x ->]]; [left; reflexivity|].
      destruct x as [d v od|b|b|b|b]; try (left; reflexivity). right.
      destruct Hc as (H1 & H2 & ph & Hp & Ht & Hs & Hv).
      destruct (initial_inv _ _ _ Hb Hp Ht) as (vi & head & pl & Hvi & Hin & Hoff & _ & _ & _ & Hd & Hsc).
      assert (Hd8 : 8 <= blen (ph_dcid ph)).
      { unfold screen_initial in Hs. destruct (plen <? 1200); [inv_pair Hs; discriminate|]. destruct (N.ltb_spec (blen (ph_dcid ph)) 8); [inv_pair Hs; discriminate|lia]. }
      destruct Hin as (v2 & q & low & rest & after & Hve & _ & Ehead & (t & p & Erest & Hvp & l & Et & Hvl) & Eraw & _).
      assert (Hcid : blen (rn_cid (rns f)) <= 20) by (rewrite (eo_cid _ _ _ He); apply (eo_cid_len _ _ _ He)).
      destruct (busy_eq cf (rns f) ph vi (ph_vn ph, v2) Hvi Hve (eo_write _ _ _ He _ _) Hsc Hcid) as (b' & Eb & Lb).
      rewrite Hv in Eb. assert (Hinj : forall x y, Some [ABusy x] = Some [ABusy y] -> x = y) by (intros x y Ex; injection Ex; auto).
      apply Hinj in Eb. subst b'.
      assert (Lv : forall v l, is_varint v l -> 1 <= blen l).
      { intros v l0 (c & Hc & L & _). rewrite L. pose proof (N.pow_nonzero 2 c). lia. }
      assert (Lhead : 17 <= blen head).
      { rewrite Ehead, Erest, Et. unfold long_start. cbn [app]. rewrite blen_cons, !blen_app. unfold be32. rewrite !blen_cons, blen_nil, !blen_app, !blen_cons.
        pose proof (Lv _ _ Hvp). pose proof (Lv _ _ Hvl). lia. }
      split; [cbn [filter is_busy bytes_out fold_right reply_of]; lia|].
      split; [rewrite Eraw, blen_app; lia|].
      intros c Ec. destruct (Hnx c Ec) as (ph' & cnx & Hp' & ->). rewrite Hp in Hp'. apply some_inj in Hp'.
      injection Hp' as <- _. rewrite Hoff. lia. }
    assert (Hstop : 17 * bytes_out (filter is_busy as1) <= 74 * blen raw) by (destruct Hone as [-> |(? & ? & _)]; lia).
    destruct next as [c|]; [|apply some_pair_inj in H; destruct H as [_ <-]; exact Hstop].
    destruct (N.eqb_spec c 0) as [_|Hc0]; [apply some_pair_inj in H; destruct H as [_ <-]; exact Hstop|].
    destruct (incoming_segments f cf known st1 rns pe now (skipn (N.to_nat c) raw) plen prev1) as [[st2 as2]|] eqn:E2; [|discriminate].
    cbn [obind] in H. apply some_pair_inj in H. destruct H as [_ <-].
    rewrite filter_app, bytes_out_app.
    assert (He1 : env_ok cf (st_lk st1) rns).
    { destruct Hext as (_ & _ & Hcl & _). destruct He. split; try assumption; rewrite ?Hcl; assumption. }
    assert (Hbs : bytes_ok (skipn (N.to_nat c) raw)).
    { rewrite <- (firstn_skipn (N.to_nat c) raw) in Hb. apply bytes_ok_app in Hb. apply Hb. }
    pose proof (IH _ _ _ _ _ He1 Hbs E2) as HI.
    destruct (Hnx c eq_refl) as (ph & cnx & Hp & Ec).
    assert (Hne : raw <> []) by (intro Z; rewrite Z in Hp; discriminate).
    destruct (parse_header_safe (st_lk st) raw None true Hne) as (r & Er & Hin). rewrite Hp in Er. apply some_inj in Er. subst r.
    cbn [header_in] in Hin. destruct Hin as (_ & _ & _ & Hle & _). rewrite <- Ec in Hle.
    assert (Ls : blen (skipn (N.to_nat c) raw) = blen raw - c) by (unfold blen; rewrite skipn_length; lia).
    rewrite Ls in HI. destruct Hone as [-> |(A & B & C)]; [lia|]. specialize (C c eq_refl). lia.
Qed.

(** * Safety *)

Lemma long_found : forall lk raw ph c, parse_header lk raw None true = Some (POk ph (Some c)) ->
  0 < lk_cid_len lk <= 20 -> lk_by_icid lk [] = None ->
  match ph_type ph with PtVersion | PtRetry | PtError => True | _ => ph_dcid ph <> [] end.
Proof.
  intros lk raw ph c Hp [Hc1 Hc2] Hi. unfold parse_header in Hp.
  destruct raw as [|b0 bs]; [discriminate|]. change (mem_get 0 (b0 :: bs)) with (Some b0) in Hp. cbn [obind] in Hp.
  assert (Hfind : forall pt, find_long lk pt [] = None).
  { intro pt. unfold find_long. destruct (N.eqb_spec (lk_cid_len lk) 0); [lia|]. rewrite blen_nil.
    destruct (N.eqb_spec 0 (lk_cid_len lk)); [lia|]. rewrite Hi. destruct (_ || _); reflexivity. }
  destruct (N.land b0 128 =? 128).
  - unfold parse_long in Hp. unfold parse_long_packet_type, obind in Hp.
    repeat (match type of Hp with context[match ?x with _ => _ end] => lazymatch x with context[match _ with _ => _ end] => fail | find_long _ _ _ => fail | or_find _ _ => fail | _ => destruct x end end; cbv beta iota zeta in Hp; cbn [ptype_eqb] in Hp);
      try discriminate Hp; apply some_inj in Hp;
      pose proof (f_equal (fun r => match r with POk h _ => h | _ => ph end) Hp) as Hh; cbv beta iota in Hh; subst ph; cbn [ph_type ph_dcid];
      try exact I;
      apply (f_equal (fun r => match r with POk _ c => c | _ => None end)) in Hp; cbn [or_find] in Hp;
      try (match goal with |- match (if ?c then _ else _) with _ => _ end => destruct c end; try exact I; cbv beta iota);
      try exact I; intro Hd; rewrite Hd, Hfind in Hp; discriminate Hp.
  - unfold parse_short in Hp. change (mem_get 0 (b0 :: bs)) with (Some b0) in Hp. cbn [obind skipn] in Hp.
    destruct (N.leb_spec (1 + lk_cid_len lk) (blen (b0 :: bs))) as [Hl|Hl].
    2: { cbv beta iota zeta in Hp. apply some_inj in Hp. apply (f_equal (fun r => match r with POk _ c => c | _ => None end)) in Hp. discriminate. }
    unfold parse_cid in Hp. rewrite blen_cons in Hl. destruct (N.leb_spec (lk_cid_len lk) 20) as [H20|H20]; [|lia].
    rewrite mem_read_some in Hp by lia. cbn [obind] in Hp. change (N.to_nat 0) with 0%nat in Hp. cbn [skipn] in Hp.
    destruct (split_at (lk_cid_len lk) bs ltac:(lia)) as [Eb Lb].
    set (d := firstn (N.to_nat (lk_cid_len lk)) bs) in *. cbv beta iota zeta in Hp.
    destruct (or_find None (if 0 <? lk_cid_len lk then lk_by_id lk d else lk_by_net lk)) as [c'|].
    + match type of Hp with (if ?c then _ else _) = _ => destruct c end; [discriminate|].
      apply some_inj in Hp. apply (f_equal (fun r => match r with POk h _ => h | _ => ph end)) in Hp. subst ph. cbn [ph_type ph_dcid].
      intro Hd. rewrite Hd, blen_nil in Lb. lia.
    + apply some_inj in Hp. apply (f_equal (fun r => match r with POk _ c => c | _ => None end)) in Hp. discriminate.
Qed.

Lemma verify_some : forall ae reg addr now rcid ipn token reuse, bytes_ok token ->
  (forall n text, ae_dec ae n addr (skipn 8 token) = Some text -> sealed_text text) ->
  verify_retry_token ae reg addr now rcid ipn token reuse <> None.
Proof.
  intros ae reg addr now rcid ipn token reuse Hb Hs. unfold verify_retry_token.
  destruct (128 <? blen token); [discriminate|].
  unfold decrypt_retry_token. destruct (N.ltb_spec (blen token) 8) as [Hl|Hl]; [cbn [obind]; discriminate|].
  assert (Hg : exists b, mem_get 0 token = Some b) by (destruct token; [rewrite blen_nil in Hl; lia|eexists; reflexivity]).
  destruct Hg as [b Hg]. rewrite Hg. cbn [obind]. rewrite parse_64_value by assumption. cbn [obind].
  destruct (ae_dec ae (be_value (firstn 8 token)) addr (skipn 8 token)) as [text|] eqn:Ed; [|discriminate].
  destruct (blen (skipn 8 token) <=? blen text); [discriminate|].
  destruct (Hs _ _ Ed) as (t & d & r & -> & Lt & Hr).
  destruct t as [|t0 [|t1 [|t2 [|t3 [|t4 [|t5 [|t6 [|t7 [|]]]]]]]]]; try (rewrite ?blen_cons, ?blen_nil in Lt; lia).
  cbn [app]. destruct (frames_uint64_decode _) as [[tt r1]|] eqn:E1; [|discriminate].
  assert (Er1 : r1 = blen d :: d ++ r).
  { unfold frames_uint64_decode, frames_uint32_decode in E1. apply some_pair_inj in E1. symmetry. apply E1. }
  subst r1. cbn [cid_decode]. destruct (N.ltb_spec 20 (blen d)) as [H20|H20]; [cbn [orb]; discriminate|].
  destruct (N.ltb_spec (blen (d ++ r)) (blen d)) as [Hx|_]; [rewrite blen_app in Hx; lia|]. cbn [orb].
  replace (N.to_nat (blen d)) with (length d) by (unfold blen; lia).
  rewrite firstn_app, firstn_all, Nat.sub_diag. cbn [firstn]. rewrite app_nil_r.
  rewrite skipn_app, skipn_all, Nat.sub_diag. cbn [skipn app].
  destruct r as [|r0 r]; [congruence|].
  destruct (cid_decode (r0 :: r)) as [[c r3]|]; [|discriminate].
  destruct (frames_varint_decode r3) as [[tp ?]|]; [|discriminate].
  destruct (tt <? now); [discriminate|]. destruct (negb (ipn =? 4294967295) && (0 <? blen d) && (ipn <=? tp)); [discriminate|].
  assert (Hc : (if reuse then check_reuse (reg_clear now reg) token tt else Some (true, reg_clear now reg)) <> None).
  { destruct reuse; [|discriminate]. unfold check_reuse. destruct (N.ltb_spec (blen token) 8); [discriminate|].
    rewrite last8_parse by assumption. cbn [obind]. destruct (existsb _ _); discriminate. }
  destruct (if reuse then check_reuse (reg_clear now reg) token tt else Some (true, reg_clear now reg)) as [[fr rg]|]; [|congruence].
  cbn [obind]. destruct (negb fr); [discriminate|]. match goal with |- (if ?c then _ else _) <> _ => destruct c; discriminate end.
Qed.

(** A segment inside of its datagram. *)
Lemma segment_safe : forall cf known st rn pe now bytes pre raw prev, bytes = pre ++ raw -> raw <> [] ->
  bytes_ok bytes -> blen bytes <= 1536 -> now + 200000000 < two64 ->
  env_ok cf (st_lk st) (fun _ => rn) ->
  tokens_ok cf pe bytes -> (prev = [] -> pre = []) ->
  exists r, incoming_segment cf known st rn pe now raw (blen bytes) prev = Some r.
Proof.
  intros cf known st rn pe now bytes pre raw prev Epre Hne Hb Hl Hnow He Htok Hprev. unfold incoming_segment.
  destruct (parse_header_safe (st_lk st) raw None true Hne) as (r & Ep & Hin). rewrite Ep. cbn [obind].
  assert (Hbs : bytes_ok raw) by (rewrite Epre in Hb; apply bytes_ok_app in Hb; apply Hb).
  assert (Lr : blen raw <= 1536) by (rewrite Epre, blen_app in Hl; lia).
  assert (Hcid : blen (rn_cid rn) <= 20).
  { pose proof (eo_cid _ _ _ He 0%nat) as Hx. cbv beta in Hx. rewrite Hx. apply (eo_cid_len _ _ _ He). }
  destruct r as [|vn|ph cnx]; [eexists; reflexivity| |].
  - destruct prev as [|p0 ps]; [|eexists; reflexivity].
    destruct ((1200 <=? blen bytes) && negb (addr_refused cf pe)) eqn:Hc; [|eexists; reflexivity].
    apply Bool.andb_true_iff in Hc. destruct Hc as [Hc1 _]. apply N.leb_le in Hc1.
    specialize (Hprev eq_refl). subst pre. cbn [app] in Epre. subst raw.
    assert (Hv : exists a, version_negotiation (st_lk st) rn vn bytes = Some a).
    { unfold version_negotiation.
      assert (Hg : forall i, i < 1200 -> exists b, mem_get i bytes = Some b /\ b < 256).
      { intros i Hi. destruct (mem_get i bytes) as [b|] eqn:Eg; [exists b; split; [reflexivity|apply (byte_at _ _ _ Hb Eg)]|].
        exfalso. unfold mem_get in Eg. apply nth_error_None in Eg. unfold blen in Hc1. lia. }
      destruct (Hg 5 ltac:(lia)) as (dl & Edl & Hdl). rewrite Edl. cbn [obind].
      destruct (Hg (6 + dl) ltac:(lia)) as (sl & Esl & Hsl). rewrite Esl. cbn [obind].
      assert (Hfound : exists o, (if dl <=? 20 then dcid <~ mem_read 6 dl bytes ;;
              Some (match (if dl =? lk_cid_len (st_lk st)
                           then if lk_cid_len (st_lk st) =? 0 then lk_by_net (st_lk st) else lk_by_id (st_lk st) dcid else None) with
                    | Some c => Some c
                    | None => lk_by_icid (st_lk st) dcid
                    end)
            else Some None) = Some o).
      { destruct (dl <=? 20); [|eexists; reflexivity]. rewrite mem_read_some by lia. cbn [obind]. eexists. reflexivity. }
      destruct Hfound as [o ->]. cbn [obind]. destruct o; [eexists; reflexivity|].
      rewrite mem_read_some by lia. cbn [obind]. rewrite mem_read_some by lia. cbn [obind].
      destruct (draw_some vn (rn_vns rn) (eo_draws _ _ _ He 0%nat vn)) as [g ->]. cbn [obind].
      match goal with |- context[1536 <? blen ?l] => set (pk := l) end.
      assert (Lpk : blen pk <= 573).
      { unfold pk. rewrite blen_cons, !blen_app, !blen_cons, versions_length. change (blen (format_32 0)) with 4. change (blen (format_32 g)) with 4.
        assert (Lf : forall n (l : list N), blen (firstn (N.to_nat n) l) <= n) by (intros; unfold blen; rewrite firstn_length; lia).
        pose proof (Lf sl (skipn (N.to_nat (6 + dl + 1)) bytes)). pose proof (Lf dl (skipn (N.to_nat 6) bytes)). lia. }
      destruct (N.ltb_spec 1536 (blen pk)); [lia|]. eexists. reflexivity. }
    destruct Hv as [a ->]. cbn [obind]. eexists. reflexivity.
  - assert (Hcl : exists r, (if 1536 <? blen raw then None else Some (st, @nil action, match prev with [] => ph_dcid ph | _ => prev end, @None N)) = Some r).
    { destruct (N.ltb_spec 1536 (blen raw)); [lia|]. eexists. reflexivity. }
    destruct (ph_type ph) eqn:Et; try exact Hcl; (destruct cnx as [c|]; [eexists; reflexivity|]); try (eexists; reflexivity).
    + (* Initial *)
      destruct (initial_inv _ _ _ Hbs Ep Et) as (vi & head & plen & Hvi & Hat & Hoff & Hpo & Hpl & Hf & Hd & Hs).
      assert (Hu : u16 plen = plen).
      { destruct Hat as (v2 & q & low & rest & after & _ & _ & _ & _ & Er & Ha). unfold u16. apply N.mod_small. rewrite Er, blen_app in Lr. lia. }
      rewrite Hu in Hpl.
      destruct (open_authentic cf raw ph vi head plen Hat Hvi Hoff Hpo Hpl Lr) as (o & Eo & _).
      assert (Htk : bytes_ok (ph_token ph) /\ forall n text, ae_dec (sf_ticket cf) n (pe_ip pe) (skipn 8 (ph_token ph)) = Some text -> sealed_text text).
      { destruct Hat as (v2 & q & low & rest & after & _ & _ & Ehead & (t & p & Erest & _ & l & Etl & _) & Er & _).
        assert (Ebytes : bytes = (pre ++ long_start v2 PtInitial q low (ph_vn ph) (ph_dcid ph) (ph_scid ph) ++ l) ++ ph_token ph ++ (p ++ after)).
        { rewrite Epre, Er, Ehead, Erest, Etl, <- !app_assoc. reflexivity. }
        split.
        - rewrite Ebytes in Hb. apply bytes_ok_app in Hb. destruct Hb as [_ Hb]. apply bytes_ok_app in Hb. apply Hb.
        - intros n text. apply (Htok ((pre ++ long_start v2 PtInitial q low (ph_vn ph) (ph_dcid ph) (ph_scid ph) ++ l) ++ firstn 8 (ph_token ph)) _ (p ++ after)).
          rewrite Ebytes. rewrite <- (firstn_skipn 8 (ph_token ph)) at 1. rewrite <- !app_assoc. reflexivity. }
      destruct Htk as [Htb Hts].
      assert (Hscr : exists s code, screen_initial cf st pe now raw (blen bytes) ph = Some (s, code) /\ (code = ScRetry -> 8 <= blen (ph_dcid ph))).
      { unfold screen_initial. destruct (blen bytes <? 1200); [do 2 eexists; split; [reflexivity|discriminate]|].
        destruct (N.ltb_spec (blen (ph_dcid ph)) 8) as [_|H8]; [do 2 eexists; split; [reflexivity|discriminate]|].
        destruct (sf_client_only cf); [do 2 eexists; split; [reflexivity|discriminate]|].
        destruct (sf_busy cf || (sf_max_conns cf <=? st_conns st)); [do 2 eexists; split; [reflexivity|discriminate]|].
        rewrite Eo. cbn [obind]. destruct o as [pn|]; [|do 2 eexists; split; [reflexivity|discriminate]].
        assert (Ht : exists t, (if 0 <? blen (ph_token ph) then
              v <~ verify_retry_token (sf_ticket cf) (st_reg st) (pe_ip pe) now (ph_dcid ph) (u32 pn) (ph_token ph) true ;;
              Some (v_ok v, negb (v_ok v), match v_new v with Some b => b | None => false end, v_odcid v, v_reg v)
            else Some (false, false, false, [], st_reg st)) = Some t).
        { destruct (0 <? blen (ph_token ph)); [|eexists; reflexivity].
          pose proof (verify_some (sf_ticket cf) (st_reg st) (pe_ip pe) now (ph_dcid ph) (u32 pn) (ph_token ph) true Htb Hts) as Hv.
          destruct (verify_retry_token _ _ _ _ _ _ _ _); [cbn [obind]; eexists; reflexivity|congruence]. }
        destruct Ht as ([[[[good bad] isnew] od] rg] & ->). cbn [obind].
        destruct (bad && negb isnew); [do 2 eexists; split; [reflexivity|discriminate]|].
        match goal with |- context[if ?c then _ else _] => destruct c end; do 2 eexists; (split; [reflexivity|]); auto. }
      destruct Hscr as (s & code & Es & H8). rewrite Es. cbn [obind].
      destruct Hat as (v2 & _ & _ & _ & _ & Hve & _).
      destruct code; try (eexists; reflexivity).
      * destruct (busy_eq cf rn ph vi (ph_vn ph, v2) Hvi Hve (eo_write _ _ _ He _ _) Hs Hcid) as (b & Eb & _).
        destruct (_ && _); [rewrite Eb|]; cbn [obind]; eexists; reflexivity.
      * destruct (retry_eq cf rn pe now ph vi (ph_vn ph, v2) Hvi Hve (eo_ticket _ _ _ He) (eo_tag _ _ _ He) Hnow ltac:(specialize (H8 eq_refl); lia) Hd Hs Hcid
          (proj1 (eo_nonce _ _ _ He 0%nat)) (proj2 (eo_nonce _ _ _ He 0%nat))) as (token & low & _ & _ & _ & Er & _). cbv zeta in Er.
        destruct (_ && _); [rewrite Er|]; cbn [obind]; eexists; reflexivity.
    + (* 1-RTT *)
      match goal with |- exists r, (if ?c then _ else _) = _ => destruct c end; [eexists; reflexivity|].
      destruct (negb _); [eexists; reflexivity|].
      destruct (_ && _); [|eexists; reflexivity].
      unfold process_unexpected. destruct ((39 <? blen raw) && ptype_eqb (ph_type ph) Pt1rtt && (st_next_reset st <=? now)) eqn:Hc; [|cbn [obind]; eexists; reflexivity].
      apply Bool.andb_true_iff in Hc. destruct Hc as [Hc _]. apply Bool.andb_true_iff in Hc. destruct Hc as [Hc _]. apply N.ltb_lt in Hc.
      cbv zeta. match goal with |- context[1536 <? blen ?l] => set (pk := l) end.
      assert (Lpk : blen pk <= blen raw).
      { unfold pk. rewrite blen_cons, blen_app, random_bytes_length, (eo_secret _ _ _ He). destruct (22 <? blen raw - 16 - 2); lia. }
      destruct (N.ltb_spec 1536 (blen pk)); [lia|]. cbn [obind]. eexists. reflexivity.
Qed.

(** When the server has connection ids, no access is outside of a buffer. *)
Lemma packet_safe : forall cf known st rns pe now bytes,
  env_ok cf (st_lk st) rns -> bytes_ok bytes -> blen bytes <= 1536 -> now + 200000000 < two64 ->
  tokens_ok cf pe bytes -> 0 < lk_cid_len (st_lk st) -> lk_by_icid (st_lk st) [] = None ->
  exists r, incoming_packet cf known st rns pe now bytes = Some r.
Proof.
  intros cf known st rns pe now bytes He Hb Hl Hnow Htok Hc Hi. unfold incoming_packet.
  assert (G : forall fuel st raw prev pre, (length raw <= fuel)%nat -> bytes = pre ++ raw -> env_ok cf (st_lk st) rns ->
    0 < lk_cid_len (st_lk st) -> lk_by_icid (st_lk st) [] = None -> (prev = [] -> pre = []) ->
    exists r, incoming_segments fuel cf known st rns pe now raw (blen bytes) prev = Some r).
  { clear st He Hc Hi. induction fuel as [|f IH]; intros st raw prev pre Hf Epre He Hc Hi Hprev.
    - destruct raw; [eexists; reflexivity|cbn [length] in Hf; lia].
    - cbn [incoming_segments]. destruct raw as [|b0 bs] eqn:Eraw; [eexists; reflexivity|]. rewrite <- Eraw in *.
      assert (Hne : raw <> []) by (rewrite Eraw; discriminate). clear Eraw.
      assert (Hei : env_ok cf (st_lk st) (fun _ : nat => rns f)).
      { destruct He. split; try assumption; intros; auto. }
      destruct (segment_safe cf known st (rns f) pe now bytes pre raw prev Epre Hne Hb Hl Hnow Hei Htok Hprev) as ([[[st1 as1] prev1] next] & E).
      rewrite E. cbn [obind]. destruct next as [c|]; [|eexists; reflexivity].
      destruct (N.eqb_spec c 0) as [_|Hc0]; [eexists; reflexivity|].
      destruct (segment_cases _ _ _ _ _ _ _ _ _ _ _ _ _ E) as ((_ & _ & X3 & _ & _ & X6) & _).
      assert (Hp1 : prev1 = [] -> False).
      { intro Z. clear IH. unfold incoming_segment in E. destruct (parse_header (st_lk st) raw None true) as [[|vn|ph cnx]|] eqn:Ep; [| | |discriminate]; cbn [obind] in E.
        - inv4 E. discriminate.
        - destruct prev; [|inv4 E; discriminate]. destruct (_ && _); [|inv4 E; discriminate].
          destruct (version_negotiation _ _ _ _); [|discriminate]. cbn [obind] in E. inv4 E. discriminate.
        - assert (Hd : forall s a n, Some (s, a, match prev with [] => ph_dcid ph | _ => prev end, n) = Some (st1, as1, prev1, Some c) -> ph_dcid ph = [] /\ n = Some c).
          { intros s a n X. apply some_inj in X. apply pair_equal_spec in X. destruct X as [X Xn]. split; [|exact Xn].
            apply pair_equal_spec in X. destruct X as [_ X]. destruct prev; [congruence|]. rewrite Z in X. discriminate. }
          destruct cnx as [cx|].
          + pose proof (long_found _ _ _ _ Ep (conj Hc (eo_cid_len _ _ _ He)) Hi) as Hlf.
            destruct (ph_type ph); try (destruct (1536 <? blen raw); [discriminate|]; apply Hd in E; destruct E as [_ E]; discriminate);
              apply Hd in E; destruct E as [E _]; contradiction.
          + destruct (ph_type ph); try (destruct (1536 <? blen raw); [discriminate|]; apply Hd in E; destruct E as [_ E]; discriminate);
              try (apply Hd in E; destruct E as [_ E]; discriminate).
            * destruct (screen_initial cf st pe now raw (blen bytes) ph) as [[s code]|] eqn:Es; [|discriminate]. cbn [obind] in E.
              assert (Hdd : ph_dcid ph = []).
              { destruct code; try (apply Hd in E; apply E);
                  (match type of E with obind ?x _ = _ => destruct x; [|discriminate]; cbn [obind] in E; apply Hd in E; apply E end). }
              assert (Hcode : code = ScTooShort \/ code = ScCidShort).
              { unfold screen_initial in Es. destruct (blen bytes <? 1200); [inv_pair Es; auto|]. rewrite Hdd, blen_nil in Es. change (0 <? 8) with true in Es. cbv iota in Es. inv_pair Es. auto. }
              destruct Hcode as [-> | ->]; apply Hd in E; destruct E as [_ E]; discriminate.
            * match type of E with (if ?c then _ else _) = _ => destruct c end; [apply Hd in E; destruct E as [_ E]; discriminate|].
              match type of E with (if ?c then _ else _) = _ => destruct c end; [apply Hd in E; destruct E as [_ E]; discriminate|].
              match type of E with (if ?c then _ else _) = _ => destruct c end; [|apply Hd in E; destruct E as [_ E]; discriminate].
              destruct (process_unexpected _ _ _ _ _ _) as [[? ?]|]; [|discriminate]. cbn [obind] in E. apply Hd in E. destruct E as [_ E]. discriminate. }
      destruct (IH st1 (skipn (N.to_nat c) raw) prev1 (pre ++ firstn (N.to_nat c) raw)) as ([st2 as2] & E2).
      + rewrite skipn_length. destruct raw; [congruence|]. cbn [length] in *. lia.
      + rewrite <- app_assoc, firstn_skipn. exact Epre.
      + destruct He. split; try assumption; rewrite ?X3; assumption.
      + rewrite X3. exact Hc.
      + apply X6, Hi.
      + intro Z. destruct (Hp1 Z).
      + rewrite E2. cbn [obind]. eexists. reflexivity. }
  apply (G (length bytes) st bytes [] []); auto.
Qed.
