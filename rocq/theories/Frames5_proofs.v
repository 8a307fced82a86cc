(** Round trip of the written frames. *)
From Verif Require Import Base Tac Varint_model Varint_spec Varint_proofs Sack_model Ack_model
  Ack2_proofs Frames_model Frames_spec Frames_proofs Frames2_proofs Frames3_proofs Frames4_proofs.

(** ** What is written *)
Definition canon (w : writer) (b : list N) : Prop :=
  forall room, w room = if blen b <=? room then Some b else None.

Lemma canon_seq : forall w1 w2 b1 b2, canon w1 b1 -> canon w2 b2 -> canon (w1 >>> w2) (b1 ++ b2).
Proof.
  intros w1 w2 b1 b2 H1 H2 room. unfold wseq. rewrite H1, blen_app.
  destruct (blen b1 <=? room) eqn:E1.
  - rewrite H2. destruct (blen b2 <=? room - blen b1) eqn:E2.
    + replace (blen b1 + blen b2 <=? room) with true by lia. reflexivity.
    + replace (blen b1 + blen b2 <=? room) with false by lia. reflexivity.
  - replace (blen b1 + blen b2 <=? room) with false by lia. reflexivity.
Qed.

Lemma canon_varint : forall n, canon (frames_varint_encode n) (varint_bytes n).
Proof. intros n room. rewrite frames_varint_encode_eq, varint_bytes_length. reflexivity. Qed.

Lemma canon_uint8 : forall n, canon (frames_uint8_encode n) [u8 n].
Proof.
  intros n room. unfold frames_uint8_encode. change (blen [u8 n]) with 1.
  destruct (room <? 1) eqn:E; [replace (1 <=? room) with false by lia|replace (1 <=? room) with true by lia];
    reflexivity.
Qed.

Lemma canon_uint64 : forall n, canon (frames_uint64_encode n) (format_64 n).
Proof.
  intros n room. unfold frames_uint64_encode. change (blen (format_64 n)) with 8.
  destruct (room <? 8) eqn:E; [replace (8 <=? room) with false by lia|replace (8 <=? room) with true by lia];
    reflexivity.
Qed.

Lemma canon_put : forall d, canon (put_bytes d) d.
Proof. intros d room. reflexivity. Qed.

Lemma canon_data : forall d, canon (frames_length_data_encode d) (varint_bytes (blen d) ++ d).
Proof. intro d. unfold frames_length_data_encode. apply canon_seq; [apply canon_varint|apply canon_put]. Qed.

Lemma canon_address : forall a p,
  canon ((fun room => if blen a <? room then Some a else None) >>> frames_uint16_encode p)
        (a ++ format_16 p).
Proof.
  intros a p room. unfold wseq, frames_uint16_encode. rewrite blen_app.
  change (blen (format_16 p)) with 2. destruct (blen a <? room) eqn:E.
  - destruct (room - blen a <? 2) eqn:E2.
    + replace (blen a + 2 <=? room) with false by lia. reflexivity.
    + replace (blen a + 2 <=? room) with true by lia. reflexivity.
  - replace (blen a + 2 <=? room) with false by lia. reflexivity.
Qed.

(** The bytes of each frame. *)
Definition frame_bytes (f : wframe) : list N :=
  let v := varint_bytes in
  let data d := varint_bytes (blen d) ++ d in
  match f with
  | WReset a b c => [4] ++ v a ++ v b ++ v c
  | WStopSending a b => [5] ++ v a ++ v b
  | WCrypto a d => [6] ++ v a ++ data d
  | WNewToken d => [7] ++ data d
  | WMaxData a => [16] ++ v a
  | WMaxStreamData a b => [17] ++ v a ++ v b
  | WMaxStreams u a => [if u then 19 else 18] ++ v a
  | WDataBlocked a => [20] ++ v a
  | WStreamDataBlocked a b => [21] ++ v a ++ v b
  | WStreamsBlocked u a => [if u then 23 else 22] ++ v a
  | WNewCid None a b c d => [24] ++ v a ++ v b ++ data c ++ d
  | WNewCid (Some p) a b c d => (v ft_path_new_connection_id ++ v p) ++ v a ++ v b ++ data c ++ d
  | WRetireCid None a => [25] ++ v a
  | WRetireCid (Some p) a => (v ft_path_retire_connection_id ++ v p) ++ v a
  | WPathChallenge a => [26] ++ format_64 a
  | WPathResponse a => [27] ++ format_64 a
  | WConnectionClose a b d => [28] ++ v a ++ v b ++ data d
  | WApplicationClose a => [29] ++ v a ++ [0]
  | WHandshakeDone => [30]
  | WDatagram d => [49] ++ v (blen d) ++ d
  | WAckFrequency a b c d => v ft_ack_frequency ++ v a ++ v b ++ v c ++ v d
  | WImmediateAck => v ft_immediate_ack
  | WTimeStamp a => v ft_time_stamp ++ v a
  | WPathAbandon a b => v ft_path_abandon ++ v a ++ v b
  | WPathStatus x a b => v (if x then ft_path_available else ft_path_backup) ++ v a ++ v b
  | WMaxPathId a => v ft_max_path_id ++ v a
  | WPathsBlocked a => v ft_paths_blocked ++ v a
  | WPathCidBlocked a b => v ft_path_cid_blocked ++ v a ++ v b
  | WBdp a b c d => v ft_bdp ++ v a ++ v b ++ v c ++ data d
  | WObservedAddress x a d p =>
      v (if x then ft_observed_address_v6 else ft_observed_address_v4) ++ v a ++ d ++ format_16 p
  end.

Lemma write_canon : forall f, canon (write_frame f) (frame_bytes f).
Proof.
  intro f. destruct f; cbn [write_frame frame_bytes]; cbv zeta;
    repeat match goal with
    | |- canon (match ?p with None => _ | Some _ => _ end >>> _) _ => destruct p
    | |- canon (_ >>> _ >>> (fun room => if blen ?a <? room then _ else _) >>> _) _ =>
        apply canon_seq; [|apply canon_seq; [|apply canon_address]]
    | |- canon (_ >>> _) _ => apply canon_seq
    | |- canon (frames_length_data_encode _) _ => apply canon_data
    | |- canon (frames_varint_encode _) _ => apply canon_varint
    | |- canon (frames_uint64_encode _) _ => apply canon_uint64
    | |- canon (put_bytes _) _ => apply canon_put
    | |- canon (frames_uint8_encode (if ?u then _ else _)) _ => destruct u
    | |- canon (frames_uint8_encode _) _ => apply canon_uint8
    end.
Qed.

(** ** Reading it back *)
Lemma dec_v : forall n rest, fits n -> frames_varint_decode (varint_bytes n ++ rest) = Some (n, rest).
Proof. intros n rest H. apply frames_varint_decode_bytes, H. Qed.

Lemma skip_v : forall n rest, fits n -> frames_varint_skip (varint_bytes n ++ rest) = Some rest.
Proof. intros n rest H. rewrite frames_varint_skip_decode, dec_v by exact H. reflexivity. Qed.

Lemma take_app : forall d rest, take_bytes (blen d) (d ++ rest) = Some (d, rest).
Proof.
  intros d rest. unfold take_bytes. rewrite blen_app.
  replace (blen d <=? blen d + blen rest) with true by lia.
  unfold blen. rewrite Nat2N.id, firstn_app, skipn_app, Nat.sub_diag, firstn_all, skipn_all.
  cbn [firstn skipn app]. rewrite app_nil_r. reflexivity.
Qed.

Lemma data_app : forall d rest, fits (blen d) ->
  length_data (varint_bytes (blen d) ++ d ++ rest) = Some (d, rest).
Proof. intros d rest H. unfold length_data, rbind. rewrite dec_v by exact H. apply take_app. Qed.

Lemma data_skip_app : forall d rest, fits (blen d) ->
  frames_length_data_skip (varint_bytes (blen d) ++ d ++ rest) = Some rest.
Proof. intros d rest H. eapply agree_length_data, data_app, H. Qed.

Lemma dec_16 : forall p rest, p < 65536 -> frames_uint16_decode (format_16 p ++ rest) = Some (p, rest).
Proof.
  intros p rest H. unfold format_16. cbn [app frames_uint16_decode]. do 2 f_equal.
  rewrite lor_shiftl8 by (unfold u8; lia). rewrite shiftr8. unfold u8. lia.
Qed.

Lemma dec_64 : forall n rest, n < two64 -> frames_uint64_decode (format_64 n ++ rest) = Some (n, rest).
Proof.
  intros n rest H. unfold format_64. cbn [app]. unfold frames_uint64_decode, frames_uint32_decode.
  cbv iota beta. do 2 f_equal.
  rewrite shiftr8, shiftr16, shiftr24, shiftr32, shiftr40, shiftr48, shiftr56.
  replace 65536 with (256 * 256) by reflexivity.
  replace 16777216 with (256 * 256 * 256) by reflexivity.
  replace 4294967296 with (256 * 256 * 256 * 256) by reflexivity.
  replace 1099511627776 with (256 * 256 * 256 * 256 * 256) by reflexivity.
  replace 281474976710656 with (256 * 256 * 256 * 256 * 256 * 256) by reflexivity.
  replace 72057594037927936 with (256 * 256 * 256 * 256 * 256 * 256 * 256) by reflexivity.
  rewrite <- !N.div_div by discriminate.
  assert (B : forall x, u8 x < 256) by (intro x; apply N.mod_lt; discriminate).
  assert (D : forall x, x = 256 * (x / 256) + u8 x) by (intro x; apply N.div_mod; discriminate).
  assert (H7 : n / 256 / 256 / 256 / 256 / 256 / 256 / 256 < 256).
  { rewrite !N.div_div by discriminate. apply N.div_lt_upper_bound; [discriminate|]. exact H. }
  pose proof (D n) as D0. pose proof (D (n / 256)) as D1. pose proof (D (n / 256 / 256)) as D2.
  pose proof (D (n / 256 / 256 / 256)) as D3. pose proof (D (n / 256 / 256 / 256 / 256)) as D4.
  pose proof (D (n / 256 / 256 / 256 / 256 / 256)) as D5.
  pose proof (D (n / 256 / 256 / 256 / 256 / 256 / 256)) as D6.
  assert (E7 : u8 (n / 256 / 256 / 256 / 256 / 256 / 256 / 256) = n / 256 / 256 / 256 / 256 / 256 / 256 / 256)
    by (apply N.mod_small, H7).
  rewrite E7. clear E7 D H.
  pose proof (B n) as B0. pose proof (B (n / 256)) as B1. pose proof (B (n / 256 / 256)) as B2.
  pose proof (B (n / 256 / 256 / 256)) as B3. pose proof (B (n / 256 / 256 / 256 / 256)) as B4.
  pose proof (B (n / 256 / 256 / 256 / 256 / 256)) as B5.
  pose proof (B (n / 256 / 256 / 256 / 256 / 256 / 256)) as B6. clear B.
  generalize dependent (n / 256 / 256 / 256 / 256 / 256 / 256 / 256); intro q7.
  generalize dependent (n / 256 / 256 / 256 / 256 / 256 / 256); intro q6. generalize (u8 q6); intro u6.
  generalize dependent (n / 256 / 256 / 256 / 256 / 256); intro q5. generalize (u8 q5); intro u5.
  generalize dependent (n / 256 / 256 / 256 / 256); intro q4. generalize (u8 q4); intro u4.
  generalize dependent (n / 256 / 256 / 256); intro q3. generalize (u8 q3); intro u3.
  generalize dependent (n / 256 / 256); intro q2. generalize (u8 q2); intro u2.
  generalize dependent (n / 256); intro q1. generalize (u8 q1); intro u1. generalize dependent (u8 n); intro u0.
  intros. rewrite !lor_shiftl8 by assumption. rewrite !lor_shiftl16 by lia.
  rewrite lor_shiftl32 by lia. lia.
Qed.

Lemma zero_len : forall rest, frames_length_data_skip (0 :: rest) = Some rest.
Proof. intro rest. exact (data_skip_app [] rest eq_refl). Qed.

Ltac ev1 := match goal with
  | |- context [?a =? ?b] =>
      let r := eval vm_compute in (a =? b) in
      match r with true => change (a =? b) with true | false => change (a =? b) with false end
  | |- context [is_stream_type ?b] =>
      let r := eval vm_compute in (is_stream_type b) in
      match r with true => change (is_stream_type b) with true
                 | false => change (is_stream_type b) with false end
  end.
Ltac ev := repeat (ev1; cbn [negb andb orb]; cbv iota).

Ltac rd_back := unfold decode_with, two_varints, rbind, rskip, rret;
  repeat first [rewrite dec_v by assumption | rewrite skip_v by assumption
               | rewrite data_app by assumption | rewrite data_skip_app by assumption
               | rewrite dec_64 by assumption | rewrite dec_16 by assumption
               | rewrite take_app | rewrite zero_len ]; try reflexivity.

Lemma ext_dispatch : forall S (h : handlers S) o epoch s b l t l1, (epoch = 1 \/ epoch = 3) ->
  (64 <= b \/ b = 31) -> frames_varint_decode (b :: l) = Some (t, l1) ->
  decode_one h o epoch s b l = decode_extension h o epoch b t s (b :: l) l1.
Proof.
  intros S h o epoch s b l t l1 He Hb D. unfold decode_one, decode_by_type. rewrite D.
  assert (Hs : is_stream_type b = false).
  { destruct (is_stream_type b) eqn:E; [|reflexivity]. apply stream_type_range in E. lia. }
  rewrite Hs.
  assert (Hn : forall c, c < 64 -> c <> 31 -> (b =? c) = false) by (intros c Hc Hc'; lia).
  rewrite !Hn by (try reflexivity; discriminate).
  cbn [orb]. rewrite andb_false_r. destruct He as [He|He]; subst epoch; reflexivity.
Qed.

Lemma ext_head : forall t m b l, varint_bytes t ++ m = b :: l -> b = hd 0 (varint_bytes t).
Proof.
  intros t m b l H. pose proof (varint_bytes_length t) as Hl.
  pose proof (encode_varint_length_pos t). destruct (varint_bytes t) as [|x y].
  - cbn in Hl. rewrite <- Hl in *. lia.
  - cbn [app] in H. cbn [hd]. congruence.
Qed.

Lemma ext_back : forall S (h : handlers S) o epoch s b l t m, (epoch = 1 \/ epoch = 3) -> fits t ->
  (64 <= hd 0 (varint_bytes t) \/ hd 0 (varint_bytes t) = 31) -> varint_bytes t ++ m = b :: l ->
  decode_one h o epoch s b l = decode_extension h o epoch b t s (varint_bytes t ++ m) m.
Proof.
  intros S h o epoch s b l t m He Ht Hh Hl. rewrite Hl.
  apply ext_dispatch; [exact He|rewrite (ext_head _ _ _ _ Hl); exact Hh|].
  rewrite <- Hl. apply dec_v, Ht.
Qed.

Lemma first_app : forall (a b : list N) n, N.to_nat n = length a -> firstn (N.to_nat n) (a ++ b) = a.
Proof.
  intros a b n H. rewrite H, firstn_app, Nat.sub_diag, firstn_all. cbn [firstn]. apply app_nil_r.
Qed.

Lemma skip_app : forall (a b : list N) n, N.to_nat n = length a -> skipn (N.to_nat n) (a ++ b) = b.
Proof.
  intros a b n H. rewrite H, skipn_app, Nat.sub_diag, skipn_all. reflexivity.
Qed.

Lemma parse_cid_back : forall mp t p a b c d rest, fits t -> (mp = true -> fits p) -> fits a -> fits b ->
  blen c <= 20 -> blen d = 16 ->
  parse_new_connection_id mp
    (varint_bytes t ++ (if mp then varint_bytes p else []) ++ varint_bytes a ++ varint_bytes b ++
     varint_bytes (blen c) ++ c ++ d ++ rest) =
  Some ((if mp then p else 0, a, b, c, d), rest).
Proof.
  intros mp t p a b c d rest Ht Hp Ha Hb Hc Hd. unfold parse_new_connection_id, rbind, rskip.
  rewrite skip_v by exact Ht.
  assert (E : (if mp then frames_varint_decode else rret 0)
     ((if mp then varint_bytes p else []) ++ varint_bytes a ++ varint_bytes b ++
      varint_bytes (blen c) ++ c ++ d ++ rest) =
     Some (if mp then p else 0, varint_bytes a ++ varint_bytes b ++ varint_bytes (blen c) ++ c ++ d ++ rest)).
  { destruct mp; [apply dec_v, Hp; reflexivity|reflexivity]. }
  rewrite E. rewrite dec_v by exact Ha. rewrite dec_v by exact Hb.
  assert (Hv : varint_bytes (blen c) = [blen c]).
  { unfold varint_bytes. replace (blen c <? 16384) with true by lia. replace (blen c <? 64) with true by lia.
    unfold u8. rewrite N.mod_small by lia. reflexivity. }
  rewrite Hv. cbn [app frames_uint8_decode].
  replace (blen c + 16) with (blen (c ++ d)) by (rewrite blen_app; lia).
  rewrite app_assoc, take_app. unfold rret.
  rewrite first_app, skip_app by (unfold blen; lia). reflexivity.
Qed.

Lemma retire_back : forall mp t p a rest, fits t -> (mp = true -> fits p) -> fits a ->
  parse_retire_connection_id mp
    (varint_bytes t ++ (if mp then varint_bytes p else []) ++ varint_bytes a ++ rest) =
  Some ((if mp then p else 0, a), rest).
Proof.
  intros mp t p a rest Ht Hp Ha. unfold parse_retire_connection_id, rbind, rskip.
  rewrite skip_v by exact Ht.
  destruct mp; [rewrite dec_v by (apply Hp; reflexivity)|unfold rret at 1; cbn [app]];
    rewrite dec_v by exact Ha; reflexivity.
Qed.

Lemma bdp_back : forall a b c d rest, fits a -> fits b -> fits c -> (blen d = 4 \/ blen d = 16) ->
  parse_bdp (varint_bytes a ++ varint_bytes b ++ varint_bytes c ++ varint_bytes (blen d) ++ d ++ rest) =
  Some ((a, b, c, d), rest).
Proof.
  intros a b c d rest Ha Hb Hc Hd. unfold parse_bdp, rbind.
  rewrite dec_v by exact Ha. rewrite dec_v by exact Hb. rewrite dec_v by exact Hc.
  rewrite dec_v by (unfold fits, two62; lia).
  replace ((blen d =? 4) || (blen d =? 16)) with true by lia. rewrite take_app. reflexivity.
Qed.

Lemma observed_back : forall t a d p rest, fits a -> blen d = (if N.land t 1 =? 0 then 4 else 16) ->
  p < 65536 ->
  parse_observed_address t (varint_bytes a ++ d ++ format_16 p ++ rest) = Some ((a, d, p), rest).
Proof.
  intros t a d p rest Ha Hd Hp. unfold parse_observed_address, rbind.
  rewrite dec_v by exact Ha. rewrite <- Hd, take_app, dec_16 by exact Hp. reflexivity.
Qed.

Ltac go Hl := repeat (rewrite <- app_assoc in Hl || rewrite <- app_comm_cons in Hl); cbn [app] in Hl;
  match type of Hl with ?x :: ?m = ?b :: ?l =>
    assert (b = x) by congruence; assert (l = m) by congruence; subst b l; clear Hl end.
Ltac app_ep Hp := inversion Hp; match goal with H : _ = 1 \/ _ = 3 |- _ => destruct H as [H|H]; subst end.
Ltac ext Hl t := repeat rewrite <- app_assoc in Hl;
  match goal with |- decode_one _ _ ?e _ _ _ = _ =>
  rewrite (ext_back _ _ _ e _ _ _ t _ ltac:(first [assumption | left; reflexivity | right; reflexivity]) ltac:(reflexivity) ltac:(vm_compute; intuition congruence) Hl) end.

Lemma round_trip_one : forall S (h : handlers S) o epoch s f rest b l,
  wframe_ok f -> negotiated o f -> permitted (o_client o) epoch (received_as f) ->
  (f = WImmediateAck -> rest <> []) -> frame_bytes f ++ rest = b :: l ->
  decode_one h o epoch s b l = deliver h s (received_as f) rest.
Proof.
  intros S h o epoch s f rest b l Hok Hn Hp Hi Hl.
  destruct f; cbn [frame_bytes wframe_ok negotiated received_as] in *; cbv zeta in Hl;
    repeat match goal with H : _ /\ _ |- _ => destruct H end.
  - go Hl. app_ep Hp; unfold decode_one, decode_by_type; ev; rd_back.
  - go Hl. app_ep Hp; unfold decode_one, decode_by_type; ev; rd_back.
  - go Hl. inversion Hp; subst. unfold decode_one, decode_by_type. ev.
    rewrite !andb_false_r. rewrite andb_true_r. unfold epoch_0rtt.
    replace (epoch =? 1) with false by lia. rd_back.
  - go Hl. inversion Hp; subst. unfold decode_one, decode_by_type; ev. unfold decode_new_token.
    rd_back. replace (o_client o) with true by congruence. reflexivity.
  - go Hl. app_ep Hp; unfold decode_one, decode_by_type; ev; rd_back.
  - go Hl. app_ep Hp; unfold decode_one, decode_by_type; ev; rd_back.
  - destruct unidir; go Hl; app_ep Hp; unfold decode_one, decode_by_type; ev; rd_back.
  - go Hl. app_ep Hp; unfold decode_one, decode_by_type; ev; rd_back.
  - go Hl. app_ep Hp; unfold decode_one, decode_by_type; ev; unfold skip_varints, sbind; rd_back.
  - destruct unidir; go Hl; app_ep Hp; unfold decode_one, decode_by_type; ev; rd_back.
  - (* NEW_CONNECTION_ID *)
    assert (Hrb : fits retire_before) by (unfold fits in *; lia).
    destruct path_id as [p|].
    + inversion Hp; subst. ext Hl ft_path_new_connection_id.
      unfold decode_extension. ev. unfold decode_new_connection_id. rewrite Hn. cbn [negb andb].
      pose proof (parse_cid_back true ft_path_new_connection_id p sequence retire_before cid secret rest) as E.
      cbv iota in E. rewrite E by (try assumption; try reflexivity; try (intros _; assumption); lia).
      replace (sequence <? retire_before) with false by lia. replace (20 <? blen cid) with false by lia.
      reflexivity.
    + pose proof (parse_cid_back false ft_new_connection_id 0 sequence retire_before cid secret rest) as E.
      cbv iota in E. change (varint_bytes ft_new_connection_id) with [24] in E.
      go Hl. app_ep Hp; unfold decode_one, decode_by_type; ev; unfold decode_new_connection_id; cbn [negb andb];
      cbn [app] in E; rewrite E by (try assumption; try reflexivity; try discriminate; lia);
      replace (sequence <? retire_before) with false by lia; replace (20 <? blen cid) with false by lia;
      reflexivity.
  - (* RETIRE_CONNECTION_ID *)
    destruct path_id as [p|].
    + inversion Hp; subst. ext Hl ft_path_retire_connection_id.
      unfold decode_extension. ev. unfold decode_retire_connection_id, decode_with. rewrite Hn. cbn [negb andb].
      pose proof (retire_back true ft_path_retire_connection_id p sequence rest) as E.
      cbv iota in E. rewrite E by (try assumption; try reflexivity; try (intros _; assumption)).
      reflexivity.
    + pose proof (retire_back false ft_retire_connection_id 0 sequence rest) as E.
      cbv iota in E. change (varint_bytes ft_retire_connection_id) with [25] in E.
      go Hl. inversion Hp; subst; unfold decode_one, decode_by_type; ev.
      unfold decode_retire_connection_id, decode_with; cbn [negb andb].
      cbn [app] in E; rewrite E by (try assumption; try reflexivity; discriminate). reflexivity.
  - go Hl. app_ep Hp; unfold decode_one, decode_by_type; ev; unfold decode_path_challenge; rd_back.
  - go Hl. inversion Hp; subst; unfold decode_one, decode_by_type; ev; rd_back.
  - go Hl. inversion Hp; subst. unfold decode_one, decode_by_type. ev.
    rewrite !andb_false_r. cbn [andb]. rd_back.
  - go Hl. app_ep Hp; unfold decode_one, decode_by_type; ev; rd_back.
  - go Hl. inversion Hp; subst. unfold decode_one, decode_by_type. ev. unfold decode_handshake_done.
    replace (o_client o) with true by congruence. reflexivity.
  - go Hl. app_ep Hp; unfold decode_one, decode_by_type; ev; unfold decode_datagram; ev;
      change (N.land 49 1 =? 0) with false; cbv iota; rewrite dec_v by assumption; rewrite blen_app;
      replace (blen data + blen rest <? blen data) with false by lia;
      replace (o_max_datagram o <? blen data) with false by lia; cbn [orb];
      rewrite first_app, skip_app by (unfold blen; lia); reflexivity.
  - inversion Hp; subst. ext Hl ft_ack_frequency. unfold decode_extension. ev.
    unfold decode_ack_frequency, rbind. rewrite !dec_v by assumption. unfold rret.
    rewrite H. cbn [negb orb]. replace (delay <? o_min_ack_delay o) with false by lia.
    replace (gap =? 0) with false by lia. reflexivity.
  - inversion Hp; subst. ext Hl ft_immediate_ack. unfold decode_extension. ev.
    unfold decode_immediate_ack. destruct rest as [|x r]; [exfalso; apply Hi; reflexivity|].
    rewrite Hn. reflexivity.
  - inversion Hp; subst. ext Hl ft_time_stamp. unfold decode_extension. ev.
    unfold decode_time_stamp. rewrite dec_v by assumption. rewrite Hn. reflexivity.
  - inversion Hp; subst. ext Hl ft_path_abandon. unfold decode_extension. ev.
    unfold decode_negotiated. rewrite Hn. rd_back.
  - inversion Hp; subst. destruct available; [ext Hl ft_path_available|ext Hl ft_path_backup];
    unfold decode_extension; ev; unfold decode_negotiated; rewrite Hn; rd_back.
  - inversion Hp; subst. ext Hl ft_max_path_id. unfold decode_extension. ev.
    unfold decode_negotiated. rewrite Hn. rd_back.
  - inversion Hp; subst. ext Hl ft_paths_blocked. unfold decode_extension. ev.
    unfold decode_negotiated. rewrite Hn. rd_back.
  - inversion Hp; subst. ext Hl ft_path_cid_blocked. unfold decode_extension. ev.
    unfold decode_negotiated. rewrite Hn. rd_back.
  - inversion Hp; subst.
    assert (He : epoch = 1 \/ epoch = 3) by tauto.
    ext Hl ft_bdp. unfold decode_extension. ev. rewrite andb_false_r. unfold decode_bdp.
    rewrite Hn. rewrite andb_false_r. unfold decode_with. rewrite bdp_back by assumption.
    unfold epoch_1rtt, epoch_0rtt.
    match goal with H : epoch = 3 \/ _ |- _ => destruct H as [H|[Hc H]] end; subst epoch; ev.
    + rewrite !andb_false_r. reflexivity.
    + rewrite Hc. reflexivity.
  - inversion Hp; subst. destruct v6; [ext Hl ft_observed_address_v6|ext Hl ft_observed_address_v4];
    unfold decode_extension; ev; unfold decode_negotiated; rewrite Hn; unfold decode_with;
    rewrite observed_back by assumption; reflexivity.
Qed.

(** ** Whole payloads *)
Lemma loop_fuel : forall S (h : handlers S) o epoch f1 f2 s l,
  (length l <= f1)%nat -> (length l <= f2)%nat ->
  decode_frames_loop h o epoch f1 s l = decode_frames_loop h o epoch f2 s l.
Proof.
  intros S h o epoch. induction f1 as [|f1 IH]; intros f2 s l H1 H2.
  - destruct l; [destruct f2; reflexivity|cbn in H1; lia].
  - destruct l as [|b l]; [destruct f2; reflexivity|]. destruct f2 as [|f2]; [cbn in H2; lia|].
    cbn [decode_frames_loop]. destruct (decode_one h o epoch s b l) as [s'|s' rest] eqn:E; [reflexivity|].
    apply one_progress in E. apply progress_len in E. cbn [length] in *. apply IH; lia.
Qed.

Lemma frame_bytes_nonempty : forall f, frame_bytes f <> [].
Proof.
  assert (Hv : forall t m, varint_bytes t ++ m <> []).
  { intros t m E. pose proof (varint_bytes_length t) as Hl. pose proof (encode_varint_length_pos t).
    apply app_eq_nil in E. destruct E as [E _]. rewrite E in Hl. cbn in Hl. rewrite <- Hl in *. lia. }
  intro f. destruct f; cbn [frame_bytes]; cbv zeta; try discriminate; try apply Hv.
  - destruct path_id; [rewrite <- app_assoc; apply Hv|discriminate].
  - destruct path_id; [rewrite <- app_assoc; apply Hv|discriminate].
Qed.

Lemma write_frames_bytes : forall fs room b, write_frames fs room = Some b ->
  b = flat_map frame_bytes fs /\ blen b <= room.
Proof.
  induction fs as [|f fs IH]; intros room b H; cbn [write_frames flat_map] in *.
  - apply some_inj in H. subst b. split; [reflexivity|]. cbn. lia.
  - unfold wseq in H. rewrite write_canon in H.
    destruct (blen (frame_bytes f) <=? room) eqn:E; [|discriminate].
    destruct (write_frames fs (room - blen (frame_bytes f))) as [y|] eqn:E2; [|discriminate].
    apply some_inj in H. subst b. destruct (IH _ _ E2) as [-> Hl]. split; [reflexivity|].
    rewrite blen_app. lia.
Qed.

Lemma payload_round_trip : forall S (h : handlers S) o epoch s fs room bytes,
  Forall (fun f => wframe_ok f /\ negotiated o f /\ permitted (o_client o) epoch (received_as f)) fs ->
  (forall fs', fs <> fs' ++ [WImmediateAck]) ->
  write_frames fs room = Some bytes ->
  blen bytes <= room /\ decode_frames h o epoch s bytes = process_all h s fs.
Proof.
  intros S h o epoch s fs room bytes Hf Hi Hw. apply write_frames_bytes in Hw.
  destruct Hw as [-> Hl]. split; [exact Hl|]. clear Hl room. revert s Hi.
  induction fs as [|f fs IH]; intros s Hi; [reflexivity|].
  cbn [flat_map process_all]. inversion Hf as [|f' fs' [Hok [Hn Hp]] Hf']. subst f' fs'.
  unfold decode_frames.
  destruct (frame_bytes f ++ flat_map frame_bytes fs) as [|b l] eqn:E.
  { apply app_eq_nil in E. destruct E as [E _]. destruct (frame_bytes_nonempty f E). }
  cbn [length decode_frames_loop].
  assert (Hr : f = WImmediateAck -> flat_map frame_bytes fs <> []).
  { intros -> Hz. destruct fs as [|f2 fs2]; [apply (Hi []); reflexivity|].
    cbn [flat_map] in Hz. apply app_eq_nil in Hz. destruct (frame_bytes_nonempty f2 (proj1 Hz)). }
  pose proof (round_trip_one S h o epoch s f _ b l Hok Hn Hp Hr E) as Ho. rewrite Ho.
  unfold deliver in Ho. unfold deliver. destruct (h_frame h s (received_as f)) as [s' []]; [|reflexivity].
  rewrite <- IH; [|exact Hf'|intros fs' Hz; apply (Hi (f :: fs')); rewrite Hz; reflexivity].
  unfold decode_frames. apply loop_fuel; [|lia].
  apply one_progress in Ho. apply progress_len in Ho. cbn [length] in Ho. lia.
Qed.

Lemma format_ok : forall n, bytes_ok (format_64 n) /\ bytes_ok (format_16 n).
Proof.
  intro n. split; unfold format_64, format_16; repeat constructor; unfold is_byte, u8; apply N.mod_lt; discriminate.
Qed.

Lemma frame_bytes_ok : forall f, wframe_ok f -> bytes_ok (frame_bytes f).
Proof.
  assert (Ha : forall a b, bytes_ok a -> bytes_ok b -> bytes_ok (a ++ b)) by (intros; apply Forall_app; tauto).
  assert (Hc : forall x, x < 256 -> bytes_ok [x]) by (intros x Hx; constructor; [exact Hx|constructor]).
  intros f H. destruct f; cbn [wframe_ok] in H; cbn [frame_bytes]; cbv zeta;
    repeat match goal with H : _ /\ _ |- _ => destruct H end;
    repeat match goal with
    | |- bytes_ok (match ?p with None => _ | Some _ => _ end) => destruct p
    | |- bytes_ok (_ ++ _) => apply Ha
    | |- bytes_ok (varint_bytes _) => apply varint_bytes_ok
    | |- bytes_ok (format_64 _) => apply format_ok
    | |- bytes_ok (format_16 _) => apply format_ok
    | |- bytes_ok [if ?u then _ else _] => destruct u
    | |- bytes_ok [_] => apply Hc; reflexivity
    | |- _ => assumption
    end.
Qed.

Definition all_on (d a : N) : options := mk_opt true true true true true true d a 3.

Lemma skip_written : forall f room bytes rest, wframe_ok f -> bytes_ok rest ->
  write_frame f room = Some bytes -> fst (skip_frame (bytes ++ rest)) = Ok rest.
Proof.
  intros f room bytes rest Hok Hr Hw. rewrite write_canon in Hw.
  destruct (blen (frame_bytes f) <=? room); [|discriminate]. apply some_inj in Hw. subst bytes.
  destruct (frame_bytes f ++ rest) as [|b l] eqn:E.
  { apply app_eq_nil in E. destruct E as [E _]. destruct (frame_bytes_nonempty f E). }
  set (h := mk_h (fun (s : unit) (_ : rframe) => (s, true)) (fun s _ _ => s) (fun _ _ => true)).
  set (o := all_on (match f with WDatagram d => blen d | _ => 0 end)
                   (match f with WAckFrequency _ _ c _ => c | _ => 0 end)).
  assert (Hi : f = WImmediateAck \/ f <> WImmediateAck) by (destruct f; (left; reflexivity) || (right; discriminate)).
  destruct Hi as [->|Hi].
  { change (frame_bytes WImmediateAck) with [31] in E. cbn [app] in E.
    assert (b = 31) by congruence. assert (l = rest) by congruence. subst b l.
    unfold skip_frame. ev. rewrite head_type_small by reflexivity. reflexivity. }
  apply (skip_agrees unit h o 3 tt b l tt rest); [|reflexivity|reflexivity|].
  { rewrite <- E. apply Forall_app. split; [apply frame_bytes_ok, Hok|exact Hr]. }
  rewrite (round_trip_one unit h o 3 tt f rest b l Hok); [reflexivity| | |contradiction|exact E].
  - destruct f; cbn [negotiated]; try exact I; try reflexivity;
      try (destruct path_id; [reflexivity|exact I]).
    split; [reflexivity|]. subst o. cbn. lia.
  - destruct f; cbn [received_as]; try (constructor; tauto); try (constructor; discriminate).
    destruct path_id; constructor; tauto.
Qed.
