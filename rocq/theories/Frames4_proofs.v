(** Skipping a frame ends where decoding it ends. *)
From Verif Require Import Base Tac Varint_model Varint_spec Varint_proofs Sack_model Ack_model
  Ack2_proofs Frames_model Frames_spec Frames_proofs Frames2_proofs Frames3_proofs.

Definition agree {A} (r : reader A) (k : skipper) : Prop :=
  forall l a rest, r l = Some (a, rest) -> k l = Some rest.

Lemma agree_varint : agree frames_varint_decode frames_varint_skip.
Proof. intros l a rest H. rewrite frames_varint_skip_decode, H. reflexivity. Qed.

Lemma agree_ret : forall A (a : A), agree (rret a) (fun l => Some l).
Proof. intros A a l a' rest H. unfold rret in H. apply some_pair_inj in H. destruct H as [_ <-]. reflexivity. Qed.

Lemma agree_bind : forall A B (r : reader A) (f : A -> reader B) k1 k2,
  agree r k1 -> (forall a, agree (f a) k2) -> agree (rbind r f) (sbind k1 k2).
Proof.
  intros A B r f k1 k2 H1 H2 l b rest H. unfold rbind in H.
  destruct (r l) as [[a l']|] eqn:E; [|discriminate]. unfold sbind. rewrite (H1 _ _ _ E).
  eapply H2, H.
Qed.

Lemma agree_rskip : forall k, agree (rskip k) k.
Proof.
  intros k l a rest H. unfold rskip in H. destruct (k l); [|discriminate].
  apply some_pair_inj in H. destruct H as [_ <-]. reflexivity.
Qed.

Lemma agree_ext : forall A (r : reader A) k k', agree r k -> (forall l, k l = k' l) -> agree r k'.
Proof. intros A r k k' H E l a rest Hr. rewrite <- E. eapply H, Hr. Qed.

Lemma sbind_nil_r : forall k l, sbind k (fun l => Some l) l = k l.
Proof. intros k l. unfold sbind. destruct (k l); reflexivity. Qed.

Lemma sbind_assoc : forall a b c l, sbind (sbind a b) c l = sbind a (sbind b c) l.
Proof. intros a b c l. unfold sbind. destruct (a l); reflexivity. Qed.

Lemma agree_take : forall n, agree (take_bytes n) (frames_fixed_skip n).
Proof.
  intros n l a rest H. unfold take_bytes in H. unfold frames_fixed_skip.
  destruct (n <=? blen l); [|discriminate].
  apply some_pair_inj in H. destruct H as [_ <-]. reflexivity.
Qed.

Lemma agree_length_data : agree length_data frames_length_data_skip.
Proof.
  intros l a rest H. unfold length_data, rbind in H. unfold frames_length_data_skip.
  destruct (frames_varint_decode l) as [[n l1]|]; [|discriminate]. eapply agree_take, H.
Qed.

Lemma deliver_continue : forall S (h : handlers S) s f rest s' rest',
  deliver h s f rest = Continue s' rest' -> rest' = rest.
Proof.
  intros S h s f rest s' rest' H. unfold deliver in H. destruct (h_frame h s f) as [s1 []]; congruence.
Qed.

Lemma with_continue : forall S (h : handlers S) A (r : reader A) k ft s l s' rest sk,
  decode_with h r k ft s l = Continue s' rest -> agree r sk -> sk l = Some rest.
Proof.
  intros S h A r k ft s l s' rest sk H Ha. unfold decode_with in H.
  destruct (r l) as [[a l1]|] eqn:E; [|discriminate].
  apply deliver_continue in H. subst l1. eapply Ha, E.
Qed.

Lemma uint8_skip : agree frames_uint8_decode (frames_fixed_skip 1).
Proof.
  intros l a rest H. unfold frames_uint8_decode in H. destruct l as [|b l]; [discriminate|].
  apply some_pair_inj in H. destruct H as [_ <-]. unfold frames_fixed_skip.
  rewrite blen_cons. replace (1 <=? 1 + blen l) with true by lia. reflexivity.
Qed.

Lemma agree_uint64 : agree frames_uint64_decode (frames_fixed_skip 8).
Proof.
  intros l a rest H. unfold frames_uint64_decode in H.
  do 8 (destruct l as [|?b l]; [discriminate|]).
  apply some_pair_inj in H. destruct H as [_ <-]. unfold frames_fixed_skip.
  rewrite !blen_cons. match goal with |- context [?c <=? ?d] => replace (c <=? d) with true by lia end.
  reflexivity.
Qed.

Lemma agree_uint16 : agree frames_uint16_decode (frames_fixed_skip 2).
Proof.
  intros l a rest H. unfold frames_uint16_decode in H.
  do 2 (destruct l as [|?b l]; [discriminate|]).
  apply some_pair_inj in H. destruct H as [_ <-]. unfold frames_fixed_skip.
  rewrite !blen_cons. match goal with |- context [?c <=? ?d] => replace (c <=? d) with true by lia end.
  reflexivity.
Qed.

Ltac ag := unfold agree; fold (@agree);
  repeat first [apply agree_length_data | apply agree_bind; [|intro] | apply agree_varint | apply agree_ret
               | apply agree_rskip | apply agree_take ].

Lemma agree_two : agree two_varints (skip_varints 2).
Proof. unfold two_varints. ag. Qed.

Lemma agree_three : agree (a <-- frames_varint_decode ;; b <-- frames_varint_decode ;;
  c <-- frames_varint_decode ;; rret (a, b, c)) (skip_varints 3).
Proof. ag. Qed.

Lemma skipn_twice : forall (n m : nat) (l : list N), skipn m (skipn n l) = skipn (n + m) l.
Proof.
  induction n as [|n IH]; intros m l; [reflexivity|]. destruct l as [|x l]; [destruct m; reflexivity|].
  cbn [skipn Nat.add]. apply IH.
Qed.

Lemma fixed_skip_add : forall n m l r, sbind (frames_fixed_skip n) (frames_fixed_skip m) l = Some r ->
  frames_fixed_skip (n + m) l = Some r.
Proof.
  intros n m l r H. unfold sbind, frames_fixed_skip in *.
  destruct (n <=? blen l) eqn:E; [|discriminate].
  destruct (m <=? blen (skipn (N.to_nat n) l)) eqn:E2; [|discriminate].
  rewrite <- H. unfold blen in *. rewrite skipn_length in E2.
  replace (n + m <=? N.of_nat (length l)) with true by lia.
  f_equal. rewrite skipn_twice. f_equal. lia.
Qed.

Lemma skip_blocks_ranges : forall fuel f2 largest nb l rs rest l1 v,
  frames_varint_decode l = Some (v, l1) -> read_ranges fuel largest nb l = RangesOk rs rest ->
  (length l1 < f2)%nat -> skip_blocks f2 nb l1 = Ok rest.
Proof.
  induction fuel as [|fuel IH]; intros f2 largest nb l rs rest l1 v E H Hf; [discriminate|].
  cbn [read_ranges] in H. rewrite E in H.
  destruct (u64 (largest + 1) <? u64 (v + 1)); [discriminate|].
  destruct f2 as [|f2]; [lia|]. cbn [skip_blocks].
  destruct (nb =? 0) eqn:En; [congruence|].
  destruct (frames_varint_decode l1) as [[gap l2]|] eqn:E1; [|discriminate].
  match type of H with (if ?b then _ else _) = _ => destruct b end; [discriminate|].
  match type of H with match ?x with _ => _ end = _ => destruct x as [rs2 rest2|rs2|] eqn:Er end;
    [|discriminate|discriminate].
  assert (rest2 = rest) by congruence. subst rest2. clear H.
  destruct fuel as [|fuel']; [discriminate|].
  pose proof Er as Er'. cbn [read_ranges] in Er'.
  destruct (frames_varint_decode l2) as [[v3 l3]|] eqn:E2; [|discriminate]. clear Er'.
  assert (Hs : skip_varints 2 l1 = Some l3).
  { cbn [skip_varints]. unfold sbind. rewrite !frames_varint_skip_decode, E1.
    rewrite frames_varint_skip_decode, E2. reflexivity. }
  rewrite Hs. eapply IH; [exact E2|exact Er|].
  pose proof (progress_len _ _ (varint_decode_progress _ _ _ E1)).
  pose proof (progress_len _ _ (varint_decode_progress _ _ _ E2)). lia.
Qed.

Lemma ack_skip_agrees : forall S (h : handlers S) o epoch ecn hp s l s' rest, bytes_ok l ->
  decode_ack h o epoch ecn hp s l = Continue s' rest ->
  skip_ack_frame_maybe_ecn ecn hp l = Ok rest.
Proof.
  intros S h o epoch ecn hp s l s' rest Hok H. unfold decode_ack in H.
  destruct (parse_ack_header hp (o_exponent o) l) as [[[[[p lg] d] nb] l1]|] eqn:Ep; [|discriminate].
  destruct (hp && negb (o_multipath o)); [discriminate|].
  match type of H with (if ?b then _ else _) = _ => destruct b end.
  { destruct (skip_ack_frame_maybe_ecn ecn hp l) as [r| |]; congruence. }
  cbv zeta in H.
  destruct (read_ranges (Datatypes.S (length l1)) lg nb l1) as [rs l2|rs|] eqn:Er; [|discriminate|discriminate].
  destruct (h_frame h s _) as [s1 []]; [|discriminate].
  destruct (read_ecn ecn l2) as [r|] eqn:Ee; [|discriminate].
  assert (r = rest) by congruence. subst r. clear H.
  rewrite parse_ack_header_eq in Ep by exact Hok.
  destruct (frames_varint_decode l) as [[ty m0]|] eqn:D0; [|discriminate].
  destruct (if hp then frames_varint_decode m0 else Some (0, m0)) as [[pp m1]|] eqn:D1; [|discriminate].
  destruct (frames_varint_decode m1) as [[lg' m2]|] eqn:D2; [|discriminate].
  destruct (frames_varint_decode m2) as [[d' m3]|] eqn:D3; [|discriminate].
  destruct (frames_varint_decode m3) as [[nb' m4]|] eqn:D4; [|discriminate].
  apply some_pair_inj in Ep. destruct Ep as [Ep <-].
  assert (nb' = nb) by congruence. subst nb'. clear Ep.
  assert (Hs : skip_varints (if hp then 4 else 3) l = Some m3).
  { destruct hp.
    - cbn [skip_varints]. unfold sbind. rewrite frames_varint_skip_decode, D0.
      rewrite frames_varint_skip_decode, D1. rewrite frames_varint_skip_decode, D2.
      rewrite frames_varint_skip_decode, D3. reflexivity.
    - apply some_pair_inj in D1. destruct D1 as [_ <-].
      cbn [skip_varints]. unfold sbind. rewrite frames_varint_skip_decode, D0.
      rewrite frames_varint_skip_decode, D2. rewrite frames_varint_skip_decode, D3. reflexivity. }
  unfold skip_ack_frame_maybe_ecn. rewrite Hs, D4.
  pose proof Er as Er'. cbn [read_ranges] in Er'.
  destruct (frames_varint_decode m4) as [[v5 l5]|] eqn:D5; [|discriminate]. clear Er'.
  rewrite frames_varint_skip_decode, D5.
  rewrite (skip_blocks_ranges _ _ _ _ _ _ _ _ _ D5 Er) by lia.
  unfold read_ecn in Ee. destruct ecn; [|congruence].
  assert (Hx : skip_varints 3 l2 = Some rest).
  { rewrite <- Ee. cbn [skip_varints]. unfold sbind. destruct (frames_varint_skip l2) as [a|]; [|reflexivity].
    destruct (frames_varint_skip a) as [a'|]; [|reflexivity].
    destruct (frames_varint_skip a'); reflexivity. }
  rewrite Hx. reflexivity.
Qed.

Lemma stream_skip_agrees : forall b l a rest, bytes_ok l -> parse_stream b l = Some (a, rest) ->
  skip_stream_frame b l = Some rest.
Proof.
  intros b l [[[sid off] fin] d] rest Hok H. unfold parse_stream in H. unfold skip_stream_frame.
  rewrite varint_read_eq in H by exact Hok.
  destruct (frames_varint_decode l) as [[x l1]|] eqn:D1; [|discriminate].
  destruct (decode_step _ _ _ Hok D1) as (p1 & _ & _ & Hok1 & _).
  destruct (if N.land b 4 =? 0 then Some (0, l1) else varint_read l1) as [[y l2]|] eqn:D2; [|discriminate].
  assert (Hs : skip_varints (if N.land b 4 =? 0 then 1 else 2) l = Some l2 /\ bytes_ok l2).
  { destruct (N.land b 4 =? 0).
    - apply some_pair_inj in D2. destruct D2 as [_ <-]. split; [|exact Hok1].
      cbn [skip_varints]. unfold sbind. rewrite frames_varint_skip_decode, D1. reflexivity.
    - rewrite varint_read_eq in D2 by exact Hok1.
      destruct (decode_step _ _ _ Hok1 D2) as (p2 & _ & _ & Hok2 & _). split; [|exact Hok2].
      cbn [skip_varints]. unfold sbind. rewrite frames_varint_skip_decode, D1.
      rewrite frames_varint_skip_decode, D2. reflexivity. }
  destruct Hs as [Hs Hok2]. rewrite Hs.
  destruct (N.land b 2 =? 0); [congruence|].
  rewrite varint_read_eq in H by exact Hok2. unfold frames_length_data_skip.
  destruct (frames_varint_decode l2) as [[len l3]|]; [|discriminate].
  destruct (take_bytes len l3) as [[d3 r3]|] eqn:E3; [|discriminate].
  assert (r3 = rest) by congruence. subst r3. eapply agree_take, E3.
Qed.

Lemma new_cid_skip_agrees : forall mp l a rest,
  parse_new_connection_id mp l = Some (a, rest) -> skip_new_connection_id_frame mp l = Some rest.
Proof.
  intros mp l a rest H. unfold parse_new_connection_id in H. unfold skip_new_connection_id_frame.
  unfold rbind in H. unfold rskip in H. rewrite frames_varint_skip_decode in H.
  destruct (frames_varint_decode l) as [[t l1]|] eqn:D1; [|discriminate].
  destruct ((if mp then frames_varint_decode else rret 0) l1) as [[p l2]|] eqn:D2; [|discriminate].
  destruct (frames_varint_decode l2) as [[sq l3]|] eqn:D3; [|discriminate].
  destruct (frames_varint_decode l3) as [[rt l4]|] eqn:D4; [|discriminate].
  assert (Hs : skip_varints (if mp then 4 else 3) l = Some l4).
  { destruct mp; cbn [skip_varints]; unfold sbind; rewrite frames_varint_skip_decode, D1;
      [rewrite frames_varint_skip_decode, D2|apply some_pair_inj in D2; destruct D2 as [_ <-]];
      rewrite frames_varint_skip_decode, D3; rewrite frames_varint_skip_decode, D4; reflexivity. }
  rewrite Hs. destruct (frames_uint8_decode l4) as [[len l5]|]; [|discriminate].
  destruct (take_bytes (len + 16) l5) as [[both r]|] eqn:E; [|discriminate].
  unfold rret in H. apply some_pair_inj in H. destruct H as [_ <-]. eapply agree_take, E.
Qed.

Lemma negotiated_continue : forall S (h : handlers S) A n (r : reader A) k ft s l s' rest sk,
  n = true -> decode_negotiated h n r k ft s l = Continue s' rest -> agree r sk -> sk l = Some rest.
Proof.
  intros S h A n r k ft s l s' rest sk -> H Ha. unfold decode_negotiated in H.
  eapply with_continue; [exact H|exact Ha].
Qed.

Lemma agree_bdp : agree parse_bdp (sbind (skip_varints 3) frames_length_data_skip).
Proof.
  intros l a rest H. unfold parse_bdp, rbind in H.
  destruct (frames_varint_decode l) as [[t1 l1]|] eqn:D1; [|discriminate].
  destruct (frames_varint_decode l1) as [[t2 l2]|] eqn:D2; [|discriminate].
  destruct (frames_varint_decode l2) as [[t3 l3]|] eqn:D3; [|discriminate].
  destruct (frames_varint_decode l3) as [[len l4]|] eqn:D4; [|discriminate].
  assert (Hs : skip_varints 3 l = Some l3).
  { cbn [skip_varints]; unfold sbind; rewrite frames_varint_skip_decode, D1.
    rewrite frames_varint_skip_decode, D2. rewrite frames_varint_skip_decode, D3. reflexivity. }
  unfold sbind at 1. rewrite Hs. unfold frames_length_data_skip. rewrite D4.
  destruct ((len =? 4) || (len =? 16)); [|discriminate].
  destruct (take_bytes len l4) as [[ip r]|] eqn:E; [|discriminate].
  unfold rret in H. apply some_pair_inj in H. destruct H as [_ <-]. eapply agree_take, E.
Qed.

Lemma agree_observed : forall t, agree (parse_observed_address t) (skip_observed_address_frame t).
Proof.
  intros t l a rest H. unfold parse_observed_address, rbind in H. unfold skip_observed_address_frame.
  rewrite frames_varint_skip_decode.
  destruct (frames_varint_decode l) as [[t1 l1]|] eqn:D1; [|discriminate].
  destruct (take_bytes (if N.land t 1 =? 0 then 4 else 16) l1) as [[ad l2]|] eqn:D2; [|discriminate].
  destruct (frames_uint16_decode l2) as [[po l3]|] eqn:D3; [|discriminate].
  unfold rret in H. apply some_pair_inj in H. destruct H as [_ <-].
  apply fixed_skip_add. unfold sbind. rewrite (agree_take _ _ _ _ D2). apply (agree_uint16 _ _ _ D3).
Qed.

Lemma extension_agrees : forall S (h : handlers S) o epoch b t s l0 l s' rest,
  bytes_ok l0 -> frames_varint_decode l0 = Some (t, l) ->
  o_multipath o = true -> o_address_discovery o = true ->
  decode_extension h o epoch b t s l0 l = Continue s' rest ->
  fst (skip_extension t l0 l) = Ok rest.
Proof.
  intros S h o epoch b t s l0 l s' rest Hok D Hm Had H. unfold decode_extension in H. unfold skip_extension.
  destruct ((epoch =? epoch_0rtt) && negb (t =? ft_bdp)); [discriminate|].
  Ltac by_with H lem := rewrite (with_continue _ _ _ _ _ _ _ _ _ _ _ H lem); reflexivity.
  Ltac by_neg Hm H lem := unfold fst; erewrite (negotiated_continue _ _ _ _ _ _ _ _ _ _ _ _ Hm H lem); reflexivity.
  destruct (t =? ft_ack_frequency).
  { unfold decode_ack_frequency in H. cbn [fst].
    match type of H with match ?x with _ => _ end = _ => destruct x as [[[[[a1 a2] a3] a4] r]|] eqn:E end; [|discriminate].
    match type of H with (if ?c then _ else _) = _ => destruct c end; [discriminate|].
    apply deliver_continue in H. subst r.
    assert (Ha : agree (a <-- frames_varint_decode ;; b <-- frames_varint_decode ;;
         c <-- frames_varint_decode ;; d <-- frames_varint_decode ;; rret (a, b, c, d)) (skip_varints 4)) by ag.
    rewrite (Ha _ _ _ E). reflexivity. }
  destruct (t =? ft_immediate_ack).
  { unfold decode_immediate_ack in H. destruct l as [|x l']; [cbn; congruence|].
    destruct (o_ack_frequency o); [|discriminate]. apply deliver_continue in H. subst rest. reflexivity. }
  destruct (t =? ft_time_stamp).
  { unfold decode_time_stamp in H. destruct (frames_varint_decode l) as [[v r]|] eqn:E; [|discriminate].
    destruct (o_time_stamp o); [|discriminate]. apply deliver_continue in H. subst r.
    unfold fst. rewrite (agree_varint _ _ _ E). reflexivity. }
  destruct (t =? ft_path_ack); [eapply ack_skip_agrees; eassumption|].
  destruct (t =? ft_path_ack_ecn); [eapply ack_skip_agrees; eassumption|].
  destruct (t =? ft_path_abandon); [by_neg Hm H agree_two|].
  destruct ((t =? ft_path_backup) || (t =? ft_path_available)); [by_neg Hm H agree_two|].
  destruct (t =? ft_max_path_id); [by_neg Hm H agree_varint|].
  destruct (t =? ft_paths_blocked); [by_neg Hm H agree_varint|].
  destruct (t =? ft_path_cid_blocked); [by_neg Hm H agree_two|].
  destruct (t =? ft_path_new_connection_id) eqn:T1.
  { apply N.eqb_eq in T1. subst t. cbn [N.eqb]. change (ft_path_new_connection_id =? ft_bdp) with false.
    cbn [fst]. unfold decode_new_connection_id in H. rewrite Hm in H. cbn [negb andb] in H.
    destruct (parse_new_connection_id true l0) as [[[[[[p sq] rt] c] d] r]|] eqn:E; [|discriminate].
    destruct (sq <? rt); [discriminate|]. destruct (20 <? blen c); [discriminate|].
    apply deliver_continue in H. subst r. rewrite (new_cid_skip_agrees _ _ _ _ E). reflexivity. }
  destruct (t =? ft_path_retire_connection_id) eqn:T2.
  { apply N.eqb_eq in T2. subst t. change (ft_path_retire_connection_id =? ft_bdp) with false.
    cbn [fst]. unfold decode_retire_connection_id in H. rewrite Hm in H. cbn [negb andb] in H.
    assert (Ha : agree (parse_retire_connection_id true) (skip_varints 3))
      by (unfold parse_retire_connection_id; ag).
    by_with H Ha. }
  destruct (t =? ft_bdp).
  { unfold decode_bdp in H.
    match type of H with (if ?c then _ else _) = _ => destruct c end; [discriminate|].
    match type of H with (if ?c then _ else _) = _ => destruct c end; [discriminate|].
    match type of H with (if ?c then _ else _) = _ => destruct c end; [discriminate|].
    cbn [fst]. by_with H agree_bdp. }
  destruct ((t =? ft_observed_address_v4) || (t =? ft_observed_address_v6)); [by_neg Had H (agree_observed t)|].
  discriminate.
Qed.

Lemma skip_agrees : forall S (h : handlers S) o epoch s b l s' rest,
  bytes_ok (b :: l) -> o_multipath o = true -> o_address_discovery o = true ->
  decode_one h o epoch s b l = Continue s' rest ->
  fst (skip_frame (b :: l)) = Ok rest.
Proof.
  intros S h o epoch s b l s' rest Hok Hm Had H. unfold decode_one in H. unfold skip_frame.
  pose proof (Forall_inv_tail Hok) as Hokl. change (Forall is_byte l) with (bytes_ok l) in Hokl.
  destruct (is_stream_type b).
  { match type of H with (if ?c then _ else _) = _ => destruct c end; [discriminate|].
    unfold decode_stream in H. cbn [fst].
    destruct (parse_stream b l) as [[[[[sid off] fin] d] r]|] eqn:E; [|discriminate].
    destruct (two62 <=? off + blen d); [discriminate|].
    apply deliver_continue in H. subst r. rewrite (stream_skip_agrees _ _ _ _ Hokl E). reflexivity. }
  destruct (b =? ft_ack).
  { destruct (epoch =? epoch_0rtt); [discriminate|]. eapply ack_skip_agrees; eassumption. }
  destruct (b =? ft_ack_ecn).
  { destruct (epoch =? epoch_0rtt); [discriminate|]. eapply ack_skip_agrees; eassumption. }
  match type of H with (if ?c then _ else _) = _ => destruct c end; [discriminate|].
  match type of H with (if ?c then _ else _) = _ => destruct c end; [discriminate|].
  unfold decode_by_type in H.
  destruct (b =? ft_padding); [apply deliver_continue in H; subst rest; reflexivity|].
  destruct (b =? ft_reset_stream); [cbn [fst]; by_with H agree_three|].
  destruct (b =? ft_connection_close).
  { cbn [fst].
    assert (Ha : agree (e <-- frames_varint_decode ;; _ <-- rskip frames_varint_skip ;;
                 _ <-- rskip frames_length_data_skip ;; rret e) (sbind (skip_varints 2) frames_length_data_skip)).
    { eapply agree_ext; [ag|]. intro x. cbn beta. unfold skip_varints, sbind.
      destruct (frames_varint_skip x) as [y|]; [|reflexivity].
      destruct (frames_varint_skip y) as [z|]; [|reflexivity].
      destruct (frames_length_data_skip z); reflexivity. }
    by_with H Ha. }
  destruct (b =? ft_application_close).
  { cbn [fst].
    assert (Ha : agree (e <-- frames_varint_decode ;; _ <-- rskip frames_length_data_skip ;; rret e)
                   (sbind frames_varint_skip frames_length_data_skip)).
    { eapply agree_ext; [ag|]. intro x. unfold sbind.
      destruct (frames_varint_skip x) as [z|]; [|reflexivity].
      destruct (frames_length_data_skip z); reflexivity. }
    by_with H Ha. }
  destruct (b =? ft_max_data); [cbn [fst]; by_with H agree_varint|].
  destruct (b =? ft_max_stream_data); [cbn [fst]; by_with H agree_two|].
  destruct ((b =? ft_max_streams_bidir) || (b =? ft_max_streams_unidir)); [cbn [fst]; by_with H agree_varint|].
  destruct (b =? ft_ping); [apply deliver_continue in H; subst rest; reflexivity|].
  destruct (b =? ft_data_blocked); [cbn [fst]; by_with H (agree_rskip frames_varint_skip)|].
  destruct (b =? ft_stream_data_blocked); [cbn [fst]; by_with H (agree_rskip (skip_varints 2))|].
  destruct ((b =? ft_streams_blocked_bidir) || (b =? ft_streams_blocked_unidir)); [cbn [fst]; by_with H agree_varint|].
  destruct (b =? ft_new_connection_id).
  { cbn [fst]. unfold decode_new_connection_id in H. cbn [negb andb] in H.
    destruct (parse_new_connection_id false (b :: l)) as [[[[[[p sq] rt] c] d] r]|] eqn:E; [|discriminate].
    destruct (sq <? rt); [discriminate|]. destruct (20 <? blen c); [discriminate|].
    apply deliver_continue in H. subst r. rewrite (new_cid_skip_agrees _ _ _ _ E). reflexivity. }
  destruct (b =? ft_stop_sending); [cbn [fst]; by_with H agree_two|].
  destruct (b =? ft_path_challenge); [unfold decode_path_challenge in H; cbn [fst]; by_with H agree_uint64|].
  destruct (b =? ft_path_response); [cbn [fst]; by_with H agree_uint64|].
  destruct (b =? ft_crypto_hs).
  { cbn [fst].
    assert (Ha : agree (off <-- frames_varint_decode ;; data <-- length_data ;; rret (off, data))
                   (sbind frames_varint_skip frames_length_data_skip)).
    { eapply agree_ext; [ag|]. intro x. unfold sbind.
      destruct (frames_varint_skip x) as [z|]; [|reflexivity].
      destruct (frames_length_data_skip z); reflexivity. }
    by_with H Ha. }
  destruct (b =? ft_new_token).
  { cbn [fst]. unfold decode_new_token in H.
    destruct (length_data l) as [[d r]|] eqn:E; [|discriminate].
    destruct (o_client o); [|discriminate]. apply deliver_continue in H. subst r.
    rewrite (agree_length_data _ _ _ E). reflexivity. }
  destruct (b =? ft_retire_connection_id) eqn:T.
  { cbn [fst]. unfold decode_retire_connection_id in H. cbn [negb andb] in H.
    assert (Ha : agree (parse_retire_connection_id false) (sbind frames_varint_skip frames_varint_skip)).
    { unfold parse_retire_connection_id. eapply agree_ext; [ag|]. intro x. unfold sbind.
      destruct (frames_varint_skip x) as [z|]; [|reflexivity].
      destruct (frames_varint_skip z); reflexivity. }
    pose proof (with_continue _ _ _ _ _ _ _ _ _ _ _ H Ha) as Hs.
    apply N.eqb_eq in T. subst b. unfold sbind in Hs.
    rewrite (frames_varint_skip_decode (_ :: _)), head_type_small in Hs by reflexivity.
    rewrite Hs. reflexivity. }
  destruct (b =? ft_handshake_done).
  { unfold decode_handshake_done in H. destruct (o_client o); [|discriminate].
    apply deliver_continue in H. subst rest. reflexivity. }
  destruct ((b =? ft_datagram) || (b =? ft_datagram_l)).
  { cbn [fst]. unfold decode_datagram in H. unfold skip_datagram_frame.
    destruct (N.land b 1 =? 0).
    - destruct (o_max_datagram o <? blen l); [discriminate|]. apply deliver_continue in H. subst rest. reflexivity.
    - destruct (frames_varint_decode l) as [[n l1]|]; [|discriminate].
      destruct (blen l1 <? n); [discriminate|]. cbn [orb] in H.
      destruct (o_max_datagram o <? n); [discriminate|]. apply deliver_continue in H. subst rest. reflexivity. }
  destruct (frames_varint_decode (b :: l)) as [[t l1]|] eqn:D; [|discriminate].
  eapply extension_agrees; eassumption.
Qed.
