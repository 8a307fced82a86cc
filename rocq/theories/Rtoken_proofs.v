(** Proofs about the address validation tokens of a server. *)
From Verif Require Import Base Tac Varint_model Varint_spec Varint_proofs Mem Mem_proofs Header_model Header_proofs
  Frames5_proofs Rtoken_model Rtoken_spec.

(** * Reading *)

Lemma parse_64_value : forall l, bytes_ok l -> 8 <= blen l -> parse_64 l = Some (be_value (firstn 8 l)).
Proof.
  intros l Hb Hl.
  destruct l as [|b0 [|b1 [|b2 [|b3 [|b4 [|b5 [|b6 [|b7 r]]]]]]]];
    try (exfalso; unfold blen in Hl; cbn [length] in Hl; lia).
  unfold parse_64, frames_uint64_decode, frames_uint32_decode. cbv beta iota zeta.
  unfold bytes_ok in Hb. repeat match goal with H : Forall _ (_ :: _) |- _ => inversion_clear H end.
  unfold is_byte in *. cbn [firstn]. unfold be_value. cbn [fold_left].
  rewrite !lor_shiftl8 by assumption. rewrite !lor_shiftl16 by lia. rewrite lor_shiftl32 by lia.
  f_equal. lia.
Qed.

Lemma skip8_app : forall (n r : list N), blen n = 8 -> skipn 8 (n ++ r) = r.
Proof.
  intros n r H. rewrite <- (drop_front n r) at 2. rewrite H. reflexivity.
Qed.

Lemma first8_app : forall (n r : list N), blen n = 8 -> firstn 8 (n ++ r) = n.
Proof.
  intros n r H. rewrite <- (take_front n r) at 2. rewrite H. reflexivity.
Qed.

(** * What is issued *)

Definition clear_text (time : N) (odcid rcid : list N) (pn : N) : list N :=
  format_64 (expiry time odcid) ++ (blen odcid :: odcid ++ (blen rcid :: rcid ++ varint_bytes pn)).

Lemma cid_encode_eq : forall cid room, blen cid <= 20 -> 21 <= room -> frames_cid_encode cid room = Some (blen cid :: cid).
Proof.
  intros cid room H Hr. unfold frames_cid_encode, frames_length_data_encode, wseq, frames_varint_encode, put_bytes.
  unfold varint_bytes, encode_varint_length.
  destruct (N.ltb_spec (blen cid) 16384); [|lia]. destruct (N.ltb_spec (blen cid) 64); [|lia].
  match goal with |- context[if ?c then _ else _] => destruct c eqn:E end; [| apply N.leb_gt in E; lia].
  change (blen [u8 (blen cid)]) with 1. destruct (N.leb_spec (blen cid) (room - 1)); [|lia].
  f_equal. cbn [app]. unfold u8. rewrite N.mod_small by lia. reflexivity.
Qed.

Lemma varint_len_8 : forall n, blen (varint_bytes n) <= 8.
Proof.
  intro n. rewrite varint_bytes_length. unfold encode_varint_length.
  destruct (n <? 16384); [destruct (n <? 64)|destruct (n <? 1073741824)]; lia.
Qed.

Lemma varint_write_eq : forall n room, 8 <= room -> frames_varint_encode n room = Some (varint_bytes n).
Proof.
  intros n room H. unfold frames_varint_encode. pose proof (varint_len_8 n) as L. rewrite varint_bytes_length in L.
  unfold encode_varint_length in L.
  destruct (n <? 16384); [destruct (n <? 64)|destruct (n <? 1073741824)];
    match goal with |- context[?a <=? room] => destruct (N.leb_spec a room); [reflexivity|lia] end.
Qed.

Lemma format_64_len : forall n, blen (format_64 n) = 8.
Proof. reflexivity. Qed.

Lemma expiry_eq : forall time odcid, expiry time odcid < two64 ->
  u64 (time + (if blen odcid =? 0 then 86400000000 else 4000000)) = expiry time odcid.
Proof.
  intros time odcid H. unfold expiry in *. destruct odcid as [|x r].
  - change (blen [] =? 0) with true. change (24 * 3600 * 1000000) with 86400000000 in *. unfold u64. apply N.mod_small, H.
  - replace (blen (x :: r) =? 0) with false by (symmetry; apply N.eqb_neq; rewrite blen_cons; lia).
    change (4 * 1000000) with 4000000 in *. unfold u64. apply N.mod_small, H.
Qed.

Lemma retry_text_eq : forall time odcid rcid pn, blen odcid <= 20 -> blen rcid <= 20 -> expiry time odcid < two64 ->
  exists pad, retry_text time odcid rcid pn = Some (clear_text time odcid rcid pn ++ pad) /\
    blen (clear_text time odcid rcid pn ++ pad) <= 58.
Proof.
  intros time odcid rcid pn Ho Hr He. unfold retry_text. rewrite expiry_eq by exact He.
  unfold wseq. unfold frames_uint64_encode. change (128 <? 8) with false. cbv iota beta.
  rewrite format_64_len. change (128 - 8) with 120.
  rewrite cid_encode_eq by lia. rewrite cid_encode_eq by (rewrite ?blen_cons; lia).
  rewrite varint_write_eq by (rewrite ?blen_cons; lia). cbv iota beta.
  eexists. split.
  - reflexivity.
  - rewrite blen_app. unfold mem_fill. unfold blen at 2. rewrite repeat_length, N2Nat.id.
    pose proof (varint_len_8 pn) as L.
    set (ct := format_64 (expiry time odcid) ++ _). assert (C : ct = clear_text time odcid rcid pn).
    { subst ct. unfold clear_text. cbn [app]. rewrite <- ?app_assoc. reflexivity. }
    rewrite C. assert (blen (clear_text time odcid rcid pn) <= 58).
    { unfold clear_text. rewrite !blen_app, format_64_len, !blen_cons, !blen_app, !blen_cons, blen_app. lia. }
    lia.
Qed.

(** * What is read *)

Lemma clear_text_read : forall time odcid rcid pn pad, blen odcid <= 20 -> blen rcid <= 20 -> pn < 4294967296 ->
  expiry time odcid < two64 ->
  exists r1 r2 r3 r4, frames_uint64_decode (clear_text time odcid rcid pn ++ pad) = Some (expiry time odcid, r1) /\
    cid_decode r1 = Some (odcid, r2) /\ r2 <> [] /\ cid_decode r2 = Some (rcid, r3) /\
    frames_varint_decode r3 = Some (pn, r4).
Proof.
  intros time odcid rcid pn pad Ho Hr Hp He. unfold clear_text.
  do 4 eexists. split; [rewrite <- app_assoc; apply dec_64; exact He|].
  split; [cbn [app]; rewrite <- app_assoc; apply dec_cid; exact Ho|].
  split; [discriminate|].
  split; [cbn [app]; rewrite <- app_assoc; apply dec_cid; exact Hr|].
  apply frames_varint_decode_bytes. unfold two62. lia.
Qed.

(** The shape of an issued token. *)
Lemma issued_shape : forall ae addr time odcid rcid pn token, aead_ok ae ->
  issued ae addr time odcid rcid pn token ->
  exists nonce text, token = nonce ++ ae_enc ae (be_value nonce) addr text /\ blen nonce = 8 /\ bytes_ok nonce /\
    negb (N.land (nth 0 nonce 0) 128 =? 0) = (match odcid with [] => true | _ => false end) /\
    (exists pad, text = clear_text time odcid rcid pn ++ pad) /\ blen text <= 58.
Proof.
  intros ae addr time odcid rcid pn token [Hl Hd] ((rnd & Hn & Hb & HP) & Ho & Hr & Hp & He).
  unfold prepare_retry_token in HP. destruct (retry_text_eq time odcid rcid pn Ho Hr He) as (pad & HT & HL).
  rewrite HT in HP. unfold encrypt_retry_token in HP.
  destruct (N.ltb_spec 256 (blen (clear_text time odcid rcid pn ++ pad) + 1 + 16)); [lia|].
  destruct rnd as [|r0 r]; [discriminate|]. cbv zeta in HP.
  set (nonce := (if blen odcid =? 0 then N.lor r0 128 else N.land r0 127) :: r) in *.
  inversion Hb as [|? ? H0 Hr']; subst.
  assert (Bn : bytes_ok nonce).
  { constructor; [|exact Hr']. unfold is_byte in *. destruct (blen odcid =? 0).
    - assert (P : 0 < N.lor r0 128).
      { destruct (N.eq_dec (N.lor r0 128) 0) as [E|E]; [apply N.lor_eq_0_iff in E; lia|lia]. }
      change 256 with (2 ^ 8). apply N.log2_lt_pow2; [exact P|]. rewrite N.log2_lor. change (N.log2 128) with 7.
      apply N.max_lub_lt; [|lia]. destruct (N.eq_dec r0 0) as [->|]; [cbn; lia|].
      apply N.log2_lt_pow2; [lia|]. change (2 ^ 8) with 256. exact H0.
    - change 127 with (N.ones 7). rewrite N.land_ones. change (2 ^ 7) with 128. lia. }
  assert (Ln : blen nonce = 8) by (unfold nonce; rewrite blen_cons in *; exact Hn).
  rewrite (parse_64_value nonce Bn) in HP by lia.
  cbn [obind] in HP.
  replace (firstn 8 nonce) with nonce in HP by (symmetry; rewrite <- (app_nil_r nonce) at 1; apply first8_app, Ln).
  match type of HP with (if ?c then _ else _) = _ => destruct c; [discriminate|] end.
  apply some_inj in HP. apply some_inj in HP.
  exists nonce, (clear_text time odcid rcid pn ++ pad). split; [symmetry; exact HP|].
  split; [exact Ln|]. split; [exact Bn|]. split; [|split; [exists pad; reflexivity|exact HL]].
  unfold nonce. cbn [nth]. destruct odcid as [|x y].
  - change (blen [] =? 0) with true. cbv iota.
    rewrite N.land_lor_distr_l. change (N.land 128 128) with 128.
    destruct (N.lor (N.land r0 128) 128 =? 0) eqn:E; [|reflexivity].
    apply N.eqb_eq in E. apply N.lor_eq_0_iff in E. lia.
  - replace (blen (x :: y) =? 0) with false by (symmetry; apply N.eqb_neq; rewrite blen_cons; lia).
    rewrite <- N.land_assoc. change (N.land 127 128) with 0. rewrite N.land_0_r. reflexivity.
Qed.

(** Decryption of an issued token. *)
Lemma issued_decrypts : forall ae addr time odcid rcid pn token, aead_ok ae -> bytes_ok token ->
  issued ae addr time odcid rcid pn token ->
  blen token <= 128 /\ 8 <= blen token /\
  exists pad, decrypt_retry_token ae addr token =
    Some (match odcid with [] => true | _ => false end, Some (clear_text time odcid rcid pn ++ pad)).
Proof.
  intros ae addr time odcid rcid pn token Hok Hb HI.
  destruct (issued_shape _ _ _ _ _ _ _ Hok HI) as (nonce & text & -> & Ln & Bn & Hnew & (pad & ->) & HL).
  destruct Hok as [Hlen Hdec].
  rewrite blen_app, Ln, Hlen. split; [lia|]. split; [lia|]. exists pad.
  unfold decrypt_retry_token. rewrite blen_app, Ln, Hlen.
  destruct (N.ltb_spec (8 + (blen (clear_text time odcid rcid pn ++ pad) + 16)) 8); [lia|].
  destruct nonce as [|n0 nr]; [discriminate Ln|].
  change (mem_get 0 ((n0 :: nr) ++ _)) with (Some n0). cbn [obind].
  rewrite parse_64_value; [|exact Hb|rewrite blen_app, Ln; lia]. cbn [obind].
  rewrite first8_app, skip8_app by exact Ln. cbv zeta. rewrite Hdec, Hlen.
  match goal with |- context[if ?a <=? ?b then _ else _] => destruct (N.leb_spec a b) as [HH|_] end;
    [exfalso; clear - HH; lia|].
  cbn [nth] in Hnew. rewrite Hnew. reflexivity.
Qed.

Lemma last8_parse : forall token, bytes_ok token -> 8 <= blen token ->
  parse_64 (skipn (length token - 8) token) = Some (last8 token).
Proof.
  intros token Hb Hl. unfold last8.
  assert (L : length (skipn (length token - 8) token) = 8%nat).
  { rewrite skipn_length. unfold blen in Hl. lia. }
  assert (B : bytes_ok (skipn (length token - 8) token)).
  { unfold bytes_ok in *. rewrite Forall_forall in *. intros x Hx. apply Hb.
    rewrite <- (firstn_skipn (length token - 8) token). apply in_or_app. right. exact Hx. }
  rewrite (parse_64_value _ B) by (unfold blen; rewrite L; lia).
  rewrite firstn_all2 by (rewrite L; lia). reflexivity.
Qed.

(** * The table *)

Lemma reg_eq_spec : forall a b, reg_eq a b = true <-> a = b.
Proof.
  intros [a b] [c d]. unfold reg_eq. cbn [fst snd]. rewrite andb_true_iff, !N.eqb_eq.
  split; [intros [-> ->]; reflexivity|intros [= -> ->]; split; reflexivity].
Qed.

Lemma registered_spec : forall x reg, existsb (reg_eq x) reg = true <-> In x reg.
Proof.
  intros x reg. rewrite existsb_exists. split.
  - intros (y & Hy & E). apply reg_eq_spec in E. subst. exact Hy.
  - intro H. exists x. split; [exact H|]. apply reg_eq_spec. reflexivity.
Qed.

Lemma insert_in : forall x y reg, In y (reg_insert x reg) <-> y = x \/ In y reg.
Proof.
  intros x y reg. induction reg as [|z r IH]; cbn [reg_insert In].
  - intuition.
  - destruct (reg_lt x z); cbn [In]; [intuition|rewrite IH; intuition].
Qed.

Lemma clear_keeps : forall limit x reg, In x reg -> limit <= fst x -> In x (reg_clear limit reg).
Proof.
  intros limit x reg. induction reg as [|[t h] r IH]; intros HI HL; [exact HI|].
  cbn [reg_clear]. destruct (N.leb_spec limit t); [exact HI|].
  destruct HI as [<-|HI]; [cbn [fst] in HL; lia|apply IH; assumption].
Qed.

Lemma clear_sub : forall limit x reg, In x (reg_clear limit reg) -> In x reg.
Proof.
  intros limit x reg. induction reg as [|[t h] r IH]; intros HI; [exact HI|].
  cbn [reg_clear] in HI. destruct (N.leb_spec limit t); [exact HI|]. right. apply IH, HI.
Qed.

(** Sorted tables. *)
Fixpoint reg_sorted (reg : registry) : Prop :=
  match reg with
  | [] => True
  | x :: r => (forall y, In y r -> reg_lt x y = true) /\ reg_sorted r
  end.

Lemma reg_lt_trans : forall a b c, reg_lt a b = true -> reg_lt b c = true -> reg_lt a c = true.
Proof.
  intros [a1 a2] [b1 b2] [c1 c2]. unfold reg_lt. cbn [fst snd].
  rewrite !orb_true_iff, !andb_true_iff, !N.ltb_lt, !N.eqb_eq. lia.
Qed.

Lemma reg_lt_total : forall a b, reg_lt a b = false -> reg_eq a b = false -> reg_lt b a = true.
Proof.
  intros [a1 a2] [b1 b2]. unfold reg_lt, reg_eq. cbn [fst snd].
  rewrite !orb_false_iff, !andb_false_iff, !orb_true_iff, !andb_true_iff, !N.ltb_lt, !N.ltb_ge, !N.eqb_eq, !N.eqb_neq. lia.
Qed.

Lemma insert_sorted : forall x reg, reg_sorted reg -> existsb (reg_eq x) reg = false -> reg_sorted (reg_insert x reg).
Proof.
  intros x reg. induction reg as [|y r IH]; intros HS HE.
  - cbn. split; [intros ? []|exact I].
  - cbn [existsb] in HE. apply orb_false_iff in HE. destruct HE as [E1 E2].
    destruct HS as [H1 H2]. cbn [reg_insert]. destruct (reg_lt x y) eqn:E.
    + split; [|split; assumption]. intros z [<-|Hz]; [exact E|]. apply (reg_lt_trans x y z E (H1 z Hz)).
    + split; [|apply IH; assumption]. intros z Hz. apply insert_in in Hz. destruct Hz as [->|Hz].
      * apply reg_lt_total; assumption.
      * apply H1, Hz.
Qed.

Lemma clear_sorted : forall limit reg, reg_sorted reg -> reg_sorted (reg_clear limit reg).
Proof.
  intros limit reg. induction reg as [|[t h] r IH]; intro HS; [exact HS|].
  cbn [reg_clear]. destruct (limit <=? t); [exact HS|]. apply IH, HS.
Qed.

Lemma clear_old : forall limit reg, reg_sorted reg -> forall x, In x (reg_clear limit reg) -> limit <= fst x.
Proof.
  intros limit reg. induction reg as [|[t h] r IH]; intros HS x HI; [destruct HI|].
  cbn [reg_clear] in HI. destruct (N.leb_spec limit t).
  - destruct HI as [<-|HI]; [exact H|]. destruct HS as [HS _]. specialize (HS x HI).
    unfold reg_lt in HS. cbn [fst snd] in HS. rewrite orb_true_iff, andb_true_iff, !N.ltb_lt, N.eqb_eq in HS. lia.
  - apply IH; [apply HS|exact HI].
Qed.
