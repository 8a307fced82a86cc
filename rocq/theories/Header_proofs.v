(** Proofs about packet headers. *)
From Verif Require Import Base Tac Varint_model Varint_spec Varint_proofs Mem Mem_proofs
  PacketNumber_model PacketNumber_proofs Header_model Header_spec.

(** * Small readers *)

Lemma u8_lt : forall n, u8 n < 256.
Proof. intro. unfold u8. apply N.mod_lt. discriminate. Qed.

Lemma format_32_be : forall n, format_32 n = be32 n.
Proof. intro n. unfold format_32, be32, u8. rewrite shiftr24, shiftr16, shiftr8. reflexivity. Qed.

Lemma dec_32 : forall v rest, v < 4294967296 -> frames_uint32_decode (format_32 v ++ rest) = Some (v, rest).
Proof.
  intros v rest H. unfold format_32. cbn [app]. unfold frames_uint32_decode.
  rewrite !lor_shiftl8 by apply u8_lt.
  rewrite lor_shiftl16.
  - f_equal. f_equal. unfold u8. rewrite shiftr24, shiftr16, shiftr8. lia.
  - pose proof (u8_lt (N.shiftr v 8)). pose proof (u8_lt v). lia.
Qed.

Lemma enc_16_first : forall n, n < 16384 -> varint_encode_16 n = [64 + n / 256; n mod 256].
Proof.
  intros n H. unfold varint_encode_16. f_equal. rewrite shiftr8.
  rewrite (lor_small (n / 256) 64 1) by lia.
  change 127 with (N.ones 7). rewrite N.land_ones. change (2 ^ 7) with 128. unfold u8. lia.
Qed.

Lemma dec_16_len : forall n rest, n < 16384 -> frames_varlen_decode (varint_encode_16 n ++ rest) = Some (n, rest).
Proof.
  intros n rest H. rewrite enc_16_first by exact H. cbn [app].
  unfold frames_varlen_decode, frames_varint_decode, frames_varint_decode_o.
  rewrite varint_len_eq, land63, !blen_cons.
  replace ((64 + n / 256) / 64 mod 4) with 1 by lia. replace ((64 + n / 256) mod 64) with (n / 256) by lia.
  change (2 ^ 1) with 2. destruct (N.leb_spec 2 (1 + (1 + blen rest))); [|lia].
  change (N.to_nat (2 - 1)) with 1%nat. cbn [be_loop]. rewrite shiftl8.
  unfold u64, two64. f_equal. f_equal. lia.
Qed.

Lemma dec_cid : forall cid rest, blen cid <= 20 -> cid_decode (blen cid :: cid ++ rest) = Some (cid, rest).
Proof.
  intros cid rest H. unfold cid_decode.
  destruct (N.ltb_spec 20 (blen cid)); [lia|]. rewrite blen_app.
  destruct (N.ltb_spec (blen cid + blen rest) (blen cid)); [lia|]. cbn [orb].
  unfold blen. rewrite Nat2N.id.
  rewrite firstn_app, firstn_all, Nat.sub_diag, firstn_O, app_nil_r.
  rewrite skipn_app, skipn_all, Nat.sub_diag. cbn [skipn app]. reflexivity.
Qed.

Lemma take_front : forall a b : list N, firstn (N.to_nat (blen a)) (a ++ b) = a.
Proof. intros. unfold blen. rewrite Nat2N.id, firstn_app, firstn_all, Nat.sub_diag, firstn_O, app_nil_r. reflexivity. Qed.

Lemma drop_front : forall a b : list N, skipn (N.to_nat (blen a)) (a ++ b) = b.
Proof. intros. unfold blen. rewrite Nat2N.id, skipn_app, skipn_all, Nat.sub_diag. reflexivity. Qed.

(** * Versions *)

Lemma version_entry_cases : forall P : N -> N * bool -> Prop,
  (forall i e, nth_error supported_versions i = Some e -> P (N.of_nat i) e) ->
  forall vi e, version_entry vi = Some e -> P vi e.
Proof.
  intros P H vi e E. unfold version_entry in E. rewrite <- (N2Nat.id vi). apply H. exact E.
Qed.

Ltac versions i H :=
  do 13 (destruct i as [|i]; [cbn in H; injection H as <- | cbn [nth_error] in H]); try (cbn in H; destruct i; discriminate).

Lemma version_index_entry : forall vi e, version_entry vi = Some e ->
  get_version_index (fst e) = Some vi /\ 0 < fst e < 4294967296.
Proof.
  apply version_entry_cases. intros i e H. unfold supported_versions in H.
  do 13 (destruct i as [|i]; [cbn in H; injection H as <-; split; [reflexivity|cbn; split; reflexivity]
    | cbn [nth_error] in H]). destruct i; discriminate.
Qed.

Lemma version_index_back : forall vn vi, get_version_index vn = Some vi ->
  exists e, version_entry vi = Some e /\ fst e = vn.
Proof.
  intros vn vi H. unfold get_version_index, supported_versions in H.
  do 13 (cbn [version_index_from] in H;
    match type of H with (if ?a =? vn then _ else _) = _ => destruct (N.eqb_spec a vn) as [<-|_] end;
    [injection H as <-; eexists; split; [vm_compute; reflexivity|reflexivity]|]).
  discriminate.
Qed.

(** * The first byte *)

(** A first byte in which all but the low four bits are those of the type. *)
Definition first_byte (v2 : bool) (pt : ptype) (q : bool) (low : N) : N :=
  128 + (if q then 64 else 0) + 16 * type_bits v2 pt + low.

Definition long_type (pt : ptype) : Prop := numbered pt \/ pt = PtRetry.

Lemma low_case : forall low, low < 16 -> In low [0;1;2;3;4;5;6;7;8;9;10;11;12;13;14;15].
Proof. intros low H. cbn [In]. lia. Qed.

Lemma created_first : forall pt vi e grease, long_type pt -> version_entry vi = Some e ->
  exists low, low < 4 /\ (numbered pt -> low = 3) /\
    create_long_packet_type pt (Some vi) = Some (first_byte (snd e) pt true low) /\
    (if grease : bool then N.land (first_byte (snd e) pt true low) 191 else first_byte (snd e) pt true low) =
    first_byte (snd e) pt (negb grease) low.
Proof.
  intros pt vi [v b] grease Hp Hv. unfold create_long_packet_type. rewrite Hv.
  destruct Hp as [[-> |[-> | ->]] | ->]; destruct b, grease;
  first [exists 3; repeat split; reflexivity | exists 0; repeat split; try reflexivity].
  all: intros [H|[H|H]]; discriminate.
Qed.

Lemma first_parsed : forall pt vi e q low, long_type pt -> version_entry vi = Some e -> low < 16 ->
  parse_long_packet_type (first_byte (snd e) pt q low) vi = Some pt /\
  N.land (first_byte (snd e) pt q low) 128 = 128 /\
  (N.land (first_byte (snd e) pt q low) 64 =? 0) = negb q /\
  first_byte (snd e) pt q low < 256.
Proof.
  intros pt vi [v b] q low Hp Hv Hl. unfold parse_long_packet_type. rewrite Hv.
  apply low_case in Hl. cbn [In] in Hl.
  destruct Hp as [[-> |[-> | ->]] | ->]; destruct b, q;
  repeat (destruct Hl as [<-|Hl]; [repeat split; reflexivity|]); destruct Hl.
Qed.

(** * Long headers *)

Definition token_part (pt : ptype) (token : list N) : list N :=
  if ptype_eqb pt PtInitial then varint_bytes (blen token) ++ token else [].

Definition long_head (first vn : N) (dcid scid : list N) (pt : ptype) (token : list N) : list N :=
  first :: format_32 vn ++ [blen dcid] ++ dcid ++ [blen scid] ++ scid ++ token_part pt token.

Lemma blen_long_head : forall first vn dcid scid pt token,
  blen (long_head first vn dcid scid pt token) = 7 + blen dcid + blen scid + blen (token_part pt token).
Proof.
  intros. unfold long_head. rewrite blen_cons, !blen_app. change (blen (format_32 vn)) with 4.
  change (blen [blen dcid]) with 1. change (blen [blen scid]) with 1. lia.
Qed.

Lemma u8_small : forall n, n <= 20 -> u8 n = n.
Proof. intros. unfold u8. lia. Qed.

Lemma create_long_eq : forall pt dcid scid grease vn vi e seq token room,
  long_type pt -> version_entry vi = Some e -> blen dcid <= 20 -> blen scid <= 20 ->
  exists low, low < 4 /\ (numbered pt -> low = 3) /\
  let h := long_head (first_byte (snd e) pt (negb grease) low) vn dcid scid pt token in
  create_long_header pt dcid scid grease vn (Some vi) seq token room =
  if ptype_eqb pt PtRetry then (if room <? blen h then None else Some (h, 0, 0))
  else if room <? blen h + 6 then None else Some (h ++ [0; 0] ++ format_32 (u32 seq), blen h + 2, 4).
Proof.
  intros pt dcid scid grease vn vi e seq token room Hp Hv Hd Hs.
  destruct (created_first pt vi e grease Hp Hv) as (low & Hl & Hn & Ht & Hf).
  exists low. split; [exact Hl|]. split; [exact Hn|]. cbv zeta.
  unfold create_long_header. rewrite Ht. cbn [obind]. rewrite Hf.
  set (f := first_byte (snd e) pt (negb grease) low).
  rewrite (u8_small (blen dcid)), (u8_small (blen scid)) by assumption.
  unfold format_cid.
  assert (E1 : blen (f :: format_32 vn ++ [blen dcid]) = 6) by reflexivity. rewrite E1.
  destruct (N.ltb_spec (1536 - 6) (blen dcid)); [lia|].
  assert (E2 : blen ((f :: format_32 vn ++ [blen dcid]) ++ dcid ++ [blen scid]) = 7 + blen dcid).
  { rewrite !blen_app, E1. change (blen [blen scid]) with 1. lia. }
  rewrite E2. destruct (N.ltb_spec (1536 - (7 + blen dcid)) (blen scid)); [lia|].
  set (h3 := ((f :: format_32 vn ++ [blen dcid]) ++ dcid ++ [blen scid]) ++ scid).
  assert (E3 : blen h3 = 7 + blen dcid + blen scid) by (unfold h3; rewrite blen_app, E2; lia).
  assert (E4 : (if ptype_eqb pt PtInitial then h3 ++ varint_encode (1536 - blen h3) (blen token) ++ token else h3) =
               long_head f vn dcid scid pt token).
  { unfold long_head, token_part. destruct (ptype_eqb pt PtInitial).
    - rewrite varint_encode_eq, E3. pose proof (encode_varint_length_pos (blen token)) as Hp'.
      destruct (N.leb_spec (encode_varint_length (blen token)) (1536 - (7 + blen dcid + blen scid))); [|lia].
      unfold h3. rewrite <- !app_assoc. cbn [app]. rewrite <- !app_assoc. reflexivity.
    - unfold h3. rewrite <- !app_assoc. cbn [app]. rewrite <- !app_assoc. cbn [app]. rewrite app_nil_r. reflexivity. }
  rewrite E4. destruct (ptype_eqb pt PtRetry).
  - cbn [fst]. reflexivity.
  - cbn [fst]. rewrite !blen_app. change (blen [0; 0]) with 2. change (blen (format_32 (u32 seq))) with 4.
    replace (blen (long_head f vn dcid scid pt token) + (2 + 4)) with (blen (long_head f vn dcid scid pt token) + 6) by lia.
    reflexivity.
Qed.

Lemma parse_long_eq : forall lk cnx v2 vi vn pt q low dcid scid token n body rest,
  version_entry vi = Some (vn, v2) -> numbered pt -> low < 16 -> blen dcid <= 20 -> blen scid <= 20 ->
  blen token < two62 -> n < 16384 -> blen body = n ->
  let h := long_head (first_byte v2 pt q low) vn dcid scid pt token ++ varint_encode_16 n in
  let found := or_find cnx (find_long lk pt dcid) in
  parse_long lk (h ++ body ++ rest) cnx =
  Some (POk (mk_ph (if fixed_bit_ok q found then pt else PtError) vn (Some vi) dcid scid
               (if ptype_eqb pt PtInitial then token else []) (blen h) (blen h) n n (epoch_of pt) (space_of pt)
               false false false false false false (negb q)) found).
Proof.
  intros lk cnx v2 vi vn pt q low dcid scid token n body rest Hv Hn Hl Hd Hs Ht Hn16 Hb. cbv zeta.
  assert (Hlt : long_type pt) by (left; exact Hn).
  destruct (first_parsed pt vi (vn, v2) q low Hlt Hv Hl) as (Hpt & _ & Hq & _). cbn [snd] in Hpt, Hq.
  set (f := first_byte v2 pt q low) in *.
  set (P := (long_head f vn dcid scid pt token ++ varint_encode_16 n) ++ body ++ rest).
  assert (EP : P = f :: format_32 vn ++ blen dcid :: dcid ++ blen scid :: scid ++ token_part pt token ++
               varint_encode_16 n ++ body ++ rest).
  { unfold P, long_head. rewrite <- !app_assoc. cbn [app]. rewrite <- !app_assoc. cbn [app]. rewrite <- !app_assoc.
    cbn [app]. rewrite <- !app_assoc. reflexivity. }
  set (L := blen P).
  assert (EL : L = 7 + blen dcid + blen scid + blen (token_part pt token) + 2 + n + blen rest).
  { unfold L, P. rewrite !blen_app, blen_long_head. change (blen (varint_encode_16 n)) with 2. lia. }
  assert (EH : blen (long_head f vn dcid scid pt token ++ varint_encode_16 n) =
               7 + blen dcid + blen scid + blen (token_part pt token) + 2).
  { rewrite blen_app, blen_long_head. change (blen (varint_encode_16 n)) with 2. lia. }
  rewrite EH. clear EH.
  unfold parse_long. fold P. fold L. clearbody L. rewrite EP. cbn [frames_uint8_decode].
  destruct (version_index_entry vi (vn, v2) Hv) as [Hvi Hvn]. cbn [fst] in Hvi, Hvn.
  rewrite dec_32 by lia. rewrite Hvi. destruct (N.eqb_spec vn 0); [lia|].
  rewrite dec_cid by exact Hd. rewrite dec_cid by exact Hs. rewrite Hpt. cbn [obind]. rewrite Hq.
  assert (Hlen : forall x : list N, blen (varint_encode_16 n ++ x) = 2 + blen x) by (intro; rewrite blen_app; reflexivity).
  destruct Hn as [-> |[-> | ->]]; unfold token_part in *; cbn [ptype_eqb app] in EL |- *.
  - rewrite <- app_assoc. change (frames_varlen_decode (varint_bytes (blen token) ++ token ++ varint_encode_16 n ++ body ++ rest))
      with (frames_varint_decode (varint_bytes (blen token) ++ token ++ varint_encode_16 n ++ body ++ rest)).
    rewrite frames_varint_decode_bytes by exact Ht.
    destruct (N.ltb_spec (blen (token ++ varint_encode_16 n ++ body ++ rest)) (blen token)) as [H|_];
      [rewrite blen_app in H; lia|].
    rewrite take_front, drop_front. cbn beta iota zeta. rewrite dec_16_len by exact Hn16.
    destruct (N.ltb_spec (blen (body ++ rest)) n) as [H|_]; [rewrite blen_app in H; lia|].
    cbn [ptype_eqb]. cbn beta iota zeta.
    replace (L - blen (body ++ rest)) with (7 + blen dcid + blen scid + blen (varint_bytes (blen token) ++ token) + 2)
      by (rewrite (blen_app body); lia).
    replace (u16 n) with n by (unfold u16; lia).
    unfold fixed_bit_ok. destruct q, (or_find cnx (find_long lk PtInitial dcid)) as [c|]; cbn [negb andb orb];
      try reflexivity; destruct (cd_grease c); reflexivity.
  - cbn beta iota zeta. rewrite dec_16_len by exact Hn16.
    destruct (N.ltb_spec (blen (body ++ rest)) n) as [H|_]; [rewrite blen_app in H; lia|].
    cbn [ptype_eqb]. cbn beta iota zeta.
    replace (L - blen (body ++ rest)) with (7 + blen dcid + blen scid + blen [] + 2)
      by (rewrite (blen_app body); lia).
    replace (u16 n) with n by (unfold u16; lia).
    unfold fixed_bit_ok. destruct q, (or_find cnx (find_long lk Pt0rtt dcid)) as [c|]; cbn [negb andb orb];
      try reflexivity; destruct (cd_grease c); reflexivity.
  - cbn beta iota zeta. rewrite dec_16_len by exact Hn16.
    destruct (N.ltb_spec (blen (body ++ rest)) n) as [H|_]; [rewrite blen_app in H; lia|].
    cbn [ptype_eqb]. cbn beta iota zeta.
    replace (L - blen (body ++ rest)) with (7 + blen dcid + blen scid + blen [] + 2)
      by (rewrite (blen_app body); lia).
    replace (u16 n) with n by (unfold u16; lia).
    unfold fixed_bit_ok. destruct q, (or_find cnx (find_long lk PtHandshake dcid)) as [c|]; cbn [negb andb orb];
      try reflexivity; destruct (cd_grease c); reflexivity.
Qed.
