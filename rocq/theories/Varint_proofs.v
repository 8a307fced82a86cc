(** Lemmas about the integer codecs. *)
From Verif Require Import Base Tac Varint_model Varint_spec.

Lemma shiftr8 : forall n, N.shiftr n 8 = n / 256.
Proof. intro; rewrite N.shiftr_div_pow2; reflexivity. Qed.
Lemma shiftr16 : forall n, N.shiftr n 16 = n / 65536.
Proof. intro; rewrite N.shiftr_div_pow2; reflexivity. Qed.
Lemma shiftr24 : forall n, N.shiftr n 24 = n / 16777216.
Proof. intro; rewrite N.shiftr_div_pow2; reflexivity. Qed.
Lemma shiftr32 : forall n, N.shiftr n 32 = n / 4294967296.
Proof. intro; rewrite N.shiftr_div_pow2; reflexivity. Qed.
Lemma shiftr40 : forall n, N.shiftr n 40 = n / 1099511627776.
Proof. intro; rewrite N.shiftr_div_pow2; reflexivity. Qed.
Lemma shiftr48 : forall n, N.shiftr n 48 = n / 281474976710656.
Proof. intro; rewrite N.shiftr_div_pow2; reflexivity. Qed.
Lemma shiftr56 : forall n, N.shiftr n 56 = n / 72057594037927936.
Proof. intro; rewrite N.shiftr_div_pow2; reflexivity. Qed.
Lemma shiftl8 : forall n, N.shiftl n 8 = n * 256.
Proof. intro; rewrite N.shiftl_mul_pow2; reflexivity. Qed.
Lemma shiftl16 : forall n, N.shiftl n 16 = n * 65536.
Proof. intro; rewrite N.shiftl_mul_pow2; reflexivity. Qed.
Lemma shiftl32 : forall n, N.shiftl n 32 = n * 4294967296.
Proof. intro; rewrite N.shiftl_mul_pow2; reflexivity. Qed.

(** or of a multiple of 2^k with a value below 2^k is the sum *)
Lemma lor_add_pow2 : forall a b k, b < 2 ^ k -> N.lor (a * 2 ^ k) b = a * 2 ^ k + b.
Proof.
  intros a b k Hb.
  assert (Hl : N.land (a * 2 ^ k) b = 0).
  { apply N.bits_inj. intro i. rewrite N.land_spec, N.bits_0.
    destruct (N.lt_ge_cases i k) as [Hi|Hi].
    - rewrite N.mul_pow2_bits_low by exact Hi. reflexivity.
    - assert (Hb0 : N.testbit b i = false).
      { destruct (N.eq_dec b 0) as [->|Hnz]; [apply N.bits_0|].
        apply N.bits_above_log2. apply N.log2_lt_pow2; [lia|].
        eapply N.lt_le_trans; [exact Hb|]. apply N.pow_le_mono_r; lia. }
      rewrite Hb0. apply andb_false_r. }
  rewrite N.add_nocarry_lxor by exact Hl. rewrite N.lxor_lor by exact Hl. reflexivity.
Qed.

Lemma lor_shiftl8 : forall a b, b < 256 -> N.lor (N.shiftl a 8) b = a * 256 + b.
Proof. intros; rewrite N.shiftl_mul_pow2; apply (lor_add_pow2 a b 8); assumption. Qed.
Lemma lor_shiftl16 : forall a b, b < 65536 -> N.lor (N.shiftl a 16) b = a * 65536 + b.
Proof. intros; rewrite N.shiftl_mul_pow2; apply (lor_add_pow2 a b 16); assumption. Qed.
Lemma lor_shiftl32 : forall a b, b < 4294967296 -> N.lor (N.shiftl a 32) b = a * 4294967296 + b.
Proof. intros; rewrite N.shiftl_mul_pow2; apply (lor_add_pow2 a b 32); assumption. Qed.

Lemma lor_small : forall a k c, a < 64 -> k = 64 * c -> N.lor a k = a + k.
Proof.
  intros a k c Ha ->. rewrite N.lor_comm. rewrite N.mul_comm.
  change 64 with (2 ^ 6) at 1. rewrite lor_add_pow2 by exact Ha.
  change (2 ^ 6) with 64. lia.
Qed.

Lemma land63 : forall b, N.land b 63 = b mod 64.
Proof. intro. change 63 with (N.ones 6). rewrite N.land_ones. reflexivity. Qed.

Lemma land3 : forall b, N.land b 3 = b mod 4.
Proof. intro. change 3 with (N.ones 2). rewrite N.land_ones. reflexivity. Qed.

Lemma shiftr6 : forall n, N.shiftr n 6 = n / 64.
Proof. intro; rewrite N.shiftr_div_pow2; reflexivity. Qed.

Lemma varint_len_eq : forall b, varint_len b = 2 ^ ((b / 64) mod 4).
Proof.
  intro b. unfold varint_len. rewrite land3, shiftr6, N.shiftl_mul_pow2. lia.
Qed.

Lemma varint_len_cases : forall b,
  varint_len b = 1 \/ varint_len b = 2 \/ varint_len b = 4 \/ varint_len b = 8.
Proof.
  intro b. rewrite varint_len_eq.
  assert (H : (b / 64) mod 4 < 4) by (apply N.mod_lt; discriminate).
  remember ((b / 64) mod 4) as q.
  assert (q = 0 \/ q = 1 \/ q = 2 \/ q = 3) as [->|[->|[-> | ->]]] by lia; cbn; auto.
Qed.

Lemma decode_varint_length_eq : forall b, b < 256 ->
  decode_varint_length b = varint_len b.
Proof.
  intros b Hb. unfold decode_varint_length, varint_len. f_equal.
  apply N.bits_inj. intro i.
  rewrite N.shiftr_spec', !N.land_spec, N.shiftr_spec'.
  destruct (N.lt_ge_cases i 2) as [Hi|Hi].
  - assert (i = 0 \/ i = 1) as [-> | ->] by lia; reflexivity.
  - assert (H1 : N.testbit b (i + 6) = false).
    { destruct (N.eq_dec b 0) as [->|Hnz]; [apply N.bits_0|].
      apply N.bits_above_log2. apply N.log2_lt_pow2; [lia|].
      eapply N.lt_le_trans; [exact Hb|]. change 256 with (2^8).
      apply N.pow_le_mono_r; lia. }
    rewrite H1. reflexivity.
Qed.

(** ** Length bookkeeping *)
Lemma blen_app : forall a b, blen (a ++ b) = blen a + blen b.
Proof. intros. unfold blen. rewrite app_length. lia. Qed.
Lemma blen_cons : forall a b, blen (a :: b) = 1 + blen b.
Proof. intros. unfold blen. cbn [length]. lia. Qed.
Lemma blen_nil : blen [] = 0.
Proof. reflexivity. Qed.

(** ** The accumulation loop *)
Lemma be_loop_some : forall k v l, (k <= length l)%nat ->
  exists v', be_loop k v l = Some (v', skipn k l).
Proof.
  induction k as [|k IH]; intros v l Hk.
  - exists v. reflexivity.
  - destruct l as [|b l]; cbn [length] in Hk; [lia|].
    cbn [be_loop skipn]. apply IH. lia.
Qed.

Lemma be_loop_bound : forall k v l v' l', be_loop k v l = Some (v', l') ->
  v < two64 -> v' < two64.
Proof.
  induction k as [|k IH]; intros v l v' l' H Hv; cbn [be_loop] in H.
  - inversion H; subst; exact Hv.
  - destruct l as [|b l]; [discriminate|].
    eapply IH; [exact H|]. unfold u64. apply N.mod_lt. discriminate.
Qed.

(** exact bound on the decoded value *)
Lemma be_loop_bound_exact : forall k v l v' l',
  be_loop k v l = Some (v', l') -> bytes_ok l ->
  (v + 1) * 256 ^ N.of_nat k <= two64 ->
  v' < (v + 1) * 256 ^ N.of_nat k.
Proof.
  induction k as [|k IH]; intros v l v' l' H Hok Hb; cbn [be_loop] in H.
  - inversion H; subst. cbn. lia.
  - destruct l as [|b l]; [discriminate|].
    inversion Hok as [|x y Hx Hy]; subst. unfold is_byte in Hx.
    rewrite Nat2N.inj_succ, N.pow_succ_r' in *.
    set (p := 256 ^ N.of_nat k) in *.
    assert (Hp : 1 <= p) by (unfold p; pose proof (N.pow_nonzero 256 (N.of_nat k)); lia).
    assert (Hs : u64 (u64 (N.shiftl v 8) + b) = v * 256 + b).
    { rewrite shiftl8. unfold u64, two64 in *.
      assert ((v + 1) * 256 <= 18446744073709551616) by nia.
      rewrite (N.mod_small (v * 256)) by lia. rewrite N.mod_small by lia. reflexivity. }
    rewrite Hs in H. apply IH in H; [|exact Hy|].
    + nia.
    + nia.
Qed.

Lemma be_loop_step : forall k n e b l,
  n < two64 -> e <> 0 -> b = u8 (n / e) ->
  be_loop (S k) (n / (e * 256)) (b :: l) = be_loop k (n / e) l.
Proof.
  intros k n e b l Hn He ->. cbn [be_loop].
  f_equal. rewrite shiftl8. rewrite <- N.div_div by lia.
  unfold u64, u8, two64 in *.
  assert (Hne : n / e <= n) by (apply N.div_le_upper_bound; [exact He|nia]).
  set (q := n / e) in *. clearbody q. clear He.
  rewrite (N.mod_small (q / 256 * 256)) by lia.
  rewrite N.mod_small by lia. lia.
Qed.

(** ** Round trip *)
Lemma varint_bytes_length : forall n, blen (varint_bytes n) = encode_varint_length n.
Proof.
  intro n. unfold varint_bytes, encode_varint_length.
  destruct (n <? 16384); [destruct (n <? 64)|destruct (n <? 1073741824)]; reflexivity.
Qed.

Lemma varint_bytes_ok : forall n, bytes_ok (varint_bytes n).
Proof.
  intro n. unfold varint_bytes, bytes_ok.
  assert (H : forall x, is_byte (u8 x)) by (intro; unfold is_byte, u8; apply N.mod_lt; discriminate).
  destruct (n <? 16384); [destruct (n <? 64)|destruct (n <? 1073741824)];
    repeat constructor; apply H.
Qed.

Lemma encode_varint_length_pos : forall n, 1 <= encode_varint_length n <= 8.
Proof.
  intro n. unfold encode_varint_length.
  destruct (n <? 16384); [destruct (n <? 64)|destruct (n <? 1073741824)]; lia.
Qed.

Lemma frames_varint_encode_eq : forall n room,
  frames_varint_encode n room =
  if encode_varint_length n <=? room then Some (varint_bytes n) else None.
Proof.
  intros n room. unfold frames_varint_encode, encode_varint_length.
  destruct (n <? 16384); [destruct (n <? 64)|destruct (n <? 1073741824)]; reflexivity.
Qed.

Lemma varint_encode_eq : forall n room,
  varint_encode room n =
  if encode_varint_length n <=? room then varint_bytes n else [].
Proof.
  intros n room. unfold varint_encode, encode_varint_length.
  destruct (n <? 16384); [destruct (n <? 64)|destruct (n <? 1073741824)]; try reflexivity.
  replace (0 <? room) with (1 <=? room) by lia. reflexivity.
Qed.

Lemma first_byte_decomp : forall q c, q < 64 -> c < 4 ->
  varint_len (q + 64 * c) = 2 ^ c /\ N.land (q + 64 * c) 63 = q.
Proof.
  intros q c Hq Hc. rewrite varint_len_eq, land63. split; [f_equal|]; lia.
Qed.

Lemma varint_decode_o_bytes : forall n rest, n < two62 ->
  frames_varint_decode_o (varint_bytes n ++ rest) = Ok (n, rest).
Proof.
  intros n rest Hn. unfold two62 in Hn.
  assert (Hn64 : n < two64) by (unfold two64; lia).
  unfold varint_bytes.
  destruct (n <? 16384) eqn:H1; [destruct (n <? 64) eqn:H2|destruct (n <? 1073741824) eqn:H3].
  - cbn [app]. unfold frames_varint_decode_o.
    replace (u8 n) with (n + 64 * 0) by (unfold u8; lia).
    destruct (first_byte_decomp n 0) as [Hl Hv]; [lia|lia|].
    rewrite Hl, Hv. rewrite blen_cons.
    change (2 ^ 0) with 1.
    replace (1 <=? _) with true by (symmetry; apply N.leb_le; lia).
    reflexivity.
  - cbn [app]. unfold frames_varint_decode_o.
    rewrite shiftr8. rewrite (lor_small _ 64 1) by lia.
    replace (u8 (n / 256 + 64)) with (n / 256 + 64 * 1) by (unfold u8; lia).
    destruct (first_byte_decomp (n / 256) 1) as [Hl Hv]; [lia|lia|].
    rewrite Hl, Hv. rewrite !blen_cons.
    change (2 ^ 1) with 2.
    replace (2 <=? _) with true by (symmetry; apply N.leb_le; lia).
    change (N.to_nat (2 - 1)) with 1%nat.
    change 256 with (1 * 256) at 1.
    rewrite be_loop_step; [|assumption|lia|rewrite N.div_1_r; reflexivity].
    rewrite N.div_1_r. reflexivity.
  - cbn [app]. unfold frames_varint_decode_o.
    rewrite shiftr24, shiftr16, shiftr8. rewrite (lor_small _ 128 2) by lia.
    replace (u8 (n / 16777216 + 128)) with (n / 16777216 + 64 * 2) by (unfold u8; lia).
    destruct (first_byte_decomp (n / 16777216) 2) as [Hl Hv]; [lia|lia|].
    rewrite Hl, Hv. rewrite !blen_cons.
    change (2 ^ 2) with 4.
    replace (4 <=? _) with true by (symmetry; apply N.leb_le; lia).
    change (N.to_nat (4 - 1)) with 3%nat.
    change 16777216 with (65536 * 256) at 1.
    rewrite be_loop_step; [|assumption|lia|reflexivity].
    change 65536 with (256 * 256).
    rewrite be_loop_step; [|assumption|lia|reflexivity].
    change 256 with (1 * 256) at 1.
    rewrite be_loop_step; [|assumption|lia|rewrite N.div_1_r; reflexivity].
    rewrite N.div_1_r. reflexivity.
  - cbn [app]. unfold frames_varint_decode_o.
    rewrite shiftr56, shiftr48, shiftr40, shiftr32, shiftr24, shiftr16, shiftr8.
    rewrite (lor_small _ 192 3) by lia.
    replace (u8 (n / 72057594037927936 + 192)) with (n / 72057594037927936 + 64 * 3)
      by (unfold u8; lia).
    destruct (first_byte_decomp (n / 72057594037927936) 3) as [Hl Hv]; [lia|lia|].
    rewrite Hl, Hv. rewrite !blen_cons.
    change (2 ^ 3) with 8.
    replace (8 <=? _) with true by (symmetry; apply N.leb_le; lia).
    change (N.to_nat (8 - 1)) with 7%nat.
    change 72057594037927936 with (281474976710656 * 256) at 1.
    rewrite be_loop_step; [|assumption|lia|reflexivity].
    change 281474976710656 with (1099511627776 * 256) at 1.
    rewrite be_loop_step; [|assumption|lia|reflexivity].
    change 1099511627776 with (4294967296 * 256) at 1.
    rewrite be_loop_step; [|assumption|lia|reflexivity].
    change 4294967296 with (16777216 * 256) at 1.
    rewrite be_loop_step; [|assumption|lia|reflexivity].
    change 16777216 with (65536 * 256) at 1.
    rewrite be_loop_step; [|assumption|lia|reflexivity].
    change 65536 with (256 * 256) at 1.
    rewrite be_loop_step; [|assumption|lia|reflexivity].
    change 256 with (1 * 256) at 1.
    rewrite be_loop_step; [|assumption|lia|rewrite N.div_1_r; reflexivity].
    rewrite N.div_1_r. reflexivity.
Qed.

Lemma frames_varint_decode_bytes : forall n rest, n < two62 ->
  frames_varint_decode (varint_bytes n ++ rest) = Some (n, rest).
Proof.
  intros. unfold frames_varint_decode. rewrite varint_decode_o_bytes by assumption. reflexivity.
Qed.

Lemma frames_varint_decode_o_not_UB : forall l, frames_varint_decode_o l <> UB.
Proof.
  intros l H. unfold frames_varint_decode_o in H.
  destruct l as [|b l]; [discriminate|].
  destruct (varint_len b <=? blen (b :: l)) eqn:Hle; [|discriminate].
  destruct (be_loop_some (N.to_nat (varint_len b - 1)) (N.land b 63) l) as [v Hv].
  - rewrite blen_cons in Hle. unfold blen in Hle. lia.
  - rewrite Hv in H. discriminate.
Qed.

(** What a successful decoding consumed *)
Lemma frames_varint_decode_inv : forall l v l',
  frames_varint_decode l = Some (v, l') ->
  exists b t, l = b :: t /\ varint_len b <= blen l /\
    l' = skipn (N.to_nat (varint_len b)) l /\ blen l' = blen l - varint_len b.
Proof.
  intros l v l' H. unfold frames_varint_decode, frames_varint_decode_o in H.
  destruct l as [|b t]; [discriminate|].
  destruct (varint_len b <=? blen (b :: t)) eqn:Hle; [|discriminate].
  destruct (be_loop_some (N.to_nat (varint_len b - 1)) (N.land b 63) t) as [w Hw].
  { rewrite blen_cons in Hle. unfold blen in Hle. lia. }
  rewrite Hw in H. inv_pair H.
  exists b, t. split; [reflexivity|]. split; [lia|].
  pose proof (varint_len_cases b) as Hc.
  assert (Hs : skipn (N.to_nat (varint_len b)) (b :: t) = skipn (N.to_nat (varint_len b - 1)) t).
  { replace (N.to_nat (varint_len b)) with (S (N.to_nat (varint_len b - 1))) by lia.
    reflexivity. }
  split; [symmetry; exact Hs|].
  rewrite blen_cons in Hle |- *. unfold blen in *. rewrite skipn_length. lia.
Qed.

Lemma frames_varint_decode_len : forall l v l',
  frames_varint_decode l = Some (v, l') -> blen l' < blen l.
Proof.
  intros l v l' H. apply frames_varint_decode_inv in H.
  destruct H as (b & t & -> & Hle & -> & Hl). pose proof (varint_len_cases b).
  rewrite blen_cons in *. lia.
Qed.

Lemma frames_varint_decode_suffix : forall l v l',
  frames_varint_decode l = Some (v, l') -> exists p, l = p ++ l' /\ 1 <= blen p <= 8.
Proof.
  intros l v l' H. apply frames_varint_decode_inv in H.
  destruct H as (b & t & Hl & Hle & -> & Hb).
  exists (firstn (N.to_nat (varint_len b)) l). rewrite firstn_skipn. split; [reflexivity|].
  pose proof (varint_len_cases b). unfold blen in *. rewrite firstn_length. lia.
Qed.

Lemma frames_varint_decode_lt : forall l v l',
  frames_varint_decode l = Some (v, l') -> bytes_ok l -> v < two62.
Proof.
  intros l v l' H Hok. unfold frames_varint_decode, frames_varint_decode_o in H.
  destruct l as [|b t]; [discriminate|].
  destruct (varint_len b <=? blen (b :: t)) eqn:Hle; [|discriminate].
  destruct (be_loop (N.to_nat (varint_len b - 1)) (N.land b 63) t) as [[w r]|] eqn:Hw; [|discriminate].
  inv_pair H.
  inversion Hok as [|x y Hx Hy]; subst.
  assert (Hq : N.land b 63 < 64) by (rewrite land63; lia).
  unfold two62.
  set (q := N.land b 63) in *. clearbody q.
  destruct (varint_len_cases b) as [Hc|[Hc|[Hc|Hc]]]; rewrite Hc in Hw;
    [change (N.to_nat (1 - 1)) with 0%nat in Hw|change (N.to_nat (2 - 1)) with 1%nat in Hw
    |change (N.to_nat (4 - 1)) with 3%nat in Hw|change (N.to_nat (8 - 1)) with 7%nat in Hw];
    apply be_loop_bound_exact in Hw; auto.
  - change (256 ^ N.of_nat 0) with 1 in Hw. lia.
  - change (256 ^ N.of_nat 0) with 1. unfold two64. lia.
  - change (256 ^ N.of_nat 1) with 256 in Hw. lia.
  - change (256 ^ N.of_nat 1) with 256. unfold two64. lia.
  - change (256 ^ N.of_nat 3) with 16777216 in Hw. lia.
  - change (256 ^ N.of_nat 3) with 16777216. unfold two64. lia.
  - change (256 ^ N.of_nat 7) with 72057594037927936 in Hw. lia.
  - change (256 ^ N.of_nat 7) with 72057594037927936. unfold two64. lia.
Qed.

Lemma frames_varint_skip_decode : forall l,
  frames_varint_skip l = match frames_varint_decode l with
                         | Some (_, l') => Some l' | None => None end.
Proof.
  intro l. unfold frames_varint_skip.
  destruct l as [|b t]; [reflexivity|].
  unfold frames_fixed_skip, frames_varint_decode, frames_varint_decode_o.
  destruct (varint_len b <=? blen (b :: t)) eqn:Hle; [|reflexivity].
  destruct (be_loop_some (N.to_nat (varint_len b - 1)) (N.land b 63) t) as [w Hw].
  { rewrite blen_cons in Hle. unfold blen in Hle. lia. }
  rewrite Hw. pose proof (varint_len_cases b) as Hc.
  replace (N.to_nat (varint_len b)) with (S (N.to_nat (varint_len b - 1))) by lia.
  reflexivity.
Qed.

(** The two decoders agree. *)
Lemma varint_decode_agree : forall l, bytes_ok l ->
  varint_decode l =
  match frames_varint_decode l with
  | Some (v, l') => Ok (blen l - blen l', v)
  | None => Ok (0, 0)
  end.
Proof.
  intros l Hok. unfold varint_decode, frames_varint_decode, frames_varint_decode_o.
  destruct l as [|b t]; [reflexivity|].
  inversion Hok as [|x y Hx Hy]; subst.
  rewrite decode_varint_length_eq by exact Hx.
  replace (blen (b :: t) <? varint_len b) with (negb (varint_len b <=? blen (b :: t)))
    by (rewrite N.ltb_antisym; reflexivity).
  destruct (varint_len b <=? blen (b :: t)) eqn:Hle; cbn [negb]; [|reflexivity].
  destruct (be_loop_some (N.to_nat (varint_len b - 1)) (N.land b 63) t) as [w Hw].
  { rewrite blen_cons in Hle. unfold blen in Hle. lia. }
  rewrite Hw. f_equal. f_equal.
  pose proof (varint_len_cases b) as Hc.
  rewrite blen_cons in *. unfold blen in *. rewrite skipn_length. lia.
Qed.

(** The encoding is the shortest varint of the value: the standard's four
    ranges. *)
Lemma encode_varint_length_minimal : forall n, n < two62 ->
  forall c, c < 4 -> n < 2 ^ (8 * 2 ^ c - 2) -> encode_varint_length n <= 2 ^ c.
Proof.
  intros n Hn c Hc Hlt. unfold encode_varint_length, two62 in *.
  assert (c = 0 \/ c = 1 \/ c = 2 \/ c = 3) as [->|[->|[-> | ->]]] by lia;
    cbn in Hlt |- *;
    destruct (n <? 16384) eqn:H1; [destruct (n <? 64) eqn:H2| | destruct (n <? 64) eqn:H2| | destruct (n <? 64) eqn:H2| | destruct (n <? 64) eqn:H2|];
    try (destruct (n <? 1073741824) eqn:H3); lia.
Qed.

(** ** Relation with the specification of Varint_spec.v *)
Lemma be_value_acc : forall l a,
  fold_left (fun a b => a * 256 + b) l a = a * 256 ^ blen l + be_value l.
Proof.
  unfold be_value. induction l as [|b l IH]; intro a.
  - cbn. rewrite N.mul_1_r, N.add_0_r. reflexivity.
  - cbn [fold_left]. rewrite IH, (IH (0 * 256 + b)). rewrite blen_cons.
    rewrite N.add_comm with (n := 1), N.add_1_r, N.pow_succ_r'. lia.
Qed.

Lemma be_value_cons : forall b l, be_value (b :: l) = b * 256 ^ blen l + be_value l.
Proof. intros. unfold be_value at 1. cbn [fold_left]. rewrite be_value_acc. lia. Qed.

Lemma be_value_app : forall a b, be_value (a ++ b) = be_value a * 256 ^ blen b + be_value b.
Proof. intros. unfold be_value at 1. rewrite fold_left_app. apply be_value_acc. Qed.

Lemma be_value_lt : forall l, bytes_ok l -> be_value l < 256 ^ blen l.
Proof.
  induction l as [|b l IH]; intro H; [cbn; lia|].
  inversion H as [|x y Hx Hy]; subst. specialize (IH Hy). unfold is_byte in Hx.
  rewrite be_value_cons, blen_cons, N.add_comm with (n := 1), N.add_1_r, N.pow_succ_r'.
  nia.
Qed.

Lemma be_value_inj : forall a b, bytes_ok a -> bytes_ok b -> length a = length b ->
  be_value a = be_value b -> a = b.
Proof.
  induction a as [|x a IH]; intros [|y b] Ha Hb Hl Hv; cbn in Hl; try discriminate; [reflexivity|].
  inversion Ha as [|? ? Hx Ha']; inversion Hb as [|? ? Hy Hb']; subst.
  rewrite !be_value_cons in Hv.
  assert (Hbl : blen a = blen b) by (unfold blen; lia).
  pose proof (be_value_lt a Ha') as H1. pose proof (be_value_lt b Hb') as H2.
  rewrite Hbl in *.
  assert (x = y) by nia. subst y. f_equal. apply IH; auto; lia.
Qed.

Lemma be_loop_value : forall k v l v' l',
  be_loop k v l = Some (v', l') -> bytes_ok l ->
  (v + 1) * 256 ^ N.of_nat k <= two64 ->
  exists p, l = p ++ l' /\ length p = k /\ v' = v * 256 ^ N.of_nat k + be_value p.
Proof.
  induction k as [|k IH]; intros v l v' l' H Hok Hb; cbn [be_loop] in H.
  - inversion H; subst. exists []. cbn. repeat split; lia.
  - destruct l as [|b l]; [discriminate|].
    inversion Hok as [|x y Hx Hy]; subst. unfold is_byte in Hx.
    rewrite Nat2N.inj_succ, N.pow_succ_r' in *.
    assert (Hp : 1 <= 256 ^ N.of_nat k) by (pose proof (N.pow_nonzero 256 (N.of_nat k)); lia).
    assert (Hs : u64 (u64 (N.shiftl v 8) + b) = v * 256 + b).
    { rewrite shiftl8. unfold u64, two64 in *.
      assert ((v + 1) * 256 <= 18446744073709551616) by nia.
      rewrite (N.mod_small (v * 256)) by lia. rewrite N.mod_small by lia. reflexivity. }
    rewrite Hs in H. apply IH in H; [|exact Hy|nia].
    destruct H as (p & -> & Hl & ->). exists (b :: p). split; [reflexivity|].
    split; [cbn; lia|]. rewrite be_value_cons. unfold blen. rewrite Hl. lia.
Qed.

Lemma frames_varint_decode_is_varint : forall l v l',
  bytes_ok l -> frames_varint_decode l = Some (v, l') ->
  exists p, l = p ++ l' /\ is_varint v p.
Proof.
  intros l v l' Hok H. pose proof (frames_varint_decode_lt _ _ _ H Hok) as Hlt.
  unfold frames_varint_decode, frames_varint_decode_o in H.
  destruct l as [|b t]; [discriminate|].
  destruct (varint_len b <=? blen (b :: t)) eqn:Hle; [|discriminate].
  destruct (be_loop (N.to_nat (varint_len b - 1)) (N.land b 63) t) as [[w r]|] eqn:Hw; [|discriminate].
  inv_pair H.
  assert (Hx : b < 256) by (inversion Hok; assumption).
  assert (Hy : bytes_ok t) by (inversion Hok; assumption).
  rewrite varint_len_eq in *.
  assert (Hc4 : (b / 64) mod 4 < 4) by (apply N.mod_lt; discriminate).
  assert (Hcb : b = ((b / 64) mod 4) * 64 + N.land b 63) by (rewrite land63; lia).
  remember ((b / 64) mod 4) as c eqn:Ec. clear Ec.
  assert (Hq : N.land b 63 < 64) by (rewrite land63; apply N.mod_lt; discriminate).
  remember (N.land b 63) as q eqn:Eq. clear Eq. subst b.
  pose proof Hw as Hw2.
  apply be_loop_value in Hw; [|exact Hy|].
  2:{ unfold two64. assert (c = 0 \/ c = 1 \/ c = 2 \/ c = 3) as [-> |[-> |[-> | ->]]] by lia;
      [change (256 ^ N.of_nat (N.to_nat (2 ^ 0 - 1))) with 1
      |change (256 ^ N.of_nat (N.to_nat (2 ^ 1 - 1))) with 256
      |change (256 ^ N.of_nat (N.to_nat (2 ^ 2 - 1))) with 16777216
      |change (256 ^ N.of_nat (N.to_nat (2 ^ 3 - 1))) with 72057594037927936]; lia. }
  destruct Hw as (p & -> & Hlp & ->).
  exists ((c * 64 + q) :: p). split; [reflexivity|].
  assert (Hbp : blen p = 2 ^ c - 1) by (unfold blen; rewrite Hlp; lia).
  assert (Hokp : bytes_ok p) by (apply Forall_app in Hy; tauto).
  pose proof (be_value_lt p Hokp) as Hpl. rewrite Hbp in Hpl.
  exists c. rewrite blen_cons, be_value_cons, Hbp.
  assert (Hoks : bytes_ok ((c * 64 + q) :: p)) by (constructor; assumption).
  rewrite N2Nat.id.
  assert (c = 0 \/ c = 1 \/ c = 2 \/ c = 3) as [-> |[-> |[-> | ->]]] by lia.
  - change (256 ^ (2 ^ 0 - 1)) with 1 in *. change (2 ^ (8 * 2 ^ 0 - 2)) with 64.
    change (2 ^ 0) with 1. repeat split; auto; lia.
  - change (256 ^ (2 ^ 1 - 1)) with 256 in *. change (2 ^ (8 * 2 ^ 1 - 2)) with 16384.
    change (2 ^ 1) with 2. repeat split; auto; lia.
  - change (256 ^ (2 ^ 2 - 1)) with 16777216 in *. change (2 ^ (8 * 2 ^ 2 - 2)) with 1073741824.
    change (2 ^ 2) with 4. repeat split; auto; lia.
  - change (256 ^ (2 ^ 3 - 1)) with 72057594037927936 in *.
    change (2 ^ (8 * 2 ^ 3 - 2)) with 4611686018427387904.
    change (2 ^ 3) with 8. repeat split; auto; lia.
Qed.

(** Conversely each encoding of [v] is decoded to [v]. *)
Lemma is_varint_decode : forall v p l', is_varint v p -> bytes_ok l' ->
  frames_varint_decode (p ++ l') = Some (v, l').
Proof.
  intros v p l' (c & Hc & Hlen & Hv & Hbe & Hok) Hl'.
  destruct p as [|b p].
  { exfalso. rewrite blen_nil in Hlen. pose proof (N.pow_nonzero 2 c). lia. }
  assert (Hx : b < 256) by (inversion Hok; assumption).
  assert (Hy : bytes_ok p) by (inversion Hok; assumption).
  rewrite blen_cons in Hlen. rewrite be_value_cons in Hbe.
  pose proof (be_value_lt p Hy) as Hpl.
  assert (Hbp : blen p = 2 ^ c - 1) by lia. rewrite Hbp in *.
  assert (Hbc : b / 64 = c).
  { assert (c = 0 \/ c = 1 \/ c = 2 \/ c = 3) as [-> |[-> |[-> | ->]]] by lia.
    - change (256 ^ (2 ^ 0 - 1)) with 1 in *. change (2 ^ (8 * 2 ^ 0 - 2)) with 64 in *. lia.
    - change (256 ^ (2 ^ 1 - 1)) with 256 in *. change (2 ^ (8 * 2 ^ 1 - 2)) with 16384 in *. lia.
    - change (256 ^ (2 ^ 2 - 1)) with 16777216 in *.
      change (2 ^ (8 * 2 ^ 2 - 2)) with 1073741824 in *. lia.
    - change (256 ^ (2 ^ 3 - 1)) with 72057594037927936 in *.
      change (2 ^ (8 * 2 ^ 3 - 2)) with 4611686018427387904 in *. lia. }
  assert (Hvl : varint_len b = 2 ^ c) by (rewrite varint_len_eq, Hbc; f_equal; lia).
  assert (Hokall : bytes_ok ((b :: p) ++ l')) by (apply Forall_app; split; assumption).
  destruct (frames_varint_decode ((b :: p) ++ l')) as [[w r]|] eqn:Hd.
  - pose proof (frames_varint_decode_inv _ _ _ Hd) as (b0 & t & E & Hle & Hr & _).
    cbn [app] in E. injection E as <- <-.
    rewrite Hvl in Hr.
    assert (Hr' : r = l').
    { rewrite Hr. replace (N.to_nat (2 ^ c)) with (length (b :: p)).
      - change (b :: p ++ l') with ((b :: p) ++ l').
        rewrite skipn_app, skipn_all, Nat.sub_diag. reflexivity.
      - cbn [length]. unfold blen in Hbp. pose proof (N.pow_nonzero 2 c). lia. }
    clear Hr. subst r.
    apply frames_varint_decode_is_varint in Hd; [|exact Hokall].
    destruct Hd as (p' & E & Hiv). apply app_inv_tail in E. subst p'.
    destruct Hiv as (c' & Hc' & Hlen' & Hv' & Hbe' & _).
    rewrite blen_cons, Hbp in Hlen'. rewrite be_value_cons, Hbp in Hbe'.
    assert (c' = c).
    { apply (N.pow_inj_r 2); [lia|]. pose proof (N.pow_nonzero 2 c). lia. }
    subst c'. f_equal. f_equal. lia.
  - exfalso. unfold frames_varint_decode, frames_varint_decode_o in Hd. cbn [app] in Hd.
    rewrite Hvl in Hd.
    replace (2 ^ c <=? blen (b :: p ++ l')) with true in Hd.
    2:{ symmetry; apply N.leb_le. rewrite blen_cons, blen_app, Hbp. lia. }
    destruct (be_loop_some (N.to_nat (2 ^ c - 1)) (N.land b 63) (p ++ l')) as [w Hw].
    { rewrite app_length. unfold blen in Hbp. lia. }
    rewrite Hw in Hd. discriminate.
Qed.

Lemma varint_decode_iff : forall l v l', bytes_ok l ->
  (frames_varint_decode l = Some (v, l') <-> exists p, l = p ++ l' /\ is_varint v p).
Proof.
  intros l v l' Hok. split.
  - apply frames_varint_decode_is_varint; exact Hok.
  - intros (p & -> & H). apply is_varint_decode; [exact H|].
    apply Forall_app in Hok; tauto.
Qed.

Lemma varint_bytes_is_varint : forall n, n < two62 -> is_varint n (varint_bytes n).
Proof.
  intros n Hn. pose proof (frames_varint_decode_bytes n [] Hn) as H.
  rewrite app_nil_r in H.
  apply frames_varint_decode_is_varint in H; [|apply varint_bytes_ok].
  destruct H as (p & E & Hp). rewrite app_nil_r in E. subst p. exact Hp.
Qed.

Lemma is_varint_len_min : forall n p, is_varint n p -> encode_varint_length n <= blen p.
Proof.
  intros n p (c & Hc & Hl & Hv & _). rewrite Hl.
  apply encode_varint_length_minimal; try assumption.
  eapply N.lt_le_trans; [exact Hv|]. unfold two62.
  assert (c = 0 \/ c = 1 \/ c = 2 \/ c = 3) as [-> |[-> |[-> | ->]]] by lia; vm_compute; discriminate.
Qed.

Lemma frames_varint_encode_spec : forall n room, n < two62 ->
  (exists p, frames_varint_encode n room = Some p /\ is_varint n p /\ blen p <= room /\
     (forall q, is_varint n q -> blen p <= blen q))
  \/ (frames_varint_encode n room = None /\ forall q, is_varint n q -> room < blen q).
Proof.
  intros n room Hn. rewrite frames_varint_encode_eq.
  destruct (encode_varint_length n <=? room) eqn:E.
  - left. exists (varint_bytes n). repeat split.
    + apply varint_bytes_is_varint; exact Hn.
    + rewrite varint_bytes_length. lia.
    + intros q Hq. rewrite varint_bytes_length. apply is_varint_len_min; exact Hq.
  - right. split; [reflexivity|]. intros q Hq. apply is_varint_len_min in Hq. lia.
Qed.

Lemma frames_varint_skip_iff : forall l l', bytes_ok l ->
  (frames_varint_skip l = Some l' <-> exists v p, l = p ++ l' /\ is_varint v p).
Proof.
  intros l l' Hok. rewrite frames_varint_skip_decode. split.
  - destruct (frames_varint_decode l) as [[v r]|] eqn:E; [|discriminate].
    intro H. apply some_inj in H. subst r. exists v.
    apply varint_decode_iff in E; assumption.
  - intros (v & Hp). apply varint_decode_iff in Hp; [|exact Hok].
    rewrite Hp. reflexivity.
Qed.

Lemma varint_round_trip : forall n room rest, n < two62 ->
  forall p, frames_varint_encode n room = Some p ->
  frames_varint_decode (p ++ rest) = Some (n, rest).
Proof.
  intros n room rest Hn p Hp. rewrite frames_varint_encode_eq in Hp.
  destruct (encode_varint_length n <=? room); [|discriminate].
  apply some_inj in Hp. subst p. apply frames_varint_decode_bytes; exact Hn.
Qed.

Lemma codecs_agree : forall n room, n < two62 ->
  varint_encode room n =
  match frames_varint_encode n room with Some p => p | None => [] end.
Proof.
  intros. rewrite varint_encode_eq, frames_varint_encode_eq.
  destruct (encode_varint_length n <=? room); reflexivity.
Qed.

Lemma varint_decode_spec : forall l, bytes_ok l ->
  (exists v p rest, l = p ++ rest /\ is_varint v p /\ varint_decode l = Ok (blen p, v))
  \/ ((forall v p rest, l = p ++ rest -> ~ is_varint v p) /\ varint_decode l = Ok (0, 0)).
Proof.
  intros l Hok. rewrite varint_decode_agree by exact Hok.
  destruct (frames_varint_decode l) as [[v r]|] eqn:E.
  - left. apply varint_decode_iff in E; [|exact Hok]. destruct E as (p & -> & Hp).
    exists v, p, r. repeat split; auto. f_equal. f_equal. rewrite blen_app. lia.
  - right. split; [|reflexivity]. intros v p r -> Hp.
    rewrite (is_varint_decode v p r Hp) in E; [discriminate|].
    apply Forall_app in Hok; tauto.
Qed.

Lemma large_varint_lossy : exists n p v,
  two62 <= n /\ n < two64 /\ frames_varint_encode n 8 = Some p /\
  frames_varint_decode p = Some (v, []) /\ v <> n.
Proof.
  exists 4611686018427387904, [192;0;0;0;0;0;0;0], 0. repeat split; try (vm_compute; congruence).
Qed.

(** The two-byte form. *)
Lemma encode_16_spec : forall n, n < 16384 ->
  is_varint n (varint_encode_16 n) /\ blen (varint_encode_16 n) = 2.
Proof.
  intros n Hn.
  assert (E : varint_encode_16 n = [n / 256 + 64; n mod 256]).
  { unfold varint_encode_16, u8. rewrite N.shiftr_div_pow2. change (2 ^ 8) with 256.
    rewrite (lor_small _ 64 1) by lia. change 127 with (N.ones 7). rewrite N.land_ones. change (2 ^ 7) with 128.
    rewrite (N.mod_small (n / 256 + 64) 128), (N.mod_small (n / 256 + 64) 256) by lia. reflexivity. }
  rewrite E. split; [|reflexivity]. exists 1. split; [reflexivity|]. split; [reflexivity|].
  change (2 ^ (8 * 2 ^ 1 - 2)) with 16384. split; [exact Hn|]. split.
  - unfold be_value. cbn [fold_left]. lia.
  - apply Forall_cons; [unfold is_byte; lia|]. apply Forall_cons; [unfold is_byte; lia|apply Forall_nil].
Qed.
