(** Proofs about load-balancer connection ids. *)
From Verif Require Import Base Tac Mem Mem_proofs Lb_model Lb_spec Varint_spec Varint_proofs.

(** ** Server id bytes *)

Lemma be_bytes_length : forall n v, length (be_bytes n v) = n.
Proof. induction n; intro v; cbn; [ reflexivity | rewrite app_length, IHn; cbn; lia ]. Qed.

Lemma be_bytes_ok : forall n v, bytes_ok (be_bytes n v).
Proof.
  induction n; intro v; cbn; [ constructor | ]. apply Forall_app; split; [ apply IHn | ].
  repeat constructor. unfold is_byte. apply N.mod_lt. lia.
Qed.

Lemma be_bytes_value : forall n v, be_value (be_bytes n v) = v mod 256 ^ N.of_nat n.
Proof.
  induction n; intro v.
  - cbn. rewrite N.mod_1_r. reflexivity.
  - cbn [be_bytes]. rewrite be_value_app, IHn.
    change (be_value [v mod 256]) with (v mod 256).
    change (blen [v mod 256]) with 1. rewrite N.pow_1_r.
    rewrite Nat2N.inj_succ, N.pow_succ_r'.
    rewrite N.mod_mul_r by (try apply N.pow_nonzero; lia). lia.
Qed.

Lemma sid_value_be : forall l, bytes_ok l -> sid_value l = be_value l mod two64.
Proof.
  intros l Hl. unfold sid_value, be_value.
  assert (H : forall l a, bytes_ok l ->
    fold_left (fun v b => u64 (u64 (N.shiftl v 8) + b)) l (a mod two64)
    = (fold_left (fun a b => a * 256 + b) l a) mod two64).
  { clear. induction l as [|b l IH]; intros a H; [ reflexivity | ].
    cbn [fold_left]. rewrite <- IH by (inversion H; assumption). f_equal.
    unfold u64. rewrite N.shiftl_mul_pow2. change (2 ^ 8) with 256.
    rewrite N.add_mod_idemp_l by discriminate.
    rewrite <- N.add_mod_idemp_l by discriminate.
    rewrite N.mul_mod_idemp_l by discriminate.
    rewrite N.add_mod_idemp_l by discriminate. reflexivity. }
  rewrite <- (H l 0 Hl). reflexivity.
Qed.

(** The filling loop stores the big-endian bytes. *)
Lemma fill_sid_ok : forall n s64 s b, length s = n ->
  fill_sid n s64 (s ++ b) = Some (be_bytes n s64 ++ b, s64 / 256 ^ N.of_nat n).
Proof.
  induction n; intros s64 s b H.
  - destruct s; [ | discriminate ]. cbn. rewrite N.div_1_r. reflexivity.
  - destruct (exists_last (l := s)) as (s0 & z & ->); [ intro; subst; discriminate | ].
    rewrite app_length in H; cbn in H.
    cbn [fill_sid]. rewrite <- app_assoc. rewrite (mem_write3 s0 [z] b _ [u8 s64]); cycle 1.
    + unfold blen; lia.
    + reflexivity.
    + cbn [obind]. rewrite IHn by lia.
      cbn [be_bytes]. rewrite <- app_assoc. rewrite N.shiftr_div_pow2. change (2 ^ 8) with 256.
      f_equal. f_equal.
      rewrite N.div_div by (try apply N.pow_nonzero; lia).
      f_equal. rewrite Nat2N.inj_succ, N.pow_succ_r'. reflexivity.
Qed.

Lemma fill_sid_overflow : forall n s64 m, blen m < N.of_nat n -> fill_sid n s64 m = None.
Proof.
  destruct n; intros s64 m H; [ cbn in H; lia | ].
  cbn [fill_sid]. unfold mem_write.
  destruct (N.leb_spec (N.of_nat n + blen [u8 s64]) (blen m)) as [Hl|]; [ | reflexivity ].
  change (blen [u8 s64]) with 1 in Hl. lia.
Qed.

(** ** Masks *)

Lemma xor_bytes_xor2 : forall t m, (length t <= length m)%nat -> xor_bytes t m = xor2 t m.
Proof.
  induction t as [|a t IH]; intros [|b m] H; cbn in *; try reflexivity; try lia.
  unfold xor2; cbn. f_equal. apply IH. lia.
Qed.

Lemma xor2_length : forall t m, (length t <= length m)%nat -> length (xor2 t m) = length t.
Proof. intros. unfold xor2. rewrite map_length, combine_length. lia. Qed.

Lemma xor2_firstn : forall t m, xor2 t (firstn (length t) m) = xor2 t m.
Proof.
  induction t as [|a t IH]; intros [|b m]; cbn; try reflexivity. unfold xor2 in *; cbn. f_equal. apply IH.
Qed.

Lemma xor2_involutive : forall t m, (length t <= length m)%nat -> xor2 (xor2 t m) m = t.
Proof.
  induction t as [|a t IH]; intros [|b m] H; cbn in *; try reflexivity; try lia.
  unfold xor2 in *; cbn. f_equal; [ | apply IH; lia ].
  rewrite N.lxor_assoc, N.lxor_nilpotent, N.lxor_0_r. reflexivity.
Qed.

Lemma lxor_byte : forall a b, is_byte a -> is_byte b -> is_byte (N.lxor a b).
Proof.
  unfold is_byte; intros a b Ha Hb.
  destruct (N.eq_dec (N.lxor a b) 0) as [->|Hz]; [ lia | ].
  change 256 with (2 ^ 8). apply N.log2_lt_pow2; [ lia | ].
  eapply N.le_lt_trans; [ apply N.log2_lxor | ].
  apply N.max_lub_lt.
  - destruct (N.eq_dec a 0) as [->|]; [ cbn; lia | ]. apply N.log2_lt_pow2; lia.
  - destruct (N.eq_dec b 0) as [->|]; [ cbn; lia | ]. apply N.log2_lt_pow2; lia.
Qed.

Lemma xor2_ok : forall t m, bytes_ok t -> bytes_ok m -> bytes_ok (xor2 t m).
Proof.
  induction t as [|a t IH]; intros [|b m] H H'; cbn; try constructor.
  - inversion H; inversion H'; subst. apply lxor_byte; assumption.
  - inversion H; inversion H'; subst. apply IH; assumption.
Qed.

Lemma zero_pad_length : forall l, (length l <= 16)%nat -> length (zero_pad l) = 16%nat.
Proof. intros. unfold zero_pad. rewrite app_length, repeat_length. lia. Qed.

Lemma repeat_ok : forall n v, v < 256 -> bytes_ok (repeat v n).
Proof. induction n; intros v H; cbn; constructor; [ exact H | apply IHn; exact H ]. Qed.

Lemma zero_pad_ok : forall l, bytes_ok l -> bytes_ok (zero_pad l).
Proof. intros. unfold zero_pad. apply Forall_app; split; [ assumption | apply repeat_ok; lia ]. Qed.

Lemma fill_write : forall n, (length n <= 16)%nat ->
  mem_write 0 n (mem_fill 0 16) = Some (zero_pad n).
Proof.
  intros n H. unfold mem_write, mem_fill, zero_pad.
  destruct (N.leb_spec (0 + blen n) (blen (repeat 0 (N.to_nat 16)))) as [Hl|Hl].
  - cbn [N.to_nat firstn app]. f_equal. f_equal.
    change (Pos.to_nat 16) with 16%nat. cbn [Nat.add].
    assert (Hs : forall m k, skipn k (repeat 0 m) = repeat 0 (m - k)).
    { clear. induction m; destruct k; cbn; try reflexivity. apply IHm. }
    apply Hs.
  - unfold blen in Hl. rewrite repeat_length in Hl. lia.
Qed.

Section Stream.
Variable k : cipher.
Hypothesis Hk : cipher_ok k.
Variable key : list N.
Hypothesis Hkey : length key = 16%nat.

Lemma masked_length : forall a b, (length a <= 16)%nat -> (length b <= 16)%nat -> bytes_ok b ->
  length (masked k key a b) = length a.
Proof.
  intros. unfold masked. apply xor2_length.
  destruct (Hk key (zero_pad b) Hkey (zero_pad_length b ltac:(assumption)) (zero_pad_ok b ltac:(assumption))) as (-> & _ & _).
  assumption.
Qed.

Lemma masked_ok : forall a b, (length b <= 16)%nat -> bytes_ok a -> bytes_ok b ->
  bytes_ok (masked k key a b).
Proof.
  intros. unfold masked. apply xor2_ok; [ assumption | ].
  destruct (Hk key (zero_pad b) Hkey (zero_pad_length b ltac:(assumption)) (zero_pad_ok b ltac:(assumption))) as (_ & H' & _).
  exact H'.
Qed.

Lemma masked_twice : forall a b, (length a <= 16)%nat -> (length b <= 16)%nat -> bytes_ok b ->
  masked k key (masked k key a b) b = a.
Proof.
  intros. unfold masked. apply xor2_involutive.
  destruct (Hk key (zero_pad b) Hkey (zero_pad_length b ltac:(assumption)) (zero_pad_ok b ltac:(assumption))) as (-> & _ & _).
  assumption.
Qed.

(** One pass from the nonce to the server id, and back. *)
Lemma pass_right : forall f n s t nl sl, blen f = 1 -> blen n = nl -> blen s = sl ->
  nl <= 16 -> sl <= 16 -> bytes_ok n ->
  one_pass_stream k key 1 nl (1 + nl) sl (f ++ n ++ s ++ t)
  = Some (f ++ n ++ masked k key s n ++ t).
Proof.
  intros f n s t nl sl Hf <- <- Hn Hs Hok. unfold one_pass_stream.
  rewrite (mem_split3 f n (s ++ t)) by (symmetry; assumption || reflexivity). cbn [obind].
  rewrite fill_write by (unfold blen in Hn; lia). cbn [obind].
  destruct (Hk key (zero_pad n) Hkey (zero_pad_length n ltac:(unfold blen in Hn; lia)) (zero_pad_ok n Hok)) as (Hl & Ho & _).
  rewrite mem_read_some by (unfold blen in *; rewrite Hl; lia). cbn [obind].
  change (N.to_nat 0) with 0%nat. cbn [skipn].
  rewrite (app_assoc f n).
  rewrite (mem_split3 (f ++ n) s t) by (rewrite ?mem_blen_app, ?Hf; reflexivity). cbn [obind].
  rewrite xor_bytes_xor2; cycle 1.
  { rewrite firstn_length, Hl. unfold blen in *. lia. }
  unfold blen at 2; rewrite Nat2N.id, xor2_firstn.
  rewrite (mem_write3 (f ++ n) s t); [ rewrite <- app_assoc; reflexivity | | ].
  - rewrite mem_blen_app, Hf; reflexivity.
  - unfold blen. rewrite xor2_length; [ reflexivity | rewrite Hl; unfold blen in *; lia ].
Qed.

Lemma pass_left : forall f n s t nl sl, blen f = 1 -> blen n = nl -> blen s = sl ->
  nl <= 16 -> sl <= 16 -> bytes_ok s ->
  one_pass_stream k key (1 + nl) sl 1 nl (f ++ n ++ s ++ t)
  = Some (f ++ masked k key n s ++ s ++ t).
Proof.
  intros f n s t nl sl Hf <- <- Hn Hs Hok. unfold one_pass_stream.
  rewrite (app_assoc f n).
  rewrite (mem_split3 (f ++ n) s t) by (rewrite ?mem_blen_app, ?Hf; reflexivity). cbn [obind].
  rewrite fill_write by (unfold blen in Hs; lia). cbn [obind].
  destruct (Hk key (zero_pad s) Hkey (zero_pad_length s ltac:(unfold blen in Hs; lia)) (zero_pad_ok s Hok)) as (Hl & Ho & _).
  rewrite mem_read_some by (unfold blen in *; rewrite Hl; lia). cbn [obind].
  change (N.to_nat 0) with 0%nat. cbn [skipn].
  rewrite <- (app_assoc f n).
  rewrite (mem_split3 f n (s ++ t)) by (symmetry; assumption || reflexivity). cbn [obind].
  rewrite xor_bytes_xor2; cycle 1.
  { rewrite firstn_length, Hl. unfold blen in *. lia. }
  unfold blen at 1; rewrite Nat2N.id, xor2_firstn.
  rewrite (mem_write3 f n (s ++ t)); [ reflexivity | | ].
  - symmetry; exact Hf.
  - unfold blen. rewrite xor2_length; [ reflexivity | rewrite Hl; unfold blen in *; lia ].
Qed.

End Stream.
