(** Generation and verification of load-balancer connection ids. *)
From Verif Require Import Base Tac Mem Mem_proofs Lb_model Lb_spec Varint_spec Varint_proofs Lb_proofs.

(** The first byte written. *)
Definition fb (len : N) (x : lb_ctx) (b0 : N) : N :=
  if x_fbel x then u8 (N.lor (N.shiftl (x_rotation x) 6) (len - 1))
  else u8 (N.lor (N.land b0 63) (N.shiftl (x_rotation x) 6)).

Lemma first_byte_eq : forall len x b0 rest,
  generate_first_byte len x (b0 :: rest) = Some (fb len x b0 :: rest).
Proof.
  intros len x b0 rest. unfold generate_first_byte, fb.
  assert (Hw : forall v, mem_write 0 [v] (b0 :: rest) = Some (v :: rest)).
  { intro v. apply (mem_write3 [] [b0] rest 0 [v]); reflexivity. }
  destruct (x_fbel x); [ apply Hw | ].
  change (mem_get 0 (b0 :: rest)) with (Some b0). cbn [obind]. apply Hw.
Qed.

Lemma or_rot : forall r v, r < 4 -> v < 64 -> N.lor v (N.shiftl r 6) = v + r * 64.
Proof.
  intros r v Hr Hv. rewrite N.shiftl_mul_pow2. change (2 ^ 6) with 64.
  change 64 with (2 ^ 6) in *.
  rewrite <- N.lxor_lor, <- N.add_nocarry_lxor; try reflexivity;
    apply N.bits_inj; intro i; rewrite N.land_spec, N.bits_0;
    (destruct (N.ltb_spec i 6) as [Hi|Hi];
     [ rewrite (N.mul_pow2_bits_low r 6 i Hi); apply andb_false_r
     | replace (N.testbit v i) with false; [ reflexivity | ];
       symmetry; destruct (N.eq_dec v 0) as [->|]; [ apply N.bits_0 | ];
       apply N.bits_above_log2; apply N.lt_le_trans with 6; [ apply N.log2_lt_pow2; lia | exact Hi ] ]).
Qed.

Lemma fb_ok : forall len x b0, x_rotation x < 4 -> 1 <= len -> len <= 20 ->
  fb len x b0 / 64 = x_rotation x /\ (x_fbel x = true -> fb len x b0 mod 64 = len - 1) /\
  fb len x b0 < 256.
Proof.
  intros len x b0 Hr H1 H20. unfold fb, u8.
  destruct (x_fbel x).
  - rewrite N.lor_comm, or_rot by lia.
    rewrite (N.mod_small (_ + _)) by lia. repeat split; lia.
  - assert (N.land b0 63 < 64).
    { change 63 with (N.ones 6). rewrite N.land_ones. change (2 ^ 6) with 64. apply N.mod_lt; lia. }
    rewrite or_rot by lia. rewrite (N.mod_small (_ + _)) by lia.
    repeat split; [ lia | discriminate | lia ].
Qed.

Section Gen.
Variables (len : N) (x : lb_ctx) (b0 : N) (S z : list N).
Hypothesis Hsid : x_sid x = S ++ z.
Hypothesis HS : blen S = x_sid_len x.

Lemma read_sid : mem_read 0 (x_sid_len x) (x_sid x) = Some S.
Proof. rewrite Hsid. apply (mem_split3 [] S z); [ reflexivity | symmetry; exact HS ]. Qed.

Lemma gen_clear : forall s t, blen s = x_sid_len x ->
  generate_clear len x (b0 :: s ++ t) = Some (fb len x b0 :: S ++ t).
Proof.
  intros s t Hs. unfold generate_clear. rewrite first_byte_eq. cbn [obind].
  rewrite read_sid. cbn [obind].
  apply (mem_write3 [fb len x b0] s t 1 S); [ reflexivity | congruence ].
Qed.

Lemma gen_block : forall k key s r t, x_enc x = Some key -> length key = 16%nat -> cipher_ok k ->
  blen s = x_sid_len x -> blen s + blen r = 16 -> bytes_ok S -> bytes_ok r ->
  generate_block k len x (b0 :: s ++ r ++ t)
  = Some (fb len x b0 :: ecb_enc k key (S ++ r) ++ t).
Proof.
  intros k key s r t He Hkey Hk Hs Hr HSo Hro. unfold generate_block. rewrite first_byte_eq. cbn [obind].
  rewrite read_sid. cbn [obind].
  pose proof (mem_write3 [fb len x b0] s (r ++ t) 1 S) as Hw. cbn [app] in Hw.
  rewrite Hw by (reflexivity || congruence). clear Hw. cbn [obind].
  rewrite He. cbn [obind]. rewrite (app_assoc S r).
  pose proof (mem_split3 [fb len x b0] (S ++ r) t 1 16) as Hw. cbn [app] in Hw.
  rewrite Hw; clear Hw; [ | reflexivity | rewrite mem_blen_app; lia ].
  cbn [obind].
  destruct (Hk key (S ++ r) Hkey) as (Hl & _ & _).
  { pose proof (mem_blen_app S r) as Hb. unfold blen in Hb, Hr, Hs, HS. lia. }
  { apply Forall_app; split; assumption. }
  apply (mem_write3 [fb len x b0] (S ++ r) t 1); [ reflexivity | ].
  unfold blen at 1; rewrite Hl. rewrite mem_blen_app. lia.
Qed.

Lemma gen_stream : forall k key n s t, x_enc x = Some key -> length key = 16%nat -> cipher_ok k ->
  blen n = x_nonce_len x -> blen s = x_sid_len x -> x_nonce_len x <= 16 -> x_sid_len x <= 16 ->
  bytes_ok n -> bytes_ok S ->
  generate_stream k len x (b0 :: n ++ s ++ t)
  = Some (let s1 := masked k key S n in let n1 := masked k key n s1 in
          fb len x b0 :: n1 ++ masked k key s1 n1 ++ t).
Proof.
  intros k key n s t He Hkey Hk Hn Hs Hn16 Hs16 Hno HSo. unfold generate_stream. rewrite first_byte_eq. cbn [obind].
  rewrite read_sid. cbn [obind].
  pose proof (mem_write3 ([fb len x b0] ++ n) s t (1 + x_nonce_len x) S) as Hw.
  rewrite <- !app_assoc in Hw. cbn [app] in Hw. rewrite Hw; clear Hw;
    [ | unfold blen in *; cbn [length]; lia | congruence ].
  cbn [obind]. rewrite He. cbn [obind].
  assert (Hln : (length n <= 16)%nat) by (unfold blen in Hn; lia).
  assert (HlS : (length S <= 16)%nat) by (unfold blen in HS; lia).
  pose proof (pass_right k Hk key Hkey [fb len x b0] n S t (x_nonce_len x) (x_sid_len x)) as H1.
  cbn [app] in H1. rewrite H1 by (assumption || reflexivity). clear H1. cbn [obind].
  set (s1 := masked k key S n).
  assert (Hs1 : length s1 = length S) by (apply masked_length; assumption).
  assert (Hs1o : bytes_ok s1) by (apply masked_ok; assumption).
  pose proof (pass_left k Hk key Hkey [fb len x b0] n s1 t (x_nonce_len x) (x_sid_len x)) as H1.
  cbn [app] in H1. rewrite H1; try assumption; try reflexivity; [ | unfold blen; rewrite Hs1; exact HS ]. clear H1. cbn [obind].
  set (n1 := masked k key n s1).
  assert (Hn1 : length n1 = length n) by (apply masked_length; try assumption; lia).
  assert (Hn1o : bytes_ok n1) by (apply masked_ok; try assumption; lia).
  pose proof (pass_right k Hk key Hkey [fb len x b0] n1 s1 t (x_nonce_len x) (x_sid_len x)) as H1.
  cbn [app] in H1. apply H1; try assumption; try reflexivity.
  - unfold blen; rewrite Hn1; exact Hn.
  - unfold blen; rewrite Hs1; exact HS.
Qed.

Lemma ver_stream : forall k key n2 s2 t f l, x_enc x = Some key -> length key = 16%nat -> cipher_ok k ->
  blen n2 = x_nonce_len x -> blen s2 = x_sid_len x -> x_nonce_len x <= 16 -> x_sid_len x <= 16 ->
  bytes_ok n2 -> bytes_ok s2 ->
  verify_stream k x (mk_cid (f :: n2 ++ s2 ++ t) l)
  = Some (let s1 := masked k key s2 n2 in let n1 := masked k key n2 s1 in
          sid_value (masked k key s1 n1)).
Proof.
  clear HS Hsid S z.
  intros k key n s t f l He Hkey Hk Hn Hs Hn16 Hs16 Hno Hso. unfold verify_stream. cbn [cid_id].
  rewrite He. cbn [obind].
  assert (Hln : (length n <= 16)%nat) by (unfold blen in Hn; lia).
  assert (Hls : (length s <= 16)%nat) by (unfold blen in Hs; lia).
  pose proof (pass_right k Hk key Hkey [f] n s t (x_nonce_len x) (x_sid_len x)) as H1.
  cbn [app] in H1. rewrite H1 by (assumption || reflexivity). clear H1. cbn [obind].
  set (s1 := masked k key s n).
  assert (Hs1 : length s1 = length s) by (apply masked_length; assumption).
  assert (Hs1o : bytes_ok s1) by (apply masked_ok; assumption).
  pose proof (pass_left k Hk key Hkey [f] n s1 t (x_nonce_len x) (x_sid_len x)) as H1.
  cbn [app] in H1. rewrite H1; try assumption; try reflexivity; [ | unfold blen; rewrite Hs1; exact Hs ]. clear H1. cbn [obind].
  set (n1 := masked k key n s1).
  assert (Hn1 : length n1 = length n) by (apply masked_length; try assumption; lia).
  assert (Hn1o : bytes_ok n1) by (apply masked_ok; try assumption; lia).
  pose proof (pass_right k Hk key Hkey [f] n1 s1 t (x_nonce_len x) (x_sid_len x)) as H1.
  cbn [app] in H1. rewrite H1; try assumption; try reflexivity;
    [ | unfold blen; rewrite Hn1; exact Hn | unfold blen; rewrite Hs1; exact Hs ].
  clear H1. cbn [obind].
  pose proof (mem_split3 ([f] ++ n1) (masked k key s1 n1) t (1 + x_nonce_len x) (x_sid_len x)) as H1.
  rewrite <- !app_assoc in H1. cbn [app] in H1. rewrite H1; [ reflexivity | | ].
  - unfold blen in *. cbn [length]. lia.
  - unfold blen. rewrite masked_length; try assumption; [ | lia | lia ]. rewrite Hs1. symmetry; exact Hs.
Qed.

End Gen.

(** ** Accepted configurations *)

Definition ctx_of (c : lb_config) : lb_ctx :=
  mk_ctx (c_method c) (c_rotation c) (c_fbel c) (c_sid_len c) (c_nonce_len c) (c_cid_len c)
    (c_sid64 c) (be_bytes (N.to_nat (c_sid_len c)) (c_sid64 c) ++ repeat 0 (16 - N.to_nat (c_sid_len c)))
    (match c_method c with M_stream | M_block => Some (c_key c) | _ => None end)
    (match c_method c with M_block => Some (c_key c) | _ => None end).

Lemma make_ctx_eq : forall c, c_sid_len c <= 16 ->
  make_ctx c = Some (if c_sid64 c <? 256 ^ c_sid_len c then Some (ctx_of c) else None).
Proof.
  intros c H. unfold make_ctx.
  assert (Hf : mem_fill 0 16 = repeat 0 (N.to_nat (c_sid_len c)) ++ repeat 0 (16 - N.to_nat (c_sid_len c))).
  { rewrite <- repeat_app. unfold mem_fill. f_equal. lia. }
  rewrite Hf, fill_sid_ok by apply repeat_length. cbn [obind].
  rewrite N2Nat.id.
  assert (Hp : 256 ^ c_sid_len c <> 0) by (apply N.pow_nonzero; lia).
  destruct (N.ltb_spec (c_sid64 c) (256 ^ c_sid_len c)) as [Hl|Hl].
  - rewrite N.div_small by exact Hl. reflexivity.
  - pose proof (N.div_str_pos (c_sid64 c) (256 ^ c_sid_len c)) as Hd.
    destruct (N.eqb_spec (c_sid64 c / 256 ^ c_sid_len c) 0) as [E|E]; [ lia | reflexivity ].
Qed.

Lemma configure_inv : forall q c q', c_sid_len c <= 16 -> lb_configure q c = Some (q', true) ->
  config_ok c = true /\ c_sid64 c < 256 ^ c_sid_len c /\
  q' = mk_quic (q_has_cnx q) (c_cid_len c) (Lb_callback (ctx_of c)).
Proof.
  intros q c q' Hs H. unfold lb_configure in H.
  destruct (q_has_cnx q && negb (q_cid_len q =? c_cid_len c)); [ discriminate | ].
  cbv zeta in H.
  destruct (match q_callback q with No_callback => false | Other_callback b => b | Lb_callback _ => true end); [ discriminate | ].
  destruct (config_ok c); cbn [negb] in H; [ | discriminate ].
  rewrite make_ctx_eq in H by exact Hs. cbn [obind] in H.
  destruct (N.ltb_spec (c_sid64 c) (256 ^ c_sid_len c)) as [Hl|Hl]; [ | discriminate ].
  inv_pair H. repeat split; try assumption.
Qed.

Lemma configure_defined : forall q c, c_sid_len c <= 16 -> lb_configure q c <> None.
Proof.
  intros q c Hs. unfold lb_configure.
  destruct (q_has_cnx q && negb (q_cid_len q =? c_cid_len c)); [ discriminate | ].
  cbv zeta.
  destruct (match q_callback q with No_callback => false | Other_callback b => b | Lb_callback _ => true end); [ discriminate | ].
  destruct (config_ok c); cbn [negb]; [ | discriminate ].
  rewrite make_ctx_eq by exact Hs. cbn [obind].
  destruct (_ <? _); discriminate.
Qed.

(** With an encrypted method the accepted lengths always fit. *)
Lemma config_ok_len : forall c, config_ok c = true ->
  c_cid_len c <= 20 /\ 1 <= c_cid_len c /\
  match c_method c with
  | M_clear => 1 + c_sid_len c <= c_cid_len c
  | M_stream => 8 <= c_nonce_len c <= 16 /\ 1 + c_nonce_len c + c_sid_len c <= c_cid_len c
  | M_block => 17 <= c_cid_len c /\ c_sid_len c <= 15
  | M_other => False
  end.
Proof.
  intros c H. unfold config_ok in H.
  destruct (N.ltb_spec 20 (c_cid_len c)) as [|H20]; [ discriminate | ].
  destruct (c_method c); lia.
Qed.

Lemma encrypted_fits : forall c, config_ok c = true -> c_method c <> M_clear -> c_sid_len c <= 16.
Proof.
  intros c H Hm. apply config_ok_len in H. destruct (c_method c); [ congruence | lia | lia | tauto ].
Qed.

(** ** Generation by method *)

Definition sid_bytes (c : lb_config) : list N := be_bytes (N.to_nat (c_sid_len c)) (c_sid64 c).

Lemma sid_bytes_blen : forall c, blen (sid_bytes c) = c_sid_len c.
Proof. intro c. unfold sid_bytes, blen. rewrite be_bytes_length. lia. Qed.

Lemma sid_bytes_be : forall c, c_sid64 c < 256 ^ c_sid_len c -> be_value (sid_bytes c) = c_sid64 c.
Proof.
  intros c H. unfold sid_bytes. rewrite be_bytes_value, N2Nat.id. apply N.mod_small, H.
Qed.

Lemma sid_bytes_sid : forall c, c_sid64 c < 256 ^ c_sid_len c -> c_sid64 c < two64 ->
  sid_value (sid_bytes c) = c_sid64 c.
Proof.
  intros c H H'. rewrite sid_value_be by apply be_bytes_ok. rewrite sid_bytes_be by exact H.
  apply N.mod_small, H'.
Qed.

(** A random id cut according to the method. *)
Lemma random_id : forall random len, blen random = len -> len <= 20 -> bytes_ok random ->
  cid_id (create_random_cnx_id random len) = random ++ repeat 0 (N.to_nat (20 - len)) /\
  length (random ++ repeat 0 (N.to_nat (20 - len))) = 20%nat /\
  bytes_ok (random ++ repeat 0 (N.to_nat (20 - len))).
Proof.
  intros random len H1 H2 H3. unfold create_random_cnx_id, mem_fill. cbn [cid_id].
  unfold blen in H1. rewrite firstn_all2 by lia. repeat split.
  - rewrite app_length, repeat_length. lia.
  - apply Forall_app; split; [ assumption | apply repeat_ok; lia ].
Qed.

Lemma slice_app : forall a s b off n, off = blen a -> n = blen s -> slice off n (a ++ s ++ b) = s.
Proof.
  intros a s b off n -> ->. unfold slice, blen. rewrite !Nat2N.id.
  rewrite skipn_app, skipn_all, Nat.sub_diag. cbn [app skipn].
  rewrite firstn_app, firstn_all, Nat.sub_diag. cbn [firstn]. apply app_nil_r.
Qed.

Lemma slice_firstn : forall off n m l, off + n <= N.of_nat m -> slice off n (firstn m l) = slice off n l.
Proof.
  intros off n m l H. unfold slice. rewrite skipn_firstn_comm, firstn_firstn. f_equal. lia.
Qed.

(** The generated id, for each method; [u] is the tail left as it was. *)
Definition generated (k : cipher) (c : lb_config) (id id' : list N) : Prop :=
  exists f, first_byte_ok c f /\ f < 256 /\
  match c_method c with
  | M_clear => exists b0 s t, id = b0 :: s ++ t /\ blen s = c_sid_len c /\
      id' = f :: sid_bytes c ++ t
  | M_block => exists b0 s r t, id = b0 :: s ++ r ++ t /\ blen s = c_sid_len c /\
      blen s + blen r = 16 /\ bytes_ok r /\ id' = f :: ecb_enc k (c_key c) (sid_bytes c ++ r) ++ t
  | M_stream => exists b0 n s t, id = b0 :: n ++ s ++ t /\ blen n = c_nonce_len c /\
      blen s = c_sid_len c /\ bytes_ok n /\
      let s1 := masked k (c_key c) (sid_bytes c) n in
      let n1 := masked k (c_key c) n s1 in
      id' = f :: n1 ++ masked k (c_key c) s1 n1 ++ t
  | M_other => False
  end.

Lemma generate_ok : forall k c id, cipher_ok k -> config_typed c -> config_ok c = true ->
  c_sid_len c <= 16 -> length id = 20%nat -> bytes_ok id ->
  exists id', lb_generate k (c_cid_len c) (ctx_of c) (mk_cid id (c_cid_len c))
              = Some (mk_cid id' (c_cid_len c)) /\ generated k c id id'.
Proof.
  intros k c id Hk Ht Ho H16 Hl Hok.
  destruct Ht as (Hrot & _ & _ & _ & _ & Hkl & Hko).
  pose proof (config_ok_len c Ho) as (H20 & H1 & Hm).
  assert (Hfb : forall b0, first_byte_ok c (fb (c_cid_len c) (ctx_of c) b0) /\ fb (c_cid_len c) (ctx_of c) b0 < 256).
  { intro b0. destruct (fb_ok (c_cid_len c) (ctx_of c) b0 Hrot H1 H20) as (A & B & C).
    split; [ split; [ exact A | exact B ] | exact C ]. }
  assert (Hsid : x_sid (ctx_of c) = sid_bytes c ++ repeat 0 (16 - N.to_nat (c_sid_len c))) by reflexivity.
  assert (HS : blen (sid_bytes c) = x_sid_len (ctx_of c)) by (apply sid_bytes_blen).
  destruct id as [|b0 id]; [ discriminate | ]. cbn [length] in Hl.
  inversion Hok as [|? ? Hb0 Hid]; subst. clear Hok.
  unfold lb_generate. cbn [cid_id cid_len].
  unfold generated.
  change (x_method (ctx_of c)) with (c_method c).
  destruct (c_method c) eqn:Em.
  - destruct (mem_cut 0 (c_sid_len c) id) as (a & s & t & -> & Ha & Hs).
    { unfold blen; lia. }
    destruct a; [ | unfold blen in Ha; cbn in Ha; lia ]. cbn [app].
    rewrite (gen_clear (c_cid_len c) (ctx_of c) b0 _ _ Hsid HS s t) by exact Hs.
    cbn [obind]. eexists; split; [ reflexivity | ]. eexists; split; [ apply Hfb | ]. split; [ apply Hfb | ].
    exists b0, s, t. repeat split; try assumption.
  - destruct (mem_cut (c_nonce_len c) (c_sid_len c) id) as (n & s & t & -> & Hn & Hs).
    { unfold blen; lia. }
    apply Forall_app in Hid; destruct Hid as (Hno & _).
    rewrite (gen_stream (c_cid_len c) (ctx_of c) b0 _ _ Hsid HS k (c_key c) n s t); try assumption.
    + cbn [obind]. eexists; split; [ reflexivity | ]. eexists; split; [ apply Hfb | ]. split; [ apply Hfb | ].
      exists b0, n, s, t. repeat split; try assumption.
    + unfold ctx_of; rewrite Em; reflexivity.
    + cbn; lia.
    + apply be_bytes_ok.
  - destruct (mem_cut 0 (c_sid_len c) id) as (a & s & t & -> & Ha & Hs).
    { unfold blen; lia. }
    destruct a; [ | unfold blen in Ha; cbn in Ha; lia ]. cbn [app] in *.
    apply Forall_app in Hid; destruct Hid as (_ & Hto).
    destruct (mem_cut 0 (16 - c_sid_len c) t) as (a & r & t' & -> & Ha' & Hr).
    { rewrite app_length in Hl. unfold blen in *; lia. }
    destruct a; [ | unfold blen in Ha'; cbn in Ha'; lia ]. cbn [app] in *.
    apply Forall_app in Hto; destruct Hto as (Hro & _).
    rewrite (gen_block (c_cid_len c) (ctx_of c) b0 _ _ Hsid HS k (c_key c) s r t'); try assumption.
    + cbn [obind]. eexists; split; [ reflexivity | ]. eexists; split; [ apply Hfb | ]. split; [ apply Hfb | ].
      exists b0, s, r, t'. repeat split; try assumption. lia.
    + unfold ctx_of; rewrite Em; reflexivity.
    + rewrite Hs, Hr. lia.
    + apply be_bytes_ok.
  - contradiction.
Qed.

(** What both decoders make of a generated id. *)
Lemma generated_decodes : forall k c id id', cipher_ok k -> config_typed c -> config_ok c = true ->
  c_sid_len c <= 16 -> c_sid64 c < 256 ^ c_sid_len c -> generated k c id id' ->
  balancer k c (firstn (N.to_nat (c_cid_len c)) id') = sid_bytes c /\
  lb_verify k (ctx_of c) (mk_cid id' (c_cid_len c)) = Some (c_sid64 c).
Proof.
  intros k c id id' Hk Ht Ho H16 Hfit Hg.
  destruct Ht as (Hrot & _ & _ & _ & H64 & Hkl & Hko).
  pose proof (config_ok_len c Ho) as (H20 & H1 & Hm).
  pose proof (sid_bytes_blen c) as HSl.
  pose proof (sid_bytes_sid c Hfit H64) as HSv.
  assert (HSo : bytes_ok (sid_bytes c)) by apply be_bytes_ok.
  destruct Hg as (f & _ & _ & Hg).
  unfold balancer, lb_verify. cbn [cid_len cid_id].
  change (x_cid_len (ctx_of c)) with (c_cid_len c). rewrite N.eqb_refl. cbn [negb].
  change (x_method (ctx_of c)) with (c_method c).
  destruct (c_method c) eqn:Em.
  - destruct Hg as (b0 & s & t & -> & Hs & ->).
    split.
    + rewrite slice_firstn by lia.
      apply (slice_app [f] (sid_bytes c) t); [ reflexivity | symmetry; exact HSl ].
    + unfold verify_clear. cbn [cid_id].
      change (x_sid_len (ctx_of c)) with (c_sid_len c).
      pose proof (mem_split3 [f] (sid_bytes c) t 1 (c_sid_len c) eq_refl (eq_sym HSl)) as E.
      cbn [app] in E. rewrite E. cbn [obind]. rewrite HSv. reflexivity.
  - destruct Hg as (b0 & n & s & t & -> & Hn & Hs & Hno & Hid'). cbv zeta in Hid'.
    assert (Hln : (length n <= 16)%nat) by (unfold blen in Hn; lia).
    assert (HlS : (length (sid_bytes c) <= 16)%nat) by (unfold blen in HSl; lia).
    set (s1 := masked k (c_key c) (sid_bytes c) n) in *.
    assert (Hs1 : length s1 = length (sid_bytes c)) by (apply masked_length; assumption).
    assert (Hs1o : bytes_ok s1) by (apply masked_ok; assumption).
    set (n1 := masked k (c_key c) n s1) in *.
    assert (Hn1 : length n1 = length n) by (apply masked_length; try assumption; lia).
    assert (Hn1o : bytes_ok n1) by (apply masked_ok; try assumption; lia).
    set (s2 := masked k (c_key c) s1 n1) in *.
    assert (Hs2 : length s2 = length (sid_bytes c)).
    { unfold s2. rewrite masked_length; try assumption; lia. }
    assert (Hs2o : bytes_ok s2) by (apply masked_ok; try assumption; lia).
    assert (E1 : masked k (c_key c) s2 n1 = s1).
    { apply masked_twice; try assumption; lia. }
    assert (E2 : masked k (c_key c) n1 s1 = n).
    { apply masked_twice; try assumption; lia. }
    assert (E3 : masked k (c_key c) s1 n = sid_bytes c).
    { apply masked_twice; try assumption; lia. }
    rewrite Hid'. split.
    + rewrite !slice_firstn by lia.
      replace (slice 1 (c_nonce_len c) (f :: n1 ++ s2 ++ t)) with n1; cycle 1.
      { symmetry; apply (slice_app [f] n1 (s2 ++ t)); [ reflexivity | unfold blen in *; lia ]. }
      replace (slice (1 + c_nonce_len c) (c_sid_len c) (f :: n1 ++ s2 ++ t)) with s2; cycle 1.
      { symmetry. pose proof (slice_app ([f] ++ n1) s2 t (1 + c_nonce_len c) (c_sid_len c)) as E.
        rewrite <- !app_assoc in E. cbn [app] in E. apply E; unfold blen in *; cbn [length x_nonce_len x_sid_len ctx_of]; lia. }
      cbv zeta. rewrite E1, E2. exact E3.
    + rewrite (ver_stream (ctx_of c) k (c_key c) n1 s2 t); try assumption.
      * cbv zeta. rewrite E1, E2, E3, HSv. reflexivity.
      * unfold ctx_of; rewrite Em; reflexivity.
      * unfold blen in *; cbn [length x_nonce_len x_sid_len ctx_of]; lia.
      * unfold blen in *; cbn [length x_nonce_len x_sid_len ctx_of]; lia.
      * cbn; lia.
  - destruct Hg as (b0 & s & r & t & -> & Hs & Hr & Hro & ->).
    destruct (Hk (c_key c) (sid_bytes c ++ r) Hkl) as (Hl & Hbo & Hd).
    { pose proof (mem_blen_app (sid_bytes c) r) as Hb. unfold blen in *. lia. }
    { apply Forall_app; split; assumption. }
    split.
    + rewrite slice_firstn by lia.
      replace (slice 1 16 (f :: ecb_enc k (c_key c) (sid_bytes c ++ r) ++ t))
        with (ecb_enc k (c_key c) (sid_bytes c ++ r)); cycle 1.
      { symmetry; apply (slice_app [f] (ecb_enc k (c_key c) (sid_bytes c ++ r)) t); [ reflexivity | ].
        unfold blen; rewrite Hl; reflexivity. }
      rewrite Hd. apply (slice_app [] (sid_bytes c) r); [ reflexivity | symmetry; exact HSl ].
    + unfold verify_block. cbn [cid_id].
      replace (x_dec (ctx_of c)) with (Some (c_key c)) by (unfold ctx_of; rewrite Em; reflexivity).
      cbn [obind].
      pose proof (mem_split3 [f] (ecb_enc k (c_key c) (sid_bytes c ++ r)) t 1 16 eq_refl) as E.
      cbn [app] in E. rewrite E by (unfold blen; rewrite Hl; reflexivity). cbn [obind]. rewrite Hd.
      pose proof (mem_split3 [] (sid_bytes c) r 0 (c_sid_len c) eq_refl (eq_sym HSl)) as E'.
      cbn [app] in E'. change (x_sid_len (ctx_of c)) with (c_sid_len c). rewrite E'. cbn [obind].
      rewrite HSv. reflexivity.
  - contradiction.
Qed.
