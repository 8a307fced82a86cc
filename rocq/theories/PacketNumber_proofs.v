(** Lemmas about packet number truncation and restoration. *)
From Verif Require Import Base Tac Varint_model Varint_spec Varint_proofs PacketNumber_model.

Definition win (k : N) : N := 256 ^ k.

Lemma land_mask : forall e j, e < two64 -> j <= 64 ->
  N.land e (two64 - 2 ^ j) = e / 2 ^ j * 2 ^ j.
Proof.
  intros e j He Hj.
  assert (Hm : two64 - 2 ^ j = N.lnot (N.ones j) 64).
  { rewrite N.lnot_sub_low.
    - rewrite !N.ones_equiv. change (2 ^ 64) with two64.
      pose proof (N.pow_nonzero 2 j). unfold two64. lia.
    - rewrite N.ones_equiv. destruct (N.eq_dec j 0) as [-> |Hj0]; [vm_compute; reflexivity|].
      apply N.log2_lt_pow2; [|].
      + assert (2 ^ 1 <= 2 ^ j) by (apply N.pow_le_mono_r; lia). cbn in H. lia.
      + assert (2 ^ j <= 2 ^ 64) by (apply N.pow_le_mono_r; lia).
        pose proof (N.pow_nonzero 2 j). lia. }
  rewrite Hm. rewrite <- N.ldiff_land_low.
  - rewrite N.ldiff_ones_r, N.shiftl_mul_pow2, N.shiftr_div_pow2. reflexivity.
  - destruct (N.eq_dec e 0) as [-> |H0]; [vm_compute; reflexivity|].
    apply N.log2_lt_pow2; [lia|exact He].
Qed.

(** The restoration with a window W = 2^j. *)
Lemma get_packet_number64_correct : forall highest j n,
  1 <= j <= 32 -> highest < two64 - 1 -> n < two62 ->
  let W := 2 ^ j in
  highest + 1 <= n + W / 2 -> n < highest + 1 + W / 2 ->
  get_packet_number64 highest (two64 - W) (n mod W) = n.
Proof.
  intros highest j n Hj Hh Hn W H1 H2.
  assert (HWlo : 2 ^ 1 <= W) by (apply N.pow_le_mono_r; lia). change (2 ^ 1) with 2 in HWlo.
  assert (HWhi : W <= 2 ^ 32) by (apply N.pow_le_mono_r; lia).
  change (2 ^ 32) with 4294967296 in HWhi.
  assert (Heven : W = 2 * (W / 2)).
  { unfold W. replace j with (N.succ (j - 1)) by lia. rewrite N.pow_succ_r'.
    rewrite N.mul_comm at 2. rewrite N.div_mul by lia. reflexivity. }
  unfold get_packet_number64.
  assert (He : u64 (highest + 1) = highest + 1) by (unfold u64; apply N.mod_small; unfold two64 in *; lia).
  rewrite He. set (e := highest + 1) in *.
  assert (He64 : e < two64) by (unfold e; unfold two64 in *; lia).
  assert (Hnm : u64 (max64 - (two64 - W) + 1) = W).
  { unfold u64, max64, two64. replace (_ - _ + 1) with W by lia. apply N.mod_small. lia. }
  assert (Hmod : n mod W < W) by (apply N.mod_lt; lia).
  assert (Hpn : forall x, x < two64 -> N.land x (two64 - W) = x / W * W)
    by (intros x Hx; unfold W; apply land_mask; [exact Hx|lia]).
  rewrite Hnm. rewrite (Hpn e He64).
  assert (HL : forall a b, b < W -> N.lor (a * W) b = a * W + b)
    by (intros; apply lor_add_pow2; assumption).
  rewrite HL by exact Hmod.
  pose proof (N.div_mod e W) as De. pose proof (N.div_mod n W) as Dn.
  assert (HeW : e mod W < W) by (apply N.mod_lt; lia).
  specialize (De ltac:(lia)). specialize (Dn ltac:(lia)).
  set (qe := e / W) in *. set (qn := n / W) in *. set (re := e mod W) in *. set (rn := n mod W) in *.
  set (H := W / 2) in *.
  clear HL. clearbody qe qn re rn H. clear Hnm He. clearbody W e.
  assert (Hcase : qn = qe \/ qn = qe + 1 \/ qn + 1 = qe).
  { destruct (N.le_gt_cases (qe + 2) qn) as [C|C].
    - pose proof (N.mul_le_mono_l _ _ W C). lia.
    - destruct (N.le_gt_cases (qn + 2) qe) as [D|D]; [|lia].
      pose proof (N.mul_le_mono_l _ _ W D). lia. }
  assert (Hdelta : forall d, d <= W -> u64 (W + two64 - d) = W - d).
  { intros d Hd. unfold u64, two64.
    replace (W + 18446744073709551616 - d) with (W - d + 1 * 18446744073709551616) by lia.
    rewrite N.mod_add by lia. apply N.mod_small. lia. }
  assert (Hdiv : (qe * W + rn) / W = qe).
  { rewrite N.div_add_l by lia. rewrite N.div_small by exact Hmod. lia. }
  assert (HA : qe = 0 \/ W <= qe * W).
  { destruct (N.eq_dec qe 0); [left; assumption|right].
    pose proof (N.mul_le_mono_r 1 qe W). lia. }
  assert (HAz : qe = 0 -> qe * W = 0) by (intros ->; reflexivity).
  assert (Hrel : W * qn = qe * W \/ W * qn = qe * W + W \/ W * qn + W = qe * W /\ qe <> 0)
    by (destruct Hcase as [-> |[-> | <-]]; [left|right; left|right; right]; lia).
  assert (HqeW : W * qe = qe * W) by lia.
  rewrite HqeW in De. set (A := qe * W) in *. set (B := W * qn) in *.
  assert (Hx64 : A + rn < two64) by (unfold two64, two62 in *; lia).
  specialize (Hpn (A + rn) Hx64). rewrite Hdiv in Hpn. fold A in Hpn.
  clearbody A B. clear Hcase HqeW Hdiv.
  destruct (A + rn <? e) eqn:E1.
  - rewrite Hdelta by lia.
    destruct (W - (e - (A + rn)) <? e - (A + rn)) eqn:E2.
    + unfold u64. rewrite N.mod_small; unfold two64, two62 in *; lia.
    + lia.
  - rewrite Hdelta by lia. rewrite Hpn.
    destruct ((W - (A + rn - e) <=? A + rn - e) && (0 <? A)) eqn:E2.
    + apply andb_prop in E2. destruct E2 as [E2 E3].
      unfold u64. replace (A + rn + two64 - W) with (n + 1 * two64)
        by (unfold two64; lia).
      rewrite N.mod_add by (unfold two64; lia). apply N.mod_small. unfold two64, two62 in *. lia.
    + apply andb_false_iff in E2. destruct E2 as [E2|E2]; lia.
Qed.

Lemma read_pn_value : forall k v m bytes r,
  bytes_ok bytes -> length bytes = k -> (v + 1) * 256 ^ N.of_nat k <= 4294967296 ->
  exists m', read_pn k v m (bytes ++ r) = Some (v * 256 ^ N.of_nat k + be_value bytes, m').
Proof.
  induction k as [|k IH]; intros v m bytes r Hok Hl Hb.
  - destruct bytes; [|discriminate]. exists m. cbn. f_equal. f_equal. lia.
  - destruct bytes as [|b bytes]; [discriminate|]. cbn [length] in Hl.
    inversion Hok as [|x y Hx Hy]; subst. unfold is_byte in Hx.
    cbn [app read_pn]. rewrite Nat2N.inj_succ, N.pow_succ_r' in *.
    assert (Hp : 1 <= 256 ^ N.of_nat k) by (pose proof (N.pow_nonzero 256 (N.of_nat k)); lia).
    assert (Hs : u32 (u32 (N.shiftl v 8) + b) = v * 256 + b).
    { rewrite shiftl8. unfold u32 in *.
      assert ((v + 1) * 256 <= 4294967296) by nia.
      rewrite (N.mod_small (v * 256)) by lia. rewrite N.mod_small by lia. reflexivity. }
    rewrite Hs. destruct (IH (v * 256 + b) (u64 (N.shiftl m 8)) bytes r) as [m' Hm'];
      [exact Hy|lia|nia|].
    exists m'. rewrite Hm'. f_equal. f_equal. rewrite be_value_cons. unfold blen.
    injection Hl as ->. lia.
Qed.

Lemma read_pn_mask : forall k v m bytes v' m',
  read_pn k v m bytes = Some (v', m') ->
  m' = Nat.iter k (fun m => u64 (N.shiftl m 8)) m.
Proof.
  induction k as [|k IH]; intros v m bytes v' m' H; cbn [read_pn] in H.
  - inversion H. reflexivity.
  - destruct bytes as [|b bytes]; [discriminate|]. apply IH in H. subst m'.
    clear. induction k as [|k IH]; [reflexivity|]. cbn [Nat.iter nat_rect] in *. unfold Nat.iter in *. cbn. rewrite <- IH. reflexivity.
Qed.

Lemma pn_bytes_length : forall pn_l n, 1 <= pn_l <= 4 -> blen (pn_bytes pn_l n) = pn_l.
Proof.
  intros pn_l n H. unfold pn_bytes.
  assert (pn_l = 1 \/ pn_l = 2 \/ pn_l = 3 \/ pn_l = 4) as [-> |[-> |[-> | ->]]] by lia; reflexivity.
Qed.

Lemma pn_bytes_ok : forall pn_l n, bytes_ok (pn_bytes pn_l n).
Proof.
  intros pn_l n. unfold pn_bytes, format_16, format_24, format_32, bytes_ok.
  assert (H : forall x, is_byte (u8 x)) by (intro; unfold is_byte, u8; apply N.mod_lt; discriminate).
  destruct (pn_l =? 1); [|destruct (pn_l =? 2); [|destruct (pn_l =? 3)]]; repeat constructor; apply H.
Qed.

Lemma pn_bytes_value : forall pn_l n, 1 <= pn_l <= 4 ->
  be_value (pn_bytes pn_l n) = n mod 256 ^ pn_l.
Proof.
  intros pn_l n H. unfold pn_bytes, format_16, format_24, format_32.
  assert (pn_l = 1 \/ pn_l = 2 \/ pn_l = 3 \/ pn_l = 4) as [-> |[-> |[-> | ->]]] by lia;
    cbn [N.eqb Pos.eqb]; unfold be_value; cbn [fold_left];
    rewrite ?shiftr24, ?shiftr16, ?shiftr8; unfold u8, u16, u32;
    [change (256 ^ 1) with 256|change (256 ^ 2) with 65536
    |change (256 ^ 3) with 16777216|change (256 ^ 4) with 4294967296].
  - lia.
  - lia.
  - lia.
  - lia.
Qed.

Lemma short_first_byte_low : forall flags pn_l, N.land flags 3 = 0 -> 1 <= pn_l <= 4 ->
  N.land (short_first_byte flags pn_l) 3 + 1 = pn_l.
Proof.
  intros flags pn_l Hf Hp. unfold short_first_byte. rewrite N.land_lor_distr_l, Hf, N.lor_0_l.
  rewrite land3. lia.
Qed.

(** Restoration of the bytes that a sender writes. *)
Lemma restore_pn_correct : forall flags pn_l n last rest,
  N.land flags 3 = 0 -> 1 <= pn_l <= 4 -> n < two62 -> last < two64 - 1 ->
  last + 1 <= n + 256 ^ pn_l / 2 -> n < last + 1 + 256 ^ pn_l / 2 ->
  restore_pn (short_first_byte flags pn_l) last (pn_bytes pn_l n ++ rest) = Some n.
Proof.
  intros flags pn_l n last rest Hf Hp Hn Hl H1 H2.
  unfold restore_pn. rewrite short_first_byte_low by assumption.
  assert (HW : 256 ^ pn_l = 2 ^ (8 * pn_l)) by (rewrite N.pow_mul_r; reflexivity).
  destruct (read_pn_value (N.to_nat pn_l) 0 max64 (pn_bytes pn_l n) rest) as [m Hm].
  - apply pn_bytes_ok.
  - pose proof (pn_bytes_length pn_l n Hp) as E. unfold blen in E. lia.
  - rewrite N2Nat.id. rewrite N.mul_1_l.
    assert (256 ^ pn_l <= 256 ^ 4) by (apply N.pow_le_mono_r; lia).
    change (256 ^ 4) with 4294967296 in H. lia.
  - rewrite Hm. pose proof (read_pn_mask _ _ _ _ _ _ Hm) as Em.
    rewrite N.mul_0_l, N.add_0_l, pn_bytes_value by exact Hp.
    f_equal. rewrite HW in *.
    assert (Hmask : m = two64 - 2 ^ (8 * pn_l)).
    { subst m. assert (pn_l = 1 \/ pn_l = 2 \/ pn_l = 3 \/ pn_l = 4) as [-> |[-> |[-> | ->]]] by lia;
      vm_compute; reflexivity. }
    rewrite Hmask. apply get_packet_number64_correct; try assumption. lia.
Qed.

Lemma create_pn_l_predicted : forall cid_len s pf,
  create_pn_l (predict_header_length cid_len s pf) cid_len = predict_pn_l s pf.
Proof.
  intros. unfold create_pn_l, predict_header_length.
  assert (1 <= predict_pn_l s pf <= 4).
  { unfold predict_pn_l. destruct pf as [p|].
    - destruct (_ <? 262144)%Z; [|lia]. destruct (s <? 1024); [|lia]. destruct (s <? 16); lia.
    - destruct (_ <? 262144)%Z; [|lia]. destruct (s <? 1024); [|lia]. destruct (s <? 16); lia. }
  destruct (_ && _) eqn:E; lia.
Qed.

(** The sender's choice suffices when the receiver is not too far behind the
    oldest outstanding packet. *)
Lemma sender_choice_sufficient : forall flags cid_len s pf last rest,
  N.land flags 3 = 0 -> s < two62 -> last <= s ->
  match pf with
  | None => s < last + 2147483648
  | Some p => p <= s /\ p <= last + 4194304 /\ s < last + 2147483648
  end ->
  let pn_l := create_pn_l (predict_header_length cid_len s pf) cid_len in
  restore_pn (short_first_byte flags pn_l) last (pn_bytes pn_l s ++ rest) = Some s.
Proof.
  intros flags cid_len s pf last rest Hf Hs Hle Hpf pn_l. unfold pn_l.
  rewrite create_pn_l_predicted.
  unfold predict_pn_l.
  assert (Hgen : forall k, 1 <= k <= 4 -> s + 1 < last + 1 + 256 ^ k / 2 \/ s < last + 256 ^ k / 2 ->
     1 <= 256 ^ k / 2 ->
     restore_pn (short_first_byte flags k) last (pn_bytes k s ++ rest) = Some s).
  { intros k Hk H1 H2. apply restore_pn_correct; try assumption; unfold two64, two62 in *; try lia.
     }
  assert (P1 : 256 ^ 1 / 2 = 128) by reflexivity.
  assert (P2 : 256 ^ 2 / 2 = 32768) by reflexivity.
  assert (P3 : 256 ^ 3 / 2 = 8388608) by reflexivity.
  assert (P4 : 256 ^ 4 / 2 = 2147483648) by reflexivity.
  destruct pf as [p|].
  - destruct Hpf as (Hp1 & Hp2 & Hp3).
    destruct (_ <? 262144)%Z eqn:E1.
    + destruct (s <? 1024) eqn:E2; [destruct (s <? 16) eqn:E3|]; apply Hgen; lia.
    + apply Hgen; lia.
  - destruct (_ <? 262144)%Z eqn:E1.
    + destruct (s <? 1024) eqn:E2; [destruct (s <? 16) eqn:E3|]; apply Hgen; lia.
    + apply Hgen; lia.
Qed.

Lemma sender_choice_lost_run : exists flags cid_len s p last,
  N.land flags 3 = 0 /\ last <= s /\ p <= s /\
  let pn_l := create_pn_l (predict_header_length cid_len s (Some p)) cid_len in
  restore_pn (short_first_byte flags pn_l) last (pn_bytes pn_l s) <> Some s.
Proof. exists 64, 8, 30000000, 29999999, 5. vm_compute. repeat split; first [reflexivity | discriminate]. Qed.

Lemma cid_length_mismatch : exists flags cid0_len cid_len s p last,
  N.land flags 3 = 0 /\ p <= s /\ p <= last + 1 /\ last <= s /\
  let pn_l := create_pn_l (predict_header_length cid0_len s (Some p)) cid_len in
  restore_pn (short_first_byte flags pn_l) last (pn_bytes pn_l s) <> Some s.
Proof. exists 64, 8, 10, 2000, 1000, 1000. vm_compute. repeat split; first [reflexivity | discriminate]. Qed.
