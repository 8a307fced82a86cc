(** Proofs about the reception of one transport parameter. *)
From Verif Require Frames4_proofs Frames5_proofs.
From Verif Require Import Base Tac Varint_model Varint_spec Varint_proofs Header_model Header_spec Header_proofs
  Segment_proofs Cneg_proofs Lb_spec Lb_proofs Token_proofs Stream_model Tparam_model Tparam_spec.

Lemma forall_app_l : forall (A : Type) (P : A -> Prop) a b, Forall P (a ++ b) -> Forall P a.
Proof. intros A P a b H. apply Forall_app in H. tauto. Qed.
Lemma forall_app_r : forall (A : Type) (P : A -> Prop) a b, Forall P (a ++ b) -> Forall P b.
Proof. intros A P a b H. apply Forall_app in H. tauto. Qed.

Lemma is_varint_pos : forall n p, is_varint n p -> 1 <= blen p /\ n < two62.
Proof.
  intros n p (c & Hc & Hl & Hv & _). assert (c = 0 \/ c = 1 \/ c = 2 \/ c = 3) as D by lia.
  unfold two62.
  destruct D as [-> |[-> |[-> | ->]]].
  - change (2 ^ (8 * 2 ^ 0 - 2)) with 64 in Hv. change (2 ^ 0) with 1 in Hl. lia.
  - change (2 ^ (8 * 2 ^ 1 - 2)) with 16384 in Hv. change (2 ^ 1) with 2 in Hl. lia.
  - change (2 ^ (8 * 2 ^ 2 - 2)) with 1073741824 in Hv. change (2 ^ 2) with 4 in Hl. lia.
  - change (2 ^ (8 * 2 ^ 3 - 2)) with 4611686018427387904 in Hv. change (2 ^ 3) with 8 in Hl. lia.
Qed.

Lemma varint_unique : forall n m p, is_varint n p -> is_varint m p -> n = m.
Proof.
  intros n m p H1 H2. pose proof (is_varint_decode n p [] H1 (Forall_nil _)) as E1.
  rewrite (is_varint_decode m p [] H2 (Forall_nil _)) in E1. apply some_pair_inj in E1. symmetry. apply E1.
Qed.

(** Reading of a whole value as a varint. *)
Lemma tp_varint_spec : forall s ok v, bytes_ok v ->
  (exists n, is_varint n v /\ tp_varint_decode s ok v = (n, ok, s)) \/
  ((forall n, ~ is_varint n v) /\ exists n, tp_varint_decode s ok v = (n, false, conn_error s 8)).
Proof.
  intros s ok v Hv. unfold tp_varint_decode.
  destruct (varint_decode_spec v Hv) as [(n & p & rest & E & Hp & ->)|[Hno ->]].
  - destruct (is_varint_pos n p Hp) as [Hpos _]. destruct (N.eqb_spec (blen p) 0); [lia|]. cbn [orb].
    destruct rest as [|b rest].
    + rewrite app_nil_r in E. subst p. rewrite N.eqb_refl. left. exists n. split; [exact Hp|reflexivity].
    + right. split.
      * intros m Hm. pose proof (is_varint_decode m v [] Hm (Forall_nil _)) as E1. rewrite app_nil_r in E1.
        assert (E2 : frames_varint_decode v = Some (n, b :: rest)).
        { rewrite E. apply is_varint_decode; [exact Hp|]. rewrite E in Hv. exact (forall_app_r _ _ _ _ Hv). }
        rewrite E2 in E1. apply some_pair_inj in E1. destruct E1 as [_ E1]. discriminate E1.
      * exists n. rewrite E, blen_app, blen_cons. destruct (N.eqb_spec (blen p) (blen p + (1 + blen rest))); [lia|]. reflexivity.
  - right. split; [|exists 0; reflexivity]. intros n Hn. apply (Hno n v []); [symmetry; apply app_nil_r|exact Hn].
Qed.

Lemma conn_error_some : forall s c, s_error (conn_error s c) <> None.
Proof. intros s c. unfold conn_error. cbn. destruct (s_error s); discriminate. Qed.

(** Preferred addresses. *)
Lemma dec16_be : forall p rest, p < 65536 -> frames_uint16_decode (be_bytes 2 p ++ rest) = Some (p, rest).
Proof. intros p rest H. rewrite <- format_16_be. apply Frames5_proofs.dec_16. exact H. Qed.

Lemma dec16_inv : forall l p r, bytes_ok l -> frames_uint16_decode l = Some (p, r) -> l = be_bytes 2 p ++ r /\ p < 65536.
Proof.
  intros l p r Hl H. destruct l as [|a [|b l]]; try discriminate. cbn in H. apply some_pair_inj in H. destruct H as [<- <-].
  unfold bytes_ok in Hl. inversion Hl as [|? ? Ha Hl1]; subst. inversion Hl1 as [|? ? Hb _]; subst. unfold is_byte in *.
  rewrite lor_shiftl8 by exact Hb. split; [|lia].
  cbn [be_bytes app]. f_equal; [|f_equal]; lia.
Qed.

Ltac skip1 := repeat (rewrite ?skipn_app, ?firstn_app).

Lemma pref_decode_ok : forall a v, is_pref a v -> tp_pref_decode v = (blen v, Some a).
Proof.
  intros a v (E & L4 & L6 & Lt & Lc & P4 & P6). destruct a as [ip4 p4 ip6 p6 cid tok]. cbn [pa_ip4 pa_port4 pa_ip6 pa_port6 pa_cid pa_token] in *.
  assert (Hlen : blen v = 25 + blen cid + 16).
  { rewrite E, !blen_app, L4, L6, Lt. unfold blen at 1 2 3. rewrite !be_bytes_length. cbn [length]. lia. }
  assert (E4 : (length ip4 = 4)%nat) by (unfold blen in L4; lia).
  assert (E6 : (length ip6 = 16)%nat) by (unfold blen in L6; lia).
  assert (Et : (length tok = 16)%nat) by (unfold blen in Lt; lia).
  unfold tp_pref_decode. rewrite Hlen. destruct (N.ltb_spec (25 + blen cid + 16) 41); [lia|].
  assert (Hn : nth 24 v 0 = blen cid).
  { rewrite E. replace 24%nat with (length (ip4 ++ be_bytes 2 p4 ++ ip6 ++ be_bytes 2 p6) + 0)%nat
      by (rewrite !app_length, !be_bytes_length; lia).
    replace (ip4 ++ be_bytes 2 p4 ++ ip6 ++ be_bytes 2 p6 ++ [blen cid] ++ cid ++ tok) with
      ((ip4 ++ be_bytes 2 p4 ++ ip6 ++ be_bytes 2 p6) ++ blen cid :: cid ++ tok) by (rewrite <- !app_assoc; reflexivity).
    rewrite app_nth2_plus. reflexivity. }
  cbv zeta. rewrite Hn. replace ((0 <? blen cid) && (blen cid <=? 20) && (25 + blen cid + 16 <=? 25 + blen cid + 16)) with true by lia.
  assert (F : forall k (x y : list N), length x = k -> firstn k (x ++ y) = x /\ skipn k (x ++ y) = y).
  { intros k x y <-. split; [rewrite firstn_app, Nat.sub_diag, firstn_all, app_nil_r; reflexivity|
                             rewrite skipn_app, Nat.sub_diag, skipn_all; reflexivity]. }
  f_equal. f_equal.
  assert (S4 : skipn 4 v = be_bytes 2 p4 ++ ip6 ++ be_bytes 2 p6 ++ [blen cid] ++ cid ++ tok) by (rewrite E; apply F; exact E4).
  assert (S6 : skipn 6 v = ip6 ++ be_bytes 2 p6 ++ [blen cid] ++ cid ++ tok).
  { rewrite E. rewrite app_assoc. apply F. rewrite app_length, be_bytes_length. lia. }
  assert (S22 : skipn 22 v = be_bytes 2 p6 ++ [blen cid] ++ cid ++ tok).
  { rewrite E. rewrite app_assoc, app_assoc. apply F. rewrite !app_length, be_bytes_length. lia. }
  assert (S25 : skipn 25 v = cid ++ tok).
  { rewrite E. rewrite !app_assoc, <- (app_assoc _ cid tok). apply F. rewrite !app_length, !be_bytes_length. cbn [length]. lia. }
  assert (Sc : skipn (N.to_nat (25 + blen cid)) v = tok).
  { rewrite E. rewrite !app_assoc. apply F. rewrite !app_length, !be_bytes_length. cbn [length]. unfold blen. lia. }
  rewrite S4, S6, S22, S25, Sc, !dec16_be by assumption.
  f_equal.
  - rewrite E. apply F. exact E4.
  - apply F. exact E6.
  - apply F. unfold blen. lia.
  - rewrite <- Et. apply firstn_all.
Qed.

Lemma pref_decode_inv : forall v len a, bytes_ok v -> tp_pref_decode v = (len, a) -> len = blen v -> v <> [] ->
  exists x, a = Some x /\ is_pref x v.
Proof.
  intros v len a Hv H Hl Hne. unfold tp_pref_decode in H.
  assert (Hpos : 0 < blen v) by (destruct v; [congruence|rewrite blen_cons; lia]).
  destruct (N.ltb_spec (blen v) 41) as [h|h]. { apply pair_equal_spec in H. destruct H as [<- _]. lia. }
  cbv zeta in H. set (cl := nth 24 v 0) in *.
  destruct ((0 <? cl) && (cl <=? 20) && (25 + cl + 16 <=? blen v)) eqn:C; [|apply pair_equal_spec in H; destruct H as [<- _]; lia].
  apply pair_equal_spec in H. destruct H as [H1 H2]. rewrite <- H1 in Hl.
  assert (Hn : length v = (25 + N.to_nat cl + 16)%nat) by (unfold blen in Hl; lia).
  assert (D : exists ip4 q4 ip6 q6 cid tok, v = ip4 ++ q4 ++ ip6 ++ q6 ++ [cl] ++ cid ++ tok /\ length ip4 = 4%nat /\ length q4 = 2%nat /\
     length ip6 = 16%nat /\ length q6 = 2%nat /\ length cid = N.to_nat cl /\ length tok = 16%nat).
  { exists (firstn 4 v), (firstn 2 (skipn 4 v)), (firstn 16 (skipn 6 v)), (firstn 2 (skipn 22 v)), (firstn (N.to_nat cl) (skipn 25 v)), (skipn (25 + N.to_nat cl) v).
    split; [|repeat split; rewrite ?firstn_length, ?skipn_length; lia].
    rewrite <- (firstn_skipn 4 v) at 1. f_equal. rewrite <- (firstn_skipn 2 (skipn 4 v)) at 1. f_equal.
    rewrite Frames4_proofs.skipn_twice. replace (4 + 2)%nat with 6%nat by lia. rewrite <- (firstn_skipn 16 (skipn 6 v)) at 1. f_equal.
    rewrite Frames4_proofs.skipn_twice. replace (6 + 16)%nat with 22%nat by lia. rewrite <- (firstn_skipn 2 (skipn 22 v)) at 1. f_equal.
    rewrite Frames4_proofs.skipn_twice. replace (22 + 2)%nat with 24%nat by lia.
    assert (X : skipn 24 v = [cl] ++ skipn 25 v).
    { assert (Y : forall (k : nat) (l : list N), (k < length l)%nat -> skipn k l = nth k l 0 :: skipn (S k) l).
      { clear. intro k. induction k as [|k IH]; intros [|b l] H; cbn in H |- *; try lia; [reflexivity|]. apply IH. lia. }
      rewrite (Y 24%nat v) by lia. reflexivity. }
    rewrite X. f_equal. rewrite <- (firstn_skipn (N.to_nat cl) (skipn 25 v)) at 1. f_equal. rewrite Frames4_proofs.skipn_twice. reflexivity. }
  destruct D as (ip4 & q4 & ip6 & q6 & cid & tok & E & L4 & Lq4 & L6 & Lq6 & Lc & Lt).
  assert (Hq : forall q, length q = 2%nat -> bytes_ok q -> exists p, p < 65536 /\ q = be_bytes 2 p).
  { intros q Hq Hb. destruct q as [|x [|y [|]]]; cbn in Hq; try lia.
    destruct (dec16_inv [x; y] (N.lor (N.shiftl x 8) y) [] Hb eq_refl) as [E1 E2]. rewrite app_nil_r in E1.
    exists (N.lor (N.shiftl x 8) y). split; [exact E2|exact E1]. }
  assert (Hok : bytes_ok q4 /\ bytes_ok q6).
  { unfold bytes_ok in *. rewrite E in Hv. split.
    - apply forall_app_r in Hv. apply forall_app_l in Hv. exact Hv.
    - apply forall_app_r in Hv. apply forall_app_r in Hv. apply forall_app_r in Hv. apply forall_app_l in Hv. exact Hv. }
  destruct (Hq q4 Lq4 (proj1 Hok)) as (p4 & P4 & E4). destruct (Hq q6 Lq6 (proj2 Hok)) as (p6 & P6 & E6).
  assert (Hp : is_pref (mk_pref ip4 p4 ip6 p6 cid tok) v).
  { assert (Hcl : blen cid = cl) by (unfold blen; lia).
    split; cbn [pa_ip4 pa_port4 pa_ip6 pa_port6 pa_cid pa_token]; [rewrite Hcl, <- E4, <- E6; exact E|]. unfold blen in *. repeat split; lia. }
  pose proof (pref_decode_ok _ _ Hp) as X. exists (mk_pref ip4 p4 ip6 p6 cid tok). split; [|exact Hp].
  rewrite <- H2. clear - X h C. unfold tp_pref_decode in X. destruct (N.ltb_spec (blen v) 41); [lia|]. cbv zeta in X.
  fold cl in X. rewrite C in X. apply pair_equal_spec in X. apply X.
Qed.
