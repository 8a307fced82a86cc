(** Proofs about connection ids in hexadecimal. *)
From Verif Require Import Base Lb_model Hexid_model Hexid_spec.

Lemma digit_iff : forall c v, hexa_digit c = Some v <-> digit_is c v.
Proof.
  intros c v. unfold hexa_digit, digit_is. split.
  - destruct ((48 <=? c) && (c <=? 57)) eqn:A; [intros H; inversion H; subst; lia|].
    destruct ((65 <=? c) && (c <=? 70)) eqn:B; [intros H; inversion H; subst; lia|].
    destruct ((97 <=? c) && (c <=? 102)) eqn:C; [intros H; inversion H; subst; lia|discriminate].
  - intros [L [[A B]|[A [B|B]]]].
    + replace ((48 <=? c) && (c <=? 57)) with true by lia. f_equal. lia.
    + replace ((48 <=? c) && (c <=? 57)) with false by lia.
      replace ((65 <=? c) && (c <=? 70)) with true by lia. f_equal. lia.
    + replace ((48 <=? c) && (c <=? 57)) with false by lia.
      replace ((65 <=? c) && (c <=? 70)) with false by lia.
      replace ((97 <=? c) && (c <=? 102)) with true by lia. f_equal. lia.
Qed.

Lemma join_digits : forall a b, a < 16 -> b < 16 -> u8 (N.lor (N.shiftl a 4) b) = 16 * a + b.
Proof.
  intros a b A B.
  assert (K : forall n, n < 16 -> In n (map N.of_nat (seq 0 16))).
  { intros n H. apply in_map_iff. exists (N.to_nat n). split; [apply N2Nat.id|]. apply in_seq. lia. }
  assert (Q : forallb (fun a => forallb (fun b => u8 (N.lor (N.shiftl a 4) b) =? 16 * a + b) (map N.of_nat (seq 0 16)))
                (map N.of_nat (seq 0 16)) = true) by (vm_compute; reflexivity).
  rewrite forallb_forall in Q. specialize (Q a (K a A)). rewrite forallb_forall in Q. specialize (Q b (K b B)).
  apply N.eqb_eq. exact Q.
Qed.

Lemma loop_iff : forall s l, hexa_loop s = Some l <-> spells s l.
Proof.
  intros s l. split.
  - revert l. remember (length s) as n eqn:L. assert (LE : (length s <= n)%nat) by lia. clear L. revert s LE.
    induction n as [|n IH]; intros s LE l H.
    + destruct s; [|simpl in LE; lia]. inversion H; subst. constructor.
    + destruct s as [|x [|y s]]; simpl in H; [inversion H; constructor|discriminate|].
      destruct (hexa_digit x) as [a|] eqn:A; [|discriminate]. destruct (hexa_digit y) as [b|] eqn:B; [|discriminate].
      destruct (hexa_loop s) as [r|] eqn:R; [|discriminate]. inversion H; subst.
      apply digit_iff in A. apply digit_iff in B.
      rewrite join_digits by (destruct A, B; assumption). constructor; auto. apply IH; [simpl in LE; lia|exact R].
  - induction 1 as [|x y a b s l A B S IH]; [reflexivity|]. simpl.
    pose proof A as [LA _]. pose proof B as [LB _].
    apply digit_iff in A. apply digit_iff in B. rewrite A, B, IH. rewrite join_digits by assumption. reflexivity.
Qed.

Lemma spells_len : forall s l, spells s l -> length s = (2 * length l)%nat.
Proof. induction 1; simpl; lia. Qed.

Lemma spells_bytes : forall s l, spells s l -> bytes_ok l.
Proof. induction 1 as [|x y a b s l [A _] [B _] S IH]; constructor; [unfold is_byte; lia|exact IH]. Qed.

Lemma parse_hexa_iff : forall s m l, l <> [] -> (parse_hexa s m = l <-> (spells s l /\ blen l <= m)).
Proof.
  intros s m l NE. unfold parse_hexa. split.
  - destruct ((0 <? blen s) && N.even (blen s) && (blen s <=? 2 * m)) eqn:C; [|intros; subst; congruence].
    destruct (hexa_loop s) as [r|] eqn:R; [|intros; subst; congruence]. intros; subst r.
    apply loop_iff in R. split; [exact R|]. apply spells_len in R. unfold blen in *. lia.
  - intros [H L]. pose proof (spells_len s l H) as K. apply loop_iff in H. rewrite H.
    assert (N.even (blen s) = true).
    { unfold blen. rewrite K. replace (N.of_nat (2 * length l)) with (2 * N.of_nat (length l)) by lia. apply N.even_mul. }
    destruct l; [congruence|]. simpl length in K.
    replace ((0 <? blen s) && N.even (blen s) && (blen s <=? 2 * m)) with true; [reflexivity|].
    symmetry. rewrite H0. unfold blen in *. simpl length in L. lia.
Qed.

(** Reading. *)
Theorem parse_thm : forall s l, (parse_id s = (l ++ repeat 0 (20 - length l), blen l) /\ l <> []) <->
  (spells s l /\ 1 <= blen l <= 18).
Proof.
  intros s l. unfold parse_id. split.
  - intros [H NE]. destruct (u8 (blen (parse_hexa s 18)) =? 0) eqn:Z.
    + inversion H as [[H1 H2]]. destruct l; [congruence|]. unfold blen in H2. simpl length in H2. lia.
    + destruct (parse_hexa s 18) as [|x r] eqn:P; [discriminate|].
      assert (Q : spells s (x :: r) /\ blen (x :: r) <= 18) by (apply parse_hexa_iff; [discriminate|exact P]).
      destruct Q as [Q1 Q2]. pose proof (f_equal fst H) as H1. pose proof (f_equal snd H) as H2. cbn [fst snd] in H1, H2.
      assert (U : u8 (blen (x :: r)) = blen (x :: r)) by (unfold u8; apply N.mod_small; lia). rewrite U in H2.
      assert (E : x :: r = l).
      { assert (LN : length (x :: r) = length l) by (unfold blen in H2; lia).
        rewrite LN in H1. apply app_inv_tail in H1. exact H1. }
      rewrite <- E. split; [exact Q1|]. unfold blen in *. simpl length in *. lia.
  - intros [H [L1 L2]]. assert (NE : l <> []) by (intros C; subst; unfold blen in L1; simpl in L1; lia).
    split; [|exact NE]. assert (P : parse_hexa s 18 = l) by (apply parse_hexa_iff; auto). rewrite P.
    assert (U : u8 (blen l) = blen l) by (unfold u8; apply N.mod_small; lia). rewrite U.
    replace (blen l =? 0) with false by lia. reflexivity.
Qed.

Theorem reject_thm : forall s, (forall l, spells s l -> l = [] \/ 18 < blen l) -> parse_id s = (repeat 0 20, 0).
Proof.
  intros s H. unfold parse_id. destruct (parse_hexa s 18) as [|x r] eqn:P; [reflexivity|].
  assert (Q : spells s (x :: r) /\ blen (x :: r) <= 18) by (apply parse_hexa_iff; [discriminate|exact P]).
  destruct Q as [Q1 Q2]. destruct (H _ Q1) as [C|C]; [discriminate|lia].
Qed.

(** Writing. *)
Lemma hex_char : forall v, v < 16 -> exists c, nth_error hex_to_char (N.to_nat v) = Some c /\ digit_is c v /\ lower_digit c.
Proof.
  intros v H.
  assert (K : In v (map N.of_nat (seq 0 16))).
  { apply in_map_iff. exists (N.to_nat v). split; [apply N2Nat.id|]. apply in_seq. lia. }
  unfold digit_is, lower_digit. simpl in K.
  repeat (destruct K as [K|K]; [subst v; eexists; split; [reflexivity|]; lia|]). destruct K.
Qed.

Lemma byte_split : forall b, b < 256 -> N.shiftr b 4 < 16 /\ N.land b 15 < 16 /\ b = 16 * N.shiftr b 4 + N.land b 15.
Proof.
  intros b H. rewrite N.shiftr_div_pow2. change 15 with (N.ones 4). rewrite N.land_ones.
  change (2 ^ 4) with 16. lia.
Qed.

Lemma hex_loop_thm : forall id room, bytes_ok id -> blen id * 2 + 1 <= room ->
  exists s, hex_loop room id = Some (s ++ [0]) /\ spells s id /\ Forall lower_digit s.
Proof.
  induction id as [|b r IH]; intros room B L.
  - exists []. simpl. unfold blen in L. simpl in L. replace (1 <=? room) with true by lia. repeat split; constructor.
  - inversion B as [|x y B1 B2]; subst. unfold is_byte in B1. destruct (byte_split b B1) as [S1 [S2 S3]].
    destruct (hex_char _ S1) as [x [X1 [X2 X3]]]. destruct (hex_char _ S2) as [y [Y1 [Y2 Y3]]].
    assert (LB : blen (b :: r) = blen r + 1) by (unfold blen; simpl length; lia).
    destruct (IH (room - 2) B2) as [s [I1 [I2 I3]]]; [lia|].
    exists (x :: y :: s). cbn [hex_loop]. rewrite X1, Y1, I1. replace (2 <=? room) with true by lia.
    split; [reflexivity|]. split; [|constructor; [exact X3|constructor; [exact Y3|exact I3]]].
    rewrite S3 at 1. constructor; assumption.
Qed.

Theorem print_thm : forall n id, bytes_ok id ->
  (n < 2 * blen id + 1 /\ print_id n id = HErr) \/
  (2 * blen id + 1 <= n /\ exists s, print_id n id = HText (s ++ [0]) /\ spells s id /\ Forall lower_digit s /\ blen (s ++ [0]) <= n).
Proof.
  intros n id B. unfold print_id. destruct (n <? blen id * 2 + 1) eqn:E.
  - left. split; [lia|reflexivity].
  - right. split; [lia|]. destruct (hex_loop_thm id n B) as [s [A [C D]]]; [lia|]. exists s. rewrite A.
    split; [reflexivity|]. split; [exact C|]. split; [exact D|]. apply spells_len in C. unfold blen in *. rewrite app_length. simpl. lia.
Qed.

Theorem round_thm : forall n id s, bytes_ok id -> 1 <= blen id <= 18 -> print_id n id = HText (s ++ [0]) ->
  parse_id s = (id ++ repeat 0 (20 - length id), blen id).
Proof.
  intros n id s B L P. destruct (print_thm n id B) as [[_ Q]|[_ [s' [Q [SP _]]]]]; [congruence|].
  rewrite P in Q. inversion Q as [Q1]. apply app_inj_tail in Q1. destruct Q1 as [Q1 _]. subst s'.
  apply parse_thm. auto.
Qed.

(** Two ids with the same text are equal. *)
Theorem inj_thm : forall n m a b s, bytes_ok a -> bytes_ok b -> print_id n a = HText s -> print_id m b = HText s -> a = b.
Proof.
  intros n m a b s A B P Q.
  destruct (print_thm n a A) as [[_ C]|[_ [s1 [C [S1 _]]]]]; [congruence|].
  destruct (print_thm m b B) as [[_ D]|[_ [s2 [D [S2 _]]]]]; [congruence|].
  rewrite P in C. rewrite Q in D. inversion C; subst. inversion D as [E]. apply app_inj_tail in E. destruct E as [E _]. subst s2.
  apply loop_iff in S1. apply loop_iff in S2. congruence.
Qed.

Theorem long_refuted : exists id s, bytes_ok id /\ blen id <= 20 /\ print_id 41 id = HText (s ++ [0]) /\ parse_id s = (repeat 0 20, 0).
Proof.
  exists (repeat 171 20), (concat (repeat [97; 98] 20)). split.
  - unfold bytes_ok. apply Forall_forall. intros x H. apply repeat_spec in H. subst. reflexivity.
  - split; [vm_compute; discriminate|]. split; vm_compute; reflexivity.
Qed.

Theorem empty_refuted : exists s1 s2, print_id 41 [] = HText (s1 ++ [0]) /\ (forall l, ~ spells s2 l) /\ parse_id s1 = parse_id s2.
Proof.
  exists [], [103]. split; [reflexivity|]. split; [|reflexivity]. intros l H. inversion H.
Qed.
