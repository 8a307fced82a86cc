(** QPACK integers. *)
From Verif Require Import Base Tac Varint_proofs Qpack_model Qpack_spec.

Lemma land127 : forall b, N.land b 127 = b mod 128.
Proof. intros b. exact (N.land_ones b 7). Qed.

Lemma byte_high : forall b, b < 256 -> (N.land b 128 =? 0) = (b <? 128).
Proof.
  intros b H.
  assert (E : forall n, (n < 256)%nat -> (N.land (N.of_nat n) 128 =? 0) = (N.of_nat n <? 128)).
  { intros n. do 256 (destruct n as [| n]; [reflexivity |]). intros K. lia. }
  specialize (E (N.to_nat b)). rewrite N2Nat.id in E. apply E. lia.
Qed.

Lemma pow7 : forall j, 2 ^ (7 * (j + 1)) = 128 * 2 ^ (7 * j).
Proof. intros j. replace (7 * (j + 1)) with (7 + 7 * j) by lia. rewrite N.pow_add_r. reflexivity. Qed.

Lemma pow_mono : forall a b, a <= b -> 2 ^ a <= 2 ^ b.
Proof. intros a b H. apply N.pow_le_mono_r; lia. Qed.

Lemma pow_pos : forall a, 0 < 2 ^ a.
Proof. intros a. assert (2 ^ a <> 0) by (apply N.pow_nonzero; lia). lia. Qed.

(** One group is added to the value. *)
Lemma add_group : forall v x j, v < 2 ^ (7 * j) -> x < 128 -> j <= 8 ->
  N.lor v (u64 (N.shiftl x (7 * j))) = v + x * 2 ^ (7 * j) /\
  v + x * 2 ^ (7 * j) < 2 ^ (7 * (j + 1)).
Proof.
  intros v x j V X J. rewrite N.shiftl_mul_pow2.
  pose proof (pow_mono (7 * j) 56 ltac:(lia)) as M. change (2 ^ 56) with 72057594037927936 in M.
  pose proof (pow_pos (7 * j)) as Q.
  assert (B : x * 2 ^ (7 * j) <= 127 * 2 ^ (7 * j)) by (apply N.mul_le_mono_r; lia).
  unfold u64. rewrite N.mod_small by (unfold two64; lia).
  split.
  - rewrite N.lor_comm, lor_add_pow2 by exact V. lia.
  - rewrite pow7. lia.
Qed.

Lemma groups_bound : forall c p, groups c p -> c < 2 ^ (7 * N.of_nat (length p)) /\ (1 <= length p)%nat.
Proof.
  intros c p G. induction G as [b B | b v l B G [IH L]].
  - cbn [length]. change (2 ^ (7 * N.of_nat 1)) with 128. lia.
  - cbn [length]. rewrite Nat2N.inj_succ, <- N.add_1_r, pow7. lia.
Qed.

Lemma groups_bytes : forall c p, groups c p -> bytes_ok p.
Proof.
  intros c p G. induction G as [b B | b v l B G IH].
  - constructor; [unfold is_byte; lia | constructor].
  - constructor; [unfold is_byte; lia | exact IH].
Qed.

Lemma loop_back : forall c p, groups c p -> forall j v r, v < 2 ^ (7 * j) -> j + N.of_nat (length p) <= 9 ->
  int_decode_loop (p ++ r) (7 * j) v = Some (v + c * 2 ^ (7 * j), r).
Proof.
  intros c p G. induction G as [b B | b w l B G IH]; intros j v r V L; cbn [app int_decode_loop length] in *.
  - replace (62 <=? 7 * j) with false by lia.
    rewrite land127, N.mod_small by exact B.
    destruct (add_group v b j V B ltac:(lia)) as [E _]. rewrite E.
    rewrite byte_high by lia. replace (b <? 128) with true by lia. reflexivity.
  - destruct (groups_bound _ _ G) as [_ L1].
    replace (62 <=? 7 * j) with false by lia.
    rewrite land127.
    replace ((128 + b) mod 128) with b by lia.
    destruct (add_group v b j V B ltac:(lia)) as [E F]. rewrite E.
    rewrite byte_high by lia. replace (128 + b <? 128) with false by lia.
    replace (7 * j + 7) with (7 * (j + 1)) by lia.
    rewrite IH; [| exact F | lia].
    f_equal. f_equal. rewrite pow7. lia.
Qed.

Lemma loop_inv : forall l j v w r, bytes_ok l -> v < 2 ^ (7 * j) -> j <= 9 ->
  int_decode_loop l (7 * j) v = Some (w, r) ->
  exists c p, l = p ++ r /\ groups c p /\ w = v + c * 2 ^ (7 * j) /\ j + N.of_nat (length p) <= 9.
Proof.
  induction l as [| b l IH]; intros j v w r O V J H; cbn [int_decode_loop] in H; [discriminate |].
  inversion O as [| x y Ob Ol]; subst. unfold is_byte in Ob.
  destruct (62 <=? 7 * j) eqn:S; [discriminate |].
  rewrite land127 in H.
  assert (X : b mod 128 < 128) by lia.
  destruct (add_group v (b mod 128) j V X ltac:(lia)) as [E F]. rewrite E in H.
  rewrite byte_high in H by exact Ob. destruct (b <? 128) eqn:T.
  - inv_pair H. exists b, [b].
    split; [reflexivity |]. split; [constructor; lia |].
    rewrite (N.mod_small b 128) by lia. split; [lia |]. cbn [length]. lia.
  - replace (7 * j + 7) with (7 * (j + 1)) in H by lia.
    apply IH in H; [| exact Ol | exact F | lia].
    destruct H as (c & p & -> & G & -> & L).
    exists (b mod 128 + 128 * c), (b :: p). split; [reflexivity |]. split.
    + replace b with (128 + b mod 128) at 2 by lia. constructor; [lia | exact G].
    + split; [rewrite pow7; lia | cbn [length]; lia].
Qed.

(** The bits of a prefix. *)
Lemma land_prefix : forall mask hi v, prefix mask hi -> v <= mask -> N.land (hi + v) mask = v.
Proof.
  intros mask hi v (I & M & B) V.
  cbn [In] in I.
  destruct I as [<- | [<- | [<- | [<- | []]]]].
  - change (N.land (hi + v) 7) with (N.land (hi + v) (N.ones 3)). rewrite N.land_ones. change (2 ^ 3) with 8. lia.
  - change (N.land (hi + v) 15) with (N.land (hi + v) (N.ones 4)). rewrite N.land_ones. change (2 ^ 4) with 16. lia.
  - change (N.land (hi + v) 63) with (N.land (hi + v) (N.ones 6)). rewrite N.land_ones. change (2 ^ 6) with 64. lia.
  - change (N.land (hi + v) 127) with (N.land (hi + v) (N.ones 7)). rewrite N.land_ones. change (2 ^ 7) with 128. lia.
Qed.

Lemma prefix_mask : forall mask hi, prefix mask hi -> 7 <= mask <= 127.
Proof. intros mask hi (I & _ & _). cbn [In] in I. lia. Qed.

Lemma prefix_of : forall mask b, In mask [7; 15; 63; 127] -> b < 256 ->
  prefix mask (b - b mod (mask + 1)) /\ b mod (mask + 1) <= mask /\
  b = (b - b mod (mask + 1)) + b mod (mask + 1) /\ N.land b mask = b mod (mask + 1).
Proof.
  intros mask b I B.
  assert (E : N.land b mask = b mod (mask + 1)).
  { cbn [In] in I. destruct I as [<- | [<- | [<- | [<- | []]]]].
    - exact (N.land_ones b 3).
    - exact (N.land_ones b 4).
    - exact (N.land_ones b 6).
    - exact (N.land_ones b 7). }
  repeat split.
  - exact I.
  - cbn [In] in I. destruct I as [<- | [<- | [<- | [<- | []]]]]; lia.
  - cbn [In] in I. destruct I as [<- | [<- | [<- | [<- | []]]]]; lia.
  - cbn [In] in I. lia.
  - cbn [In] in I. lia.
  - exact E.
Qed.

Lemma int_back : forall mask hi v p r, prefix mask hi -> int_repr mask hi v p ->
  int_decode mask (p ++ r) = (v, Some r).
Proof.
  intros mask hi v p r P [L [[V ->] | (c & q & -> & -> & G)]]; cbn [app int_decode].
  - rewrite land_prefix by (first [exact P | lia]).
    replace (v =? mask) with false by lia. reflexivity.
  - rewrite land_prefix by (first [exact P | lia]). rewrite N.eqb_refl.
    cbn [length] in L.
    pose proof (loop_back c q G 0 0 r ltac:(reflexivity) ltac:(lia)) as E.
    change (7 * 0) with 0 in E. rewrite E. change (2 ^ 0) with 1.
    destruct (groups_bound _ _ G) as [Bc _].
    pose proof (pow_mono (7 * N.of_nat (length q)) 63 ltac:(lia)) as M.
    change (2 ^ 63) with 9223372036854775808 in M.
    pose proof (prefix_mask _ _ P).
    unfold u64. rewrite N.mod_small by (unfold two64; lia).
    f_equal. lia.
Qed.

Lemma int_inv : forall mask l v r, In mask [7; 15; 63; 127] -> bytes_ok l ->
  int_decode mask l = (v, Some r) ->
  exists b q hi, prefix mask hi /\ int_repr mask hi v (b :: q) /\ l = (b :: q) ++ r /\
    hi = b - b mod (mask + 1) /\ b < 256.
Proof.
  intros mask l v r I O H. destruct l as [| b l]; cbn [int_decode] in H; [discriminate |].
  inversion O as [| x y Ob Ol]; subst. unfold is_byte in Ob.
  destruct (prefix_of mask b I Ob) as (P & M & E & F).
  rewrite F in H.
  destruct (b mod (mask + 1) =? mask) eqn:T.
  - destruct (int_decode_loop l 0 0) as [[c r'] |] eqn:D; [| discriminate].
    injection H as <- <-.
    change 0 with (7 * 0) in D at 1.
    apply loop_inv in D; [| exact Ol | reflexivity | lia].
    destruct D as (c' & p & -> & G & -> & L).
    exists b, p, (b - b mod (mask + 1)). split; [exact P |]. split.
    + split; [cbn [length]; lia |]. right. exists c', p.
      destruct (groups_bound _ _ G) as [Bc _].
      pose proof (pow_mono (7 * N.of_nat (length p)) 63 ltac:(lia)) as M2.
      change (2 ^ 63) with 9223372036854775808 in M2. change (2 ^ (7 * 0)) with 1.
      pose proof (prefix_mask _ _ P).
      split; [| split; [f_equal; lia | exact G]].
      unfold u64. rewrite N.mod_small by (unfold two64; lia). lia.
    + split; [reflexivity |]. split; [reflexivity | exact Ob].
  - injection H as <- <-.
    exists b, [], (b - b mod (mask + 1)). split; [exact P |]. split.
    + split; [cbn [length]; lia |]. left. split; [lia |]. f_equal. exact E.
    + split; [reflexivity |]. split; [reflexivity | exact Ob].
Qed.

(** The decoder reads exactly the representations. *)
Theorem int_decode_iff : forall mask l v r, In mask [7; 15; 63; 127] -> bytes_ok l ->
  (int_decode mask l = (v, Some r) <->
   exists hi p, prefix mask hi /\ int_repr mask hi v p /\ l = p ++ r).
Proof.
  intros mask l v r I O. split.
  - intros H. destruct (int_inv mask l v r I O H) as (b & q & hi & P & R & E & _).
    exists hi, (b :: q). repeat split; assumption || apply R || apply P.
  - intros (hi & p & P & R & ->). exact (int_back mask hi v p r P R).
Qed.

Theorem int_value_bound : forall mask l v r, In mask [7; 15; 63; 127] -> bytes_ok l ->
  int_decode mask l = (v, Some r) -> v < 2 ^ 63 + 127 /\ blen r < blen l.
Proof.
  intros mask l v r I O H. destruct (int_inv mask l v r I O H) as (b & q & hi & P & R & E & _).
  pose proof (prefix_mask _ _ P) as M. split.
  - destruct R as [L [[V _] | (c & q' & -> & E2 & G)]].
    + change (2 ^ 63) with 9223372036854775808. lia.
    + injection E2 as -> <-. destruct (groups_bound _ _ G) as [Bc _]. cbn [length] in L.
      pose proof (pow_mono (7 * N.of_nat (length q)) 63 ltac:(lia)). lia.
  - subst l. unfold blen. rewrite app_length. cbn [length]. lia.
Qed.

(** ** Encoding *)

Lemma loop_groups : forall room v l, int_encode_loop room v = Some l -> groups v l.
Proof.
  induction room as [| n IH]; intros v l H; cbn [int_encode_loop] in H; [discriminate |].
  destruct (128 <=? v) eqn:T.
  - destruct (int_encode_loop n (N.shiftr v 7)) as [l' |] eqn:D; [| discriminate].
    apply some_inj in H. subst l. apply IH in D.
    rewrite N.shiftr_div_pow2 in D. change (2 ^ 7) with 128 in D.
    rewrite land127.
    assert (E : N.lor 128 (v mod 128) = 128 + v mod 128).
    { change 128 with (1 * 2 ^ 7) at 1. rewrite lor_add_pow2 by (change (2 ^ 7) with 128; lia). reflexivity. }
    rewrite E. replace v with (v mod 128 + 128 * (v / 128)) at 1 by lia.
    constructor; [lia | exact D].
  - injection H as <-. constructor. lia.
Qed.

Lemma loop_room : forall room v l, int_encode_loop room v = Some l -> (length l <= room)%nat.
Proof.
  induction room as [| n IH]; intros v l H; cbn [int_encode_loop] in H; [discriminate |].
  destruct (128 <=? v).
  - destruct (int_encode_loop n (N.shiftr v 7)) as [l' |] eqn:D; [| discriminate].
    injection H as <-. apply IH in D. cbn [length]. lia.
  - injection H as <-. cbn [length]. lia.
Qed.

(** The encoder writes the shortest groups: the last one is zero only for zero. *)
Lemma loop_shortest : forall room v l c, int_encode_loop room v = Some l -> forall l', groups c l' -> c = v ->
  (length l <= length l')%nat.
Proof.
  induction room as [| n IH]; intros v l c H l' G E; cbn [int_encode_loop] in H; [discriminate |].
  destruct (128 <=? v) eqn:T.
  - destruct (int_encode_loop n (N.shiftr v 7)) as [r |] eqn:D; [| discriminate].
    injection H as <-. inversion G as [b B | b w q B G' E1]; subst; [lia |].
    cbn [length]. apply le_n_S. eapply IH; [exact D | exact G' |].
    rewrite N.shiftr_div_pow2. change (2 ^ 7) with 128. lia.
  - injection H as <-. destruct (groups_bound _ _ G) as [_ L]. cbn [length]. lia.
Qed.

Lemma loop_fits : forall n v room, v < 2 ^ (7 * N.of_nat n) -> (1 <= n)%nat -> (n <= room)%nat ->
  exists l, int_encode_loop room v = Some l /\ (length l <= n)%nat.
Proof.
  induction n as [| n IH]; intros v room V N1 R; [lia |].
  destruct room as [| room]; [lia |]. cbn [int_encode_loop].
  destruct (128 <=? v) eqn:T.
  - rewrite Nat2N.inj_succ, <- N.add_1_r, pow7 in V.
    destruct n as [| n]; [change (2 ^ (7 * N.of_nat 0)) with 1 in V; lia |].
    destruct (IH (N.shiftr v 7) room) as (l & E & L); [| lia | lia |].
    + rewrite N.shiftr_div_pow2. change (2 ^ 7) with 128. lia.
    + rewrite E. eexists. split; [reflexivity |]. cbn [length]. lia.
  - eexists. split; [reflexivity |]. cbn [length]. lia.
Qed.

Lemma loop_more : forall room v l room', int_encode_loop room v = Some l -> (length l <= room')%nat ->
  int_encode_loop room' v = Some l.
Proof.
  induction room as [| n IH]; intros v l room' H L; cbn [int_encode_loop] in H; [discriminate |].
  destruct (128 <=? v) eqn:T.
  - destruct (int_encode_loop n (N.shiftr v 7)) as [r |] eqn:D; [| discriminate].
    injection H as <-. cbn [length] in L. destruct room' as [| m]; [lia |].
    cbn [int_encode_loop]. rewrite T. rewrite (IH _ _ m D) by lia. reflexivity.
  - injection H as <-. cbn [length] in L. destruct room' as [| m]; [lia |].
    cbn [int_encode_loop]. rewrite T. reflexivity.
Qed.

Lemma lor_prefix : forall mask hi v, prefix mask hi -> v <= mask -> N.lor hi v = hi + v.
Proof.
  intros mask hi v (I & M & B) V. cbn [In] in I.
  destruct I as [<- | [<- | [<- | [<- | []]]]].
  - replace hi with (hi / 8 * 2 ^ 3) by (change (2 ^ 3) with 8; lia). apply lor_add_pow2. change (2 ^ 3) with 8. lia.
  - replace hi with (hi / 16 * 2 ^ 4) by (change (2 ^ 4) with 16; lia). apply lor_add_pow2. change (2 ^ 4) with 16. lia.
  - replace hi with (hi / 64 * 2 ^ 6) by (change (2 ^ 6) with 64; lia). apply lor_add_pow2. change (2 ^ 6) with 64. lia.
  - replace hi with (hi / 128 * 2 ^ 7) by (change (2 ^ 7) with 128; lia). apply lor_add_pow2. change (2 ^ 7) with 128. lia.
Qed.

Theorem int_encode_repr : forall mask hi v room p, prefix mask hi -> v < 2 ^ 63 ->
  int_encode hi mask v room = Some p ->
  int_repr mask hi v p /\ blen p <= room /\
  (forall q, int_repr mask hi v q -> blen p <= blen q).
Proof.
  intros mask hi v room p P V H. unfold int_encode in H.
  destruct (room =? 0) eqn:R; [discriminate |].
  pose proof (prefix_mask _ _ P) as Bm.
  destruct (v <? mask) eqn:T.
  - injection H as <-. rewrite (lor_prefix mask) by (first [exact P | lia]). split; [| split].
    + split; [cbn [length]; lia |]. left. split; [lia | reflexivity].
    + cbn. lia.
    + intros q [Lq [[_ ->] | (c & r & -> & _)]]; [cbn; lia | lia].
  - destruct (int_encode_loop (N.to_nat (room - 1)) (v - mask)) as [l |] eqn:D; [| discriminate].
    injection H as <-. rewrite (lor_prefix mask) by (first [exact P | lia]).
    pose proof (loop_groups _ _ _ D) as G. pose proof (loop_room _ _ _ D) as L.
    destruct (loop_fits 9 (v - mask) 9) as (l' & E' & L').
    { change (2 ^ (7 * N.of_nat 9)) with (2 ^ 63). lia. }
    { lia. }
    { lia. }
    pose proof (loop_shortest _ _ _ _ D l' (loop_groups _ _ _ E') eq_refl) as S.
    split; [| split].
    + split; [cbn [length]; lia |]. right. exists (v - mask), l. split; [lia |]. split; [reflexivity | exact G].
    + unfold blen. cbn [length]. lia.
    + intros q [Lq [[Vq _] | (c & r & Ec & -> & Gr)]]; [lia |].
      pose proof (loop_shortest _ _ _ _ D r Gr ltac:(lia)). unfold blen. cbn [length]. lia.
Qed.

Theorem int_encode_fits : forall mask hi v room, prefix mask hi -> v < 2 ^ 63 -> 10 <= room ->
  exists p, int_encode hi mask v room = Some p /\ blen p <= 10.
Proof.
  intros mask hi v room P V R. unfold int_encode. replace (room =? 0) with false by lia.
  destruct (v <? mask); [eexists; split; [reflexivity | cbn; lia] |].
  destruct (loop_fits 9 (v - mask) (N.to_nat (room - 1))) as (l' & E' & L').
  { change (2 ^ (7 * N.of_nat 9)) with (2 ^ 63). lia. }
  { lia. }
  { lia. }
  rewrite E'. eexists. split; [reflexivity |]. unfold blen. cbn [length]. lia.
Qed.

Theorem int_round_trip : forall mask hi v room p r, prefix mask hi -> v < 2 ^ 63 ->
  int_encode hi mask v room = Some p -> int_decode mask (p ++ r) = (v, Some r).
Proof.
  intros mask hi v room p r P V H.
  destruct (int_encode_repr mask hi v room p P V H) as (R & _ & _).
  exact (int_back mask hi v p r P R).
Qed.
