(** Lemmas about the byte streams. *)
From Verif Require Import Base Tac Varint_model Varint_spec Varint_proofs Bstream_model Bstream_spec.

Definition same_before (n : N) (d d' : list N) : Prop :=
  exists a b c, d = a ++ b /\ d' = a ++ c /\ blen a = n.

Lemma app_inj_len : forall (a a' b b' : list N), a ++ b = a' ++ b' -> blen a = blen a' -> a = a' /\ b = b'.
Proof.
  induction a as [|x a IH]; intros [|y a'] b b' E L; unfold blen in L; cbn [length] in L; try lia.
  - split; [reflexivity|exact E].
  - cbn in E. injection E as <- E. destruct (IH a' b b' E) as [-> ->]; [unfold blen; lia|]. split; reflexivity.
Qed.

Lemma app_prefix_len : forall (a a' b b' : list N), a ++ b = a' ++ b' -> blen a <= blen a' ->
  exists c, a' = a ++ c /\ b = c ++ b'.
Proof.
  induction a as [|x a IH]; intros a' b b' E L.
  - exists a'. split; [reflexivity|exact E].
  - destruct a' as [|y a']; unfold blen in L; cbn [length] in L; [lia|].
    cbn in E. injection E as <- E. destruct (IH a' b b' E) as (c & -> & ->); [unfold blen; lia|].
    exists c. split; reflexivity.
Qed.

Lemma blen_zero : forall l, blen l = 0 -> l = [].
Proof. intros [|x l] H; [reflexivity|]. unfold blen in H. cbn [length] in H. lia. Qed.

Lemma split_at : forall n (l : list N), n <= blen l ->
  exists a b, l = a ++ b /\ blen a = n /\ firstn (N.to_nat n) l = a /\ skipn (N.to_nat n) l = b.
Proof.
  intros n l H. exists (firstn (N.to_nat n) l), (skipn (N.to_nat n) l).
  repeat split; [rewrite firstn_skipn; reflexivity|]. unfold blen in *. rewrite firstn_length. lia.
Qed.

Lemma skipn_app_len : forall (a b : list N) n, blen a = n -> skipn (N.to_nat n) (a ++ b) = b.
Proof.
  intros a b n H. unfold blen in H. replace (N.to_nat n) with (length a) by lia.
  rewrite skipn_app, skipn_all, Nat.sub_diag. reflexivity.
Qed.

Lemma firstn_app_len : forall (a b : list N) n, blen a = n -> firstn (N.to_nat n) (a ++ b) = a.
Proof.
  intros a b n H. unfold blen in H. replace (N.to_nat n) with (length a) by lia.
  rewrite firstn_app, firstn_all, Nat.sub_diag. apply app_nil_r.
Qed.

Lemma room_eq : forall s, bs_ok s -> b_room s = blen (b_data s) - b_ptr s.
Proof. intros s (A & B & _). unfold b_room, b_size, u64, two64 in *. lia. Qed.

Lemma room_rest : forall s, bs_ok s -> b_room s = blen (b_rest s).
Proof.
  intros s H. rewrite room_eq by exact H. destruct H as (A & B & _). unfold b_rest.
  destruct (split_at _ _ A) as (a & b & E & L & _ & ->). rewrite E, blen_app. lia.
Qed.

Lemma data_rest : forall s, bs_ok s -> exists a, b_data s = a ++ b_rest s /\ blen a = b_ptr s.
Proof.
  intros s (A & B & _). destruct (split_at _ _ A) as (a & b & E & L & _ & S'). unfold b_rest. rewrite S'.
  exists a. split; assumption.
Qed.

Lemma bytes_ok_app : forall a b, bytes_ok (a ++ b) <-> bytes_ok a /\ bytes_ok b.
Proof. intros. unfold bytes_ok. apply Forall_app. Qed.

Lemma rest_ok : forall s, bs_ok s -> bytes_ok (b_rest s).
Proof.
  intros s H. destruct (data_rest s H) as (a & E & _). destruct H as (_ & _ & H).
  rewrite E, bytes_ok_app in H. apply H.
Qed.

Lemma rest_adv : forall s s' p t, bs_ok s -> b_rest s = p ++ t -> b_data s' = b_data s ->
  b_ptr s' = b_ptr s + blen p -> b_rest s' = t /\ bs_ok s'.
Proof.
  intros s s' p t H E D P. destruct (data_rest s H) as (a & Ea & La). rewrite E, app_assoc in Ea.
  assert (L : blen (a ++ p) = b_ptr s') by (rewrite blen_app; lia).
  split.
  - unfold b_rest. rewrite D, Ea. apply skipn_app_len. exact L.
  - destruct H as (A & B & C). unfold bs_ok. rewrite D. repeat split; try assumption.
    rewrite Ea, blen_app. lia.
Qed.

(** ** Writing *)

Definition Wr (f : bstream -> wres) (p : list N) : Prop := forall s, bs_ok s ->
  exists s' r, f s = Some (s', r) /\ bs_ok s' /\ blen (b_data s') = blen (b_data s) /\
    if r then b_ptr s + blen p <= blen (b_data s) /\ written (b_ptr s) p (b_data s) (b_data s') /\
              b_ptr s' = b_ptr s + blen p
    else blen (b_data s) < b_ptr s + blen p /\ b_ptr s' = blen (b_data s) /\
         same_before (b_ptr s) (b_data s) (b_data s').

Lemma error_ok : forall s, bs_ok s -> bs_ok (b_error s).
Proof. intros s (A & B & C). unfold bs_ok, b_error, b_size. cbn. repeat split; [lia|assumption..]. Qed.

Lemma poke_ok : forall v s, bs_ok s -> bytes_ok v -> b_ptr s + blen v <= blen (b_data s) ->
  exists s', poke v s = Some s' /\ bs_ok s' /\ blen (b_data s') = blen (b_data s) /\
    written (b_ptr s) v (b_data s) (b_data s') /\ b_ptr s' = b_ptr s + blen v.
Proof.
  intros v s H V L. unfold poke, b_size. replace (b_ptr s + blen v <=? blen (b_data s)) with true by lia.
  eexists. split; [reflexivity|]. destruct (data_rest s H) as (a & E & La). unfold b_rest in E.
  pose proof (rest_ok s H) as RO. unfold b_rest in RO.
  set (rst := skipn (N.to_nat (b_ptr s)) (b_data s)) in *.
  assert (LR : blen v <= blen rst) by (rewrite E, blen_app in L; lia).
  destruct (split_at _ _ LR) as (b & c & Eb & Lb & _ & _).
  assert (F : firstn (N.to_nat (b_ptr s)) (b_data s) = a).
  { rewrite E. apply firstn_app_len. exact La. }
  assert (K : skipn (N.to_nat (b_ptr s + blen v)) (b_data s) = c).
  { rewrite E, Eb, app_assoc. apply skipn_app_len. rewrite blen_app. lia. }
  rewrite F, K. destruct H as (A & B & C). rewrite E, Eb in *. rewrite !bytes_ok_app in C.
  unfold bs_ok. cbn [b_data b_ptr]. rewrite !blen_app in *. rewrite !bytes_ok_app. repeat split; try tauto; try lia.
  exists a, b, c. repeat split; assumption.
Qed.

Lemma error_wr : forall s p, bs_ok s -> blen (b_data s) < b_ptr s + blen p ->
  exists s' r, Some (b_error s, false) = Some (s', r) /\ bs_ok s' /\ blen (b_data s') = blen (b_data s) /\
    if r : bool then b_ptr s + blen p <= blen (b_data s) /\ written (b_ptr s) p (b_data s) (b_data s') /\
              b_ptr s' = b_ptr s + blen p
    else blen (b_data s) < b_ptr s + blen p /\ b_ptr s' = blen (b_data s) /\
         same_before (b_ptr s) (b_data s) (b_data s').
Proof.
  intros s p H L. exists (b_error s), false. split; [reflexivity|]. split; [apply error_ok; exact H|].
  cbn. repeat split; [exact L|]. destruct (data_rest s H) as (a & E & La).
  exists a, (b_rest s), (b_rest s). repeat split; assumption.
Qed.

Lemma put_wr : forall n v, blen v = n -> bytes_ok v -> Wr (put n v) v.
Proof.
  intros n v <- V s H. unfold put. rewrite (room_eq s H).
  assert (A := proj1 H).
  destruct (blen (b_data s) - b_ptr s <? blen v) eqn:R.
  - apply error_wr; [exact H|lia].
  - destruct (poke_ok v s H V) as (s' & -> & O & L & W & P); [lia|].
    exists s', true. repeat split; try assumption; try lia; apply O.
Qed.

Lemma vint_wr : forall n, Wr (w_vint n) (varint_bytes n).
Proof.
  intros n s H. unfold w_vint. rewrite varint_encode_eq, (room_eq s H), <- varint_bytes_length.
  assert (A := proj1 H). pose proof (encode_varint_length_pos n) as EP. rewrite <- varint_bytes_length in EP.
  destruct (blen (varint_bytes n) <=? blen (b_data s) - b_ptr s) eqn:R.
  - replace (blen (varint_bytes n) =? 0) with false by lia.
    destruct (poke_ok (varint_bytes n) s H (varint_bytes_ok n)) as (s' & -> & O & L & W & P); [lia|].
    exists s', true. repeat split; try assumption; try lia; apply O.
  - rewrite blen_nil. apply error_wr; [exact H|lia].
Qed.

Lemma and_wr : forall f g p q, Wr f p -> Wr g q -> Wr (w_and f g) (p ++ q).
Proof.
  intros f g p q F G s H. unfold w_and. destruct (F s H) as (s1 & r1 & -> & O1 & L1 & C1).
  destruct (G s1 O1) as (s2 & r2 & -> & O2 & L2 & C2). exists s2, (r1 && r2). split; [reflexivity|].
  split; [exact O2|]. split; [lia|]. rewrite blen_app.
  destruct r1; cbn [andb].
  - destruct C1 as (A1 & (a & b & c & E & E1 & La & Lb) & P1). destruct r2.
    + destruct C2 as (A2 & (a' & b' & c' & E1' & E2 & La' & Lb') & P2).
      split; [lia|]. split; [|lia]. rewrite E1 in E1'. rewrite app_assoc in E1'.
      apply app_inj_len in E1'; [|rewrite blen_app; lia]. destruct E1' as [<- ->].
      exists a, (b ++ b'), c'. rewrite E, E2, !blen_app, <- !app_assoc. repeat split; try assumption. lia.
    + destruct C2 as (A2 & P2 & (a' & b' & c' & E1' & E2 & La')). split; [lia|]. split; [lia|].
      rewrite E1, app_assoc in E1'. apply app_inj_len in E1'; [|rewrite blen_app; lia].
      destruct E1' as [<- <-]. exists a, (b ++ c), (p ++ c'). rewrite E, E2, <- app_assoc. repeat split. exact La.
  - destruct C1 as (A1 & P1 & (a & b & c & E & E1 & La)). destruct r2.
    + destruct C2 as (A2 & (a' & b' & c' & E1' & E2 & La' & Lb') & P2).
      split; [lia|]. split; [lia|]. assert (L1' := f_equal blen E1'). rewrite !blen_app in L1'.
      assert (b' = []) as -> by (apply blen_zero; lia).
      assert (c' = []) as -> by (apply blen_zero; lia).
      rewrite blen_nil in Lb'. assert (q = []) as -> by (apply blen_zero; lia).
      exists a, b, c. repeat split; try assumption. rewrite E2, <- E1', E1. reflexivity.
    + destruct C2 as (A2 & P2 & (a' & b' & c' & E1' & E2 & La')). split; [lia|]. split; [lia|].
      assert (L1' := f_equal blen E1'). assert (L2' := f_equal blen E2). rewrite !blen_app in *.
      assert (b' = []) as -> by (apply blen_zero; lia). assert (c' = []) as -> by (apply blen_zero; lia).
      exists a, b, c. repeat split; try assumption. rewrite E2, <- E1', E1. reflexivity.
Qed.

Lemma u8_ok : forall x, is_byte (u8 x).
Proof. intro x. unfold is_byte, u8. lia. Qed.

Lemma be_8 : forall n, n < 256 -> be n 1 [u8 n].
Proof.
  intros n H. repeat split; [constructor; [apply u8_ok|constructor]|].
  unfold be_value, u8. cbn [fold_left]. lia.
Qed.

Lemma be_16 : forall n, n < 65536 -> be n 2 (format_16 n).
Proof.
  intros n H. unfold format_16. repeat split; [repeat (constructor; [apply u8_ok|]); constructor|].
  rewrite shiftr8. unfold be_value, u8. cbn [fold_left]. lia.
Qed.

Lemma be_32 : forall n, n < 4294967296 -> be n 4 (format_32 n).
Proof.
  intros n H. unfold format_32. repeat split; [repeat (constructor; [apply u8_ok|]); constructor|].
  rewrite shiftr8, shiftr16, shiftr24. unfold be_value, u8. cbn [fold_left]. lia.
Qed.

Lemma be_64 : forall n, n < two64 -> be n 8 (format_64 n).
Proof.
  intros n H. unfold format_64, two64 in *. repeat split; [repeat (constructor; [apply u8_ok|]); constructor|].
  rewrite shiftr8, shiftr16, shiftr24, shiftr32, shiftr40, shiftr48, shiftr56. unfold be_value, u8. cbn [fold_left].
  lia.
Qed.

Lemma be_len : forall n k p, be n k p -> blen p = k.
Proof. intros n k p (H & _). exact H. Qed.

(** The bytes that are written for an item. *)
Definition enc (i : bitem) : list N :=
  match i with
  | BVint n => varint_bytes n
  | B8 n => [u8 n]
  | B16 n => format_16 n
  | B32 n => format_32 n
  | B64 n => format_64 n
  | BBuf l => l
  | BCid l => [u8 (blen l)] ++ l
  | BStr l => varint_bytes (blen l) ++ l
  | BAddr f ip port => (varint_bytes f ++ ip) ++ format_16 port
  end.

Lemma item_wr : forall i, item_ok i -> Wr (w_item i) (enc i).
Proof.
  intros [n|n|n|n|n|l|l|l|f ip port] H; cbn [w_item enc item_ok] in *.
  - apply vint_wr.
  - apply put_wr; apply (be_8 n H).
  - apply put_wr; apply (be_16 n H).
  - apply put_wr; apply (be_32 n H).
  - apply put_wr; apply (be_64 n H).
  - apply put_wr; [reflexivity|exact H].
  - destruct H as [H L]. intros s O. unfold w_cid. replace (20 <? blen l) with false by lia.
    revert s O. apply (and_wr (w_int8 (blen l)) (w_buffer l)).
    + apply put_wr; apply (be_8 (blen l)); lia.
    + apply put_wr; [reflexivity|exact H].
  - destruct H as [H L]. apply and_wr; [apply vint_wr|apply put_wr; [reflexivity|exact H]].
  - destruct H as (H & P & L). intros s O. unfold w_addr.
    destruct L as [[-> L]|(Nf & F & L)].
    + revert s O. apply and_wr; [apply and_wr; [apply vint_wr|apply put_wr; assumption]|apply put_wr; apply (be_16 port P)].
    + replace (f =? 2) with false by lia.
      revert s O. apply and_wr; [apply and_wr; [apply vint_wr|apply put_wr; assumption]|apply put_wr; apply (be_16 port P)].
Qed.

Lemma enc_shortest : forall i, item_ok i -> shortest i (enc i).
Proof.
  intros [n|n|n|n|n|l|l|l|f ip port] H; cbn [enc item_ok] in *; unfold shortest; cbn [lays].
  - split; [apply varint_bytes_is_varint; exact H|].
    intros q Q. rewrite varint_bytes_length. apply is_varint_len_min. exact Q.
  - split; [apply be_8; exact H|]. intros q Q. rewrite (be_len _ _ _ Q). vm_compute. discriminate.
  - split; [apply be_16; exact H|]. intros q Q. rewrite (be_len _ _ _ Q). apply N.le_refl.
  - split; [apply be_32; exact H|]. intros q Q. rewrite (be_len _ _ _ Q). apply N.le_refl.
  - split; [apply be_64; exact H|]. intros q Q. rewrite (be_len _ _ _ Q). apply N.le_refl.
  - split; [reflexivity|]. intros q ->. lia.
  - destruct H as [H L]. split; [exists [u8 (blen l)]; split; [apply be_8; lia|reflexivity]|].
    intros q (r & B & ->). rewrite !blen_app, (be_len _ _ _ B). apply N.le_refl.
  - destruct H as [H L]. split.
    + eexists. split; [apply varint_bytes_is_varint; exact L|reflexivity].
    + intros q (r & B & ->). rewrite !blen_app, varint_bytes_length. apply is_varint_len_min in B. lia.
  - destruct H as (H & P & L). assert (F : f < two62) by (destruct L as [[-> _]|(_ & L & _)]; [reflexivity|exact L]).
    split.
    + exists (varint_bytes f), (format_16 port).
      split; [apply varint_bytes_is_varint; exact F|]. split; [apply be_16; exact P|]. rewrite <- app_assoc. reflexivity.
    + intros q (a & b & A & B & ->). rewrite !blen_app, varint_bytes_length, (be_len _ _ _ B).
      apply is_varint_len_min in A. change (blen (format_16 port)) with 2. lia.
Qed.

Lemma items_wr : forall l, Forall item_ok l -> Wr (w_items l) (concat (map enc l)).
Proof.
  induction l as [|i l IH]; intro H; cbn [w_items map concat].
  - intros s O. exists s, true. rewrite blen_nil. split; [reflexivity|]. split; [exact O|]. split; [reflexivity|].
    destruct (data_rest s O) as (a & E & La). assert (A := proj1 O). split; [lia|]. split; [|lia].
    exists a, [], (b_rest s). repeat split; assumption.
  - inversion H as [|? ? H1 H2]; subst. apply and_wr; [apply item_wr; exact H1|apply IH; exact H2].
Qed.

Lemma enc_series : forall l, Forall item_ok l -> series l (concat (map enc l)).
Proof.
  induction l as [|i l IH]; intro H; cbn [series map concat]; [reflexivity|].
  inversion H as [|? ? H1 H2]; subst. exists (enc i), (concat (map enc l)).
  split; [reflexivity|]. split; [apply enc_shortest; exact H1|apply IH; exact H2].
Qed.

Lemma write_thm : forall l s, bs_ok s -> Forall item_ok l ->
  exists p s' r, series l p /\ w_items l s = Some (s', r) /\ bs_ok s' /\
    blen (b_data s') = blen (b_data s) /\
    (r = true <-> b_ptr s + blen p <= blen (b_data s)) /\
    if r then written (b_ptr s) p (b_data s) (b_data s') /\ b_ptr s' = b_ptr s + blen p
    else b_ptr s' = blen (b_data s) /\
         exists a b c, b_data s = a ++ b /\ b_data s' = a ++ c /\ blen a = b_ptr s.
Proof.
  intros l s O H. destruct (items_wr l H s O) as (s' & r & E & O' & L & C).
  exists (concat (map enc l)), s', r. split; [apply enc_series; exact H|].
  split; [exact E|]. split; [exact O'|]. split; [exact L|]. destruct r.
  - destruct C as (A & B & P). split; [split; [intros _; exact A|reflexivity]|]. split; assumption.
  - destruct C as (A & B & P). split; [split; [discriminate|intro; lia]|]. split; assumption.
Qed.

(** ** Reading *)

Definition Rd {A} (f : bstream -> rres A) (P : A -> list N -> Prop) : Prop := forall s, bs_ok s ->
  exists s' v, f s = Some (s', v) /\ b_data s' = b_data s /\ b_ptr s <= b_ptr s' <= blen (b_data s) /\
    match v with
    | Some a => exists p t, b_rest s = p ++ t /\ P a p /\ b_ptr s' = b_ptr s + blen p
    | None => forall a p t, b_rest s = p ++ t -> ~ P a p
    end.

Definition Det {A} (P : A -> list N -> Prop) : Prop := forall a a' p p' t t',
  bytes_ok (p ++ t) -> P a p -> P a' p' -> p ++ t = p' ++ t' -> a = a' /\ p = p'.

Lemma get_rd : forall n, Rd (get n) (fun l p => p = l /\ blen l = n).
Proof.
  intros n s H. unfold get. rewrite (room_rest s H).
  assert (A := proj1 H).
  destruct (blen (b_rest s) <? n) eqn:R.
  - exists (b_error s), None. repeat split; cbn; unfold b_size; try lia.
    intros a p t E [-> L]. rewrite E, blen_app in R. lia.
  - unfold peek. destruct (data_rest s H) as (d & E & Ld).
    assert (b_size s = b_ptr s + blen (b_rest s)) as -> by (unfold b_size; rewrite E at 1; rewrite blen_app; lia).
    replace (b_ptr s + n <=? b_ptr s + blen (b_rest s)) with true by lia.
    assert (LR : n <= blen (b_rest s)) by lia. destruct (split_at _ _ LR) as (x & y & Ex & Lx & Fx & _).
    rewrite Fx. eexists _, _. split; [reflexivity|]. cbn [b_data b_ptr]. split; [reflexivity|].
    split; [rewrite E at 1; rewrite blen_app; lia|]. exists x, y. repeat split; try assumption. lia.
Qed.

Lemma vint_rd : Rd r_vint is_varint.
Proof.
  intros s H. unfold r_vint. rewrite (room_rest s H). assert (A := proj1 H).
  pose proof (rest_ok s H) as RO. destruct (data_rest s H) as (d & E & Ld).
  destruct (blen (b_rest s) <? 1) eqn:R.
  - assert (Z : b_rest s = []) by (apply blen_zero; lia). rewrite Z in *.
    exists (b_error s), None. repeat split; cbn; unfold b_size; try lia.
    intros a p t Ep V. symmetry in Ep. apply app_eq_nil in Ep. destruct Ep as [-> ->].
    apply is_varint_len_min in V. pose proof (encode_varint_length_pos a). rewrite blen_nil in V. lia.
  - destruct (varint_decode_spec (b_rest s) RO) as [(v & p & t & Ep & V & ->)|[V ->]].
    + pose proof (is_varint_len_min _ _ V). pose proof (encode_varint_length_pos v).
      replace (blen p =? 0) with false by lia. eexists _, _. split; [reflexivity|]. cbn [b_data b_ptr].
      split; [reflexivity|]. split; [rewrite E at 1; rewrite Ep, !blen_app; lia|].
      exists p, t. repeat split; assumption.
    + replace (0 =? 0) with true by reflexivity. exists (b_error s), None. repeat split; cbn; unfold b_size; try lia.
      intros a p t Ep. apply (V a p t Ep).
Qed.

Lemma int_rd : forall n val, (forall l, blen l = n -> bytes_ok l -> val l = Some (be_value l)) ->
  Rd (r_int n val) (fun v p => be v n p).
Proof.
  intros n val HV s H. unfold r_int. destruct (get_rd n s H) as (s' & v & -> & D & P & C).
  destruct v as [l|].
  - destruct C as (p & t & E & (-> & L) & P').
    pose proof (rest_ok s H) as RO. rewrite E, bytes_ok_app in RO. rewrite HV by tauto.
    eexists _, _. split; [reflexivity|]. split; [exact D|]. split; [exact P|].
    exists l, t. repeat split; tauto.
  - eexists _, _. split; [reflexivity|]. split; [exact D|]. split; [exact P|].
    intros a p t E (L & _ & _). exact (C p p t E (conj eq_refl L)).
Qed.

Lemma val8_eq : forall l, blen l = 1 -> bytes_ok l -> val8 l = Some (be_value l).
Proof.
  intros [|a [|b l]] L O; unfold blen in L; cbn [length] in L; try lia. reflexivity.
Qed.

Lemma val16_eq : forall l, blen l = 2 -> bytes_ok l -> val16 l = Some (be_value l).
Proof.
  intros [|a [|b [|c l]]] L O; unfold blen in L; cbn [length] in L; try lia.
  inversion O as [|? ? Oa Ob]; subst. inversion Ob as [|? ? Oc _]; subst. unfold is_byte in *.
  unfold val16. rewrite lor_shiftl8 by assumption. unfold be_value. cbn [fold_left]. f_equal; lia.
Qed.

Lemma val32_eq : forall l, blen l = 4 -> bytes_ok l -> val32 l = Some (be_value l).
Proof.
  intros [|a [|b [|c [|d [|e l]]]]] L O; unfold blen in L; cbn [length] in L; try lia.
  inversion O as [|? ? Oa O1]; subst. inversion O1 as [|? ? Ob O2]; subst.
  inversion O2 as [|? ? Oc O3]; subst. inversion O3 as [|? ? Od _]; subst. unfold is_byte in *.
  unfold val32. rewrite !N.shiftl_mul_pow2.
  rewrite <- !N.lor_assoc.
  assert (E1 : N.lor (c * 2 ^ 8) d = c * 2 ^ 8 + d) by (apply lor_add_pow2; exact Od). rewrite E1.
  assert (E2 : N.lor (b * 2 ^ 16) (c * 2 ^ 8 + d) = b * 2 ^ 16 + (c * 2 ^ 8 + d)).
  { apply lor_add_pow2. change (2 ^ 16) with 65536. change (2 ^ 8) with 256. lia. }
  rewrite E2.
  assert (E3 : N.lor (a * 2 ^ 24) (b * 2 ^ 16 + (c * 2 ^ 8 + d)) = a * 2 ^ 24 + (b * 2 ^ 16 + (c * 2 ^ 8 + d))).
  { apply lor_add_pow2. change (2 ^ 24) with 16777216. change (2 ^ 16) with 65536. change (2 ^ 8) with 256. lia. }
  rewrite E3. change (2 ^ 24) with 16777216. change (2 ^ 16) with 65536. change (2 ^ 8) with 256.
  unfold be_value. cbn [fold_left]. f_equal; lia.
Qed.

Lemma val64_eq : forall l, blen l = 8 -> bytes_ok l -> val64 l = Some (be_value l).
Proof.
  intros l L O. unfold val64. unfold blen in L.
  destruct (be_loop_some 8 0 l) as [v Hv]; [lia|]. rewrite Hv. cbn [option_map fst]. f_equal.
  destruct (be_loop_value 8 0 l _ _ Hv O) as (p & E & Lp & ->); [vm_compute; discriminate|].
  assert (skipn 8 l = []) as Z.
  { apply skipn_all2. lia. }
  rewrite Z, app_nil_r in E. subst p. lia.
Qed.

Lemma be_det : forall k, Det (fun v p => be v k p).
Proof.
  intros k a a' p p' t t' _ (L & _ & <-) (L' & _ & <-) E. apply app_inj_len in E; [|lia].
  destruct E as [-> _]. split; reflexivity.
Qed.

Lemma vint_det : Det is_varint.
Proof.
  intros a a' p p' t t' O V V' E. rewrite bytes_ok_app in O.
  assert (O' : bytes_ok (p' ++ t')) by (rewrite <- E, bytes_ok_app; exact O). rewrite bytes_ok_app in O'.
  pose proof (is_varint_decode a p t V (proj2 O)) as D. pose proof (is_varint_decode a' p' t' V' (proj2 O')) as D'.
  rewrite E, D' in D. injection D as <- <-. split; [reflexivity|]. apply app_inv_tail in E. exact E.
Qed.

Lemma get_det : forall n, Det (fun l p => p = l /\ blen l = n).
Proof.
  intros n a a' p p' t t' _ [-> L] [-> L'] E. apply app_inj_len in E; [|lia]. destruct E as [-> _]. split; reflexivity.
Qed.

Lemma and_rd : forall A B (f : bstream -> rres A) (g : bstream -> rres B) P Q, Rd f P -> Rd g Q -> Det P ->
  Rd (r_and f g) (fun ab p => exists p1 p2, p = p1 ++ p2 /\ P (fst ab) p1 /\ Q (snd ab) p2).
Proof.
  intros A B f g P Q F G D s H. unfold r_and. destruct (F s H) as (s1 & v & -> & D1 & P1 & C1).
  assert (O1 : bs_ok s1).
  { destruct H as (X & Y & Z). unfold bs_ok. rewrite D1. repeat split; try assumption. apply P1. }
  destruct (G s1 O1) as (s2 & w & -> & D2 & P2 & C2). eexists _, _. split; [reflexivity|].
  split; [congruence|]. split; [rewrite D1 in P2; lia|]. destruct v as [a|].
  - destruct C1 as (p & t & E & Pa & Pt). destruct (rest_adv s s1 p t H E D1 Pt) as [R1 _].
    rewrite R1 in C2. destruct w as [b|].
    + destruct C2 as (q & u & E2 & Qb & Pq). exists (p ++ q), u. rewrite <- app_assoc, <- E2.
      split; [exact E|]. split; [exists p, q; repeat split; assumption|]. rewrite blen_app. lia.
    + intros [a' b'] p' t' E' (p1 & p2 & -> & Pa' & Qb'). cbn [fst snd] in *.
      pose proof (rest_ok s H) as RO. rewrite E in RO. rewrite <- app_assoc in E'.
      assert (EE : p ++ t = p1 ++ (p2 ++ t')) by congruence.
      destruct (D a a' p p1 t (p2 ++ t') RO Pa Pa' EE) as [<- <-]. apply app_inv_head in EE.
      exact (C2 b' p2 t' EE Qb').
  - intros [a' b'] p' t' E' (p1 & p2 & -> & Pa' & Qb'). rewrite <- app_assoc in E'.
    exact (C1 a' p1 (p2 ++ t') E' Pa').
Qed.
