(** Proofs about the sending of datagrams. *)
From Verif Require Import Base Varint_spec Varint_model Varint_proofs Dgram_model Dgram_spec.

Lemma dg_encode : forall n room p, frames_varint_encode n room = Some p -> n < two62 ->
  is_varint n p /\ blen p = encode_varint_length n /\ blen p <= room.
Proof.
  intros n room p H L. rewrite frames_varint_encode_eq in H. destruct (encode_varint_length n <=? room) eqn:E; [|discriminate].
  inversion H; subst. split; [apply varint_bytes_is_varint; exact L|]. rewrite varint_bytes_length. lia.
Qed.
Lemma vlen_bound : forall n, 1 <= encode_varint_length n <= 8.
Proof. intros n. unfold encode_varint_length. repeat match goal with |- context [if ?b then _ else _] => destruct b end; lia. Qed.
Lemma dg_blen_app : forall a b, blen (a ++ b) = blen a + blen b.
Proof. intros. unfold blen. rewrite app_length. lia. Qed.
Lemma dg_blen_repeat : forall (x : N) k, blen (repeat x k) = N.of_nat k.
Proof. intros. unfold blen. rewrite repeat_length. reflexivity. Qed.

Lemma put_thm : forall off b m, off + blen b <= blen m -> exists m', put off b m = Some m' /\ blen m' = blen m /\
  firstn (N.to_nat (off + blen b)) m' = firstn (N.to_nat off) m ++ b.
Proof.
  intros off b m H. unfold put. destruct (off + blen b <=? blen m) eqn:E; [|lia].
  eexists. split; [reflexivity|]. unfold blen in *. split.
  - rewrite !app_length, firstn_length, skipn_length. lia.
  - rewrite app_assoc. rewrite firstn_app.
    assert (L : length (firstn (N.to_nat off) m ++ b) = N.to_nat (off + N.of_nat (length b))) by (rewrite app_length, firstn_length; lia).
    rewrite <- L, Nat.sub_diag, firstn_all. simpl. apply app_nil_r.
Qed.

Lemma long_thm : forall len m, 1 + len <= blen m -> exists m' off, provide_long len m = Some (m', off) /\
  blen m' = blen m /\ off + len = blen m /\ firstn (N.to_nat off) m' = repeat 0 (N.to_nat (blen m - 1 - len)) ++ [48].
Proof.
  intros len m H. unfold provide_long.
  destruct (put_thm 0 [48] m) as [m1 [A [B C]]]; [unfold blen in *; simpl; lia|]. rewrite A. cbv zeta.
  destruct (1 + len <? blen m) eqn:E.
  - set (d := blen m - (1 + len)).
    destruct (put_thm 0 (repeat 0 (N.to_nat d)) m1) as [m2 [A2 [B2 C2]]]; [rewrite dg_blen_repeat; unfold d; lia|]. rewrite A2.
    destruct (put_thm d [48] m2) as [m3 [A3 [B3 C3]]]; [change (blen [48]) with 1; unfold d; lia|]. rewrite A3.
    exists m3, (d + 1). split; [reflexivity|]. split; [lia|]. split; [unfold d; lia|].
    change (blen [48]) with 1 in C3. rewrite C3. rewrite dg_blen_repeat in C2.
    replace (N.to_nat (0 + N.of_nat (N.to_nat d))) with (N.to_nat d) in C2 by lia. rewrite C2. simpl.
    replace (blen m - 1 - len) with d by (unfold d; lia). reflexivity.
  - exists m1, 1. split; [reflexivity|]. split; [lia|]. split; [lia|].
    change (blen [48]) with 1 in C. replace (blen m - 1 - len) with 0 by lia. exact C.
Qed.

(** One call. *)
Lemma provide_thm : forall allowed len act p, 17 <= blen (pv_mem p) < two62 -> allowed <= blen (pv_mem p) - 1 ->
  exists p' o, provide allowed len act p = Some (p', o) /\ blen (pv_mem p') = blen (pv_mem p) /\
  pv_active p' = N.testbit act 0 /\ pv_called p' = true /\ pv_cnx p' = N.testbit act 0 /\ pv_path p' = N.testbit act 1 /\
  match o with
  | None => (len = 0 \/ allowed < len) /\ pv_after p' = pv_after p /\ pv_mem p' = pv_mem p
  | Some off => 0 < len <= allowed /\ pv_after p' = off + len /\ off + len <= blen (pv_mem p) /\
      ((exists v, is_varint len v /\ off = 1 + blen v /\ firstn (N.to_nat off) (pv_mem p') = firstn 1 (pv_mem p) ++ v) \/
       (off + len = blen (pv_mem p) /\ exists k, (k < 8)%nat /\ firstn (N.to_nat off) (pv_mem p') = repeat 0 k ++ [48]))
  end.
Proof.
  intros allowed len act p R A. unfold provide. cbv zeta.
  destruct ((0 <? len) && (len <=? allowed)) eqn:E.
  2:{ eexists _, None. split; [reflexivity|]. simpl. repeat (split; [reflexivity|]). split; [|split; reflexivity].
      apply andb_false_iff in E. destruct E; lia. }
  apply andb_true_iff in E. destruct E as [E1 E2]. assert (L : 0 < len <= allowed) by lia.
  destruct (frames_varint_encode len (blen (pv_mem p) - 1)) as [v|] eqn:V.
  - apply dg_encode in V; [|lia]. destruct V as [V1 [V2 V3]]. pose proof (vlen_bound len) as VB.
    destruct (put_thm 1 v (pv_mem p)) as [m [M1 [M2 M3]]]; [lia|]. rewrite M1.
    destruct (blen m <? 1 + blen v + len) eqn:F.
    + destruct (long_thm len m) as [m' [off [X1 [X2 [X3 X4]]]]]; [lia|]. rewrite X1.
      eexists _, (Some off). split; [reflexivity|]. simpl. split; [lia|]. repeat (split; [reflexivity|]).
      split; [lia|]. split; [reflexivity|]. split; [lia|]. right. split; [lia|].
      exists (N.to_nat (blen m - 1 - len)). split; [lia|exact X4].
    + eexists _, (Some (1 + blen v)). split; [reflexivity|]. cbn [pv_mem pv_after pv_active pv_called pv_cnx pv_path].
      split; [lia|]. repeat (split; [reflexivity|]). split; [lia|]. split; [reflexivity|]. split; [lia|]. left. exists v.
      split; [exact V1|]. split; [reflexivity|]. exact M3.
  - rewrite frames_varint_encode_eq in V. pose proof (vlen_bound len) as VB.
    destruct (encode_varint_length len <=? blen (pv_mem p) - 1) eqn:F; [discriminate|lia].
Qed.

(** Any number of calls. *)
Lemma calls_thm : forall allowed l p, 17 <= blen (pv_mem p) < two62 -> allowed <= blen (pv_mem p) - 1 ->
  pv_after p <= blen (pv_mem p) ->
  exists p', calls allowed l p = Some p' /\ blen (pv_mem p') = blen (pv_mem p) /\ pv_after p' <= blen (pv_mem p).
Proof.
  intros allowed l. induction l as [|[data act] l IH]; intros p R A F; simpl.
  - exists p. auto.
  - destruct (provide_thm allowed (blen data) act p R A) as [p1 [o [E [B [_ [_ [_ [_ O]]]]]]]]. rewrite E. destruct o as [off|].
    + destruct O as [O1 [O2 [O3 _]]]. destruct (put_thm off data (pv_mem p1)) as [m [M1 [M2 _]]]; [lia|]. rewrite M1.
      destruct (IH (mk_prov m (pv_after p1) (pv_active p1) (pv_called p1) (pv_cnx p1) (pv_path p1))) as [p' [X1 [X2 X3]]]; cbn [pv_mem pv_after]; try lia.
      exists p'. split; [exact X1|]. cbn [pv_mem pv_after] in *. lia.
    + destruct O as [O1 [O2 O3]]. destruct (IH p1) as [p' [X1 [X2 X3]]]; try lia. exists p'. split; [exact X1|]. lia.
Qed.

Lemma format_safe : forall limit an m r, blen m < two62 -> exists m' after r', format_ready limit an m r = Some (m', after, r') /\
  blen m' = blen m /\ after <= blen m /\ (blen m < 17 -> after = 0).
Proof.
  intros limit an m r R. unfold format_ready. destruct (blen m <? 1) eqn:E1.
  - do 3 eexists. split; [reflexivity|]. lia.
  - destruct (put_thm 0 [49] m) as [m1 [M1 [M2 M3]]]; [change (blen [49]) with 1; lia|]. rewrite M1.
    destruct (blen m <? 17) eqn:E2; [do 3 eexists; split; [reflexivity|]; lia|]. cbv zeta.
    destruct (calls_thm (if limit <? blen m - 1 then limit else blen m - 1) (an_calls an) (mk_prov m1 0 false false (r_cnx r) (r_path r)))
      as [p [X1 [X2 X3]]]; cbn [pv_mem pv_after]; try lia.
    { destruct (limit <? blen m - 1) eqn:E3; lia. }
    rewrite X1. cbn [pv_mem pv_after] in *. destruct (an_error an); do 3 eexists; (split; [reflexivity|]); lia.
Qed.

Lemma blen_skipn : forall k m, blen (skipn (N.to_nat k) m) = blen m - k.
Proof. intros. unfold blen. rewrite skipn_length. lia. Qed.

(** The loop, whatever the application does. *)
Lemma loop_safe_gen : forall fuel limit app k m r, blen m < two62 -> (N.to_nat (blen m) < fuel)%nat ->
  exists bytes r', ready_loop fuel limit app k m r = LDone bytes r' /\ blen bytes <= blen m.
Proof.
  induction fuel as [|f IH]; intros limit app k m r R F; [lia|]. simpl.
  destruct (r_cnx r || r_path r); [|exists [], r; split; [reflexivity|unfold blen; simpl; lia]].
  destruct (format_safe limit (app k) m r R) as [m' [after [r' [E [B [A Z]]]]]]. rewrite E.
  destruct (after =? 0) eqn:E0; [exists [], r'; split; [reflexivity|unfold blen; simpl; lia]|].
  destruct (IH limit app (S k) (skipn (N.to_nat after) m') r') as [bytes [r'' [X Y]]]; try (rewrite blen_skipn; lia).
  rewrite X. exists (firstn (N.to_nat after) m' ++ bytes), r''. split; [reflexivity|].
  rewrite dg_blen_app. rewrite blen_skipn in Y. unfold blen in *. rewrite firstn_length. lia.
Qed.

(** One call at most: the shape of what is added. *)
Lemma format_one : forall limit an m r m' after r', blen m < two62 -> (length (an_calls an) <= 1)%nat ->
  format_ready limit an m r = Some (m', after, r') -> after <> 0 ->
  exists data act, an_calls an = [(data, act)] /\ 0 < blen data <= limit /\ after <= blen m /\ an_error an = false /\
    r_cnx r' = N.testbit act 0 /\ r_path r' = N.testbit act 1 /\ r_pure r' = false /\ r_more r' = (r_more r || N.testbit act 0) /\
    r_error r' = r_error r /\
    (with_length data (firstn (N.to_nat after) m') \/ (after = blen m /\ to_the_end data (firstn (N.to_nat after) m'))).
Proof.
  intros limit an m r m' after r' R C H Z. unfold format_ready in H.
  destruct (blen m <? 1) eqn:E1; [inversion H; subst; lia|].
  destruct (put_thm 0 [49] m) as [m1 [M1 [M2 M3]]]; [change (blen [49]) with 1; lia|]. rewrite M1 in H.
  destruct (blen m <? 17) eqn:E2; [inversion H; subst; lia|]. cbv zeta in H.
  set (allowed := if limit <? blen m - 1 then limit else blen m - 1) in H.
  assert (AL : allowed <= blen m - 1 /\ allowed <= limit) by (unfold allowed; destruct (limit <? blen m - 1) eqn:E3; lia).
  destruct (an_calls an) as [|[data act] [|]] eqn:AN; [| |simpl in C; lia].
  - simpl in H. destruct (an_error an); inversion H; subst; lia.
  - simpl in H. destruct (provide_thm allowed (blen data) act (mk_prov m1 0 false false (r_cnx r) (r_path r))) as [p [o [E [B [F1 [F2 [F3 [F4 O]]]]]]]];
      cbn [pv_mem]; try lia.
    rewrite E in H. cbn [pv_mem pv_after] in *. destruct o as [off|].
    + destruct O as [O1 [O2 [O3 O4]]]. destruct (put_thm off data (pv_mem p)) as [m2 [P1 [P2 P3]]]; [lia|]. rewrite P1 in H.
      cbn [pv_mem pv_after pv_active pv_called pv_cnx pv_path] in H. destruct (an_error an) eqn:AE; [inversion H; subst; lia|].
      inversion H; subst m' after r'. exists data, act. split; [reflexivity|]. split; [lia|]. split; [lia|]. split; [reflexivity|].
      cbn [r_cnx r_path r_pure r_more r_error]. rewrite F2, F1. destruct (0 <? pv_after p) eqn:PA; [|lia].
      split; [exact F3|]. split; [exact F4|]. split; [reflexivity|]. split; [reflexivity|]. split; [reflexivity|].
      rewrite O2, P3. destruct O4 as [[v [V1 [V2 V3]]]|[T [k [K1 K2]]]].
      * left. rewrite V3. change (blen [49]) with 1 in M3. change (N.to_nat (0 + 1)) with 1%nat in M3.
        change (firstn (N.to_nat 0) m) with (@nil N) in M3. rewrite M3. simpl. constructor. exact V1.
      * right. split; [lia|]. rewrite K2, <- app_assoc. simpl. constructor. exact K1.
    + destruct O as [_ [O2 _]]. destruct (an_error an); inversion H; subst; lia.
Qed.

Lemma wl_len : forall data b, with_length data b -> blen b = 1 + encode_varint_length (blen data) + blen data \/ blen data < blen b.
Proof. intros data b [v V]. right. unfold blen. simpl. rewrite app_length. lia. Qed.

Lemma loop_one_gen : forall fuel limit app k m r bytes r', blen m < two62 -> (forall i, length (an_calls (app i)) <= 1)%nat ->
  ready_loop fuel limit app k m r = LDone bytes r' ->
  exists e ds, dgrams e ds bytes /\ (e = true -> blen bytes = blen m) /\ (ds <> [] -> r_pure r' = false) /\
    (ds = [] -> r_pure r' = r_pure r) /\
    forall i d, nth_error ds i = Some d -> 0 < blen d <= limit /\ exists act, an_calls (app (k + i)%nat) = [(d, act)].
Proof.
  induction fuel as [|f IH]; intros limit app k m r bytes r' R C H; [discriminate|]. simpl in H.
  assert (BASE : forall x : ready, r_pure x = r_pure r -> bytes = [] -> r' = x -> exists e ds, dgrams e ds bytes /\ (e = true -> blen bytes = blen m) /\ (ds <> [] -> r_pure r' = false) /\
    (ds = [] -> r_pure r' = r_pure r) /\
    forall i d, nth_error ds i = Some d -> 0 < blen d <= limit /\ exists act, an_calls (app (k + i)%nat) = [(d, act)]).
  { intros x X -> ->. exists false, []. split; [constructor|]. split; [discriminate|]. split; [congruence|]. split; [auto|]. intros [|i] d; discriminate. }
  destruct (r_cnx r || r_path r); [|inversion H; subst; eapply BASE; eauto].
  destruct (format_safe limit (app k) m r R) as [m' [after [r1 [E [B [A Z]]]]]]. rewrite E in H.
  destruct (after =? 0) eqn:E0.
  { assert (after = 0) by lia. subst after. inversion H; subst. eapply BASE with (x := r'); [|reflexivity|reflexivity].
    clear - E. unfold format_ready in E. destruct (blen m <? 1); [inversion E; reflexivity|].
    destruct (put 0 [49] m); [|discriminate]. destruct (blen m <? 17); [inversion E; reflexivity|].
    cbv zeta in E. destruct (calls _ _ _) as [p|]; [|discriminate]. destruct (an_error _); inversion E; [reflexivity|].
    match goal with Q : pv_after p = 0 |- _ => rewrite Q end. reflexivity. }
  destruct (ready_loop f limit app (S k) (skipn (N.to_nat after) m') r1) as [| |bytes1 r2] eqn:L; try discriminate.
  inversion H; subst bytes r2. clear H.
  pose proof (format_one _ _ _ _ _ _ _ R (C k) E ltac:(lia)) as [data [act [D1 [D2 [_ [_ [_ [_ [D3 [_ [_ D4]]]]]]]]]]].
  assert (R1 : blen (skipn (N.to_nat after) m') < two62) by (rewrite blen_skipn; lia).
  destruct (IH _ _ _ _ _ _ _ R1 C L) as [e [ds [G1 [G2 [G3 [G4 G5]]]]]].
  assert (FL : blen (firstn (N.to_nat after) m') = after) by (unfold blen in *; rewrite firstn_length; lia).
  destruct D4 as [W|[T W]].
  - exists e, (data :: ds). split; [constructor; assumption|]. split.
    { intros X. rewrite dg_blen_app, FL, (G2 X), blen_skipn. lia. }
    split; [intros _; destruct ds; [rewrite G4; auto|apply G3; discriminate]|]. split; [discriminate|].
    intros [|i] d; simpl; intros Q.
    + inversion Q; subst d. split; [exact D2|]. exists act. rewrite Nat.add_0_r. exact D1.
    + replace (k + S i)%nat with (S k + i)%nat by lia. apply G5. exact Q.
  - assert (S0 : skipn (N.to_nat after) m' = []) by (apply length_zero_iff_nil; rewrite skipn_length; unfold blen in *; lia).
    rewrite S0 in *.
    assert (B1 : bytes1 = []).
    { destruct f; [discriminate|]. simpl in L. destruct (r_cnx r1 || r_path r1); inversion L; reflexivity. }
    subst bytes1. rewrite app_nil_r.
    assert (P2 : r_pure r' = false).
    { destruct f; [discriminate|]. simpl in L. destruct (r_cnx r1 || r_path r1); inversion L; subst; simpl; exact D3. }
    exists true, [data]. split; [constructor; exact W|]. split; [intros _; lia|]. split; [auto|]. split; [discriminate|].
    intros [|i] d; simpl; intros Q; [|destruct i; discriminate]. inversion Q; subst d. split; [exact D2|]. exists act. rewrite Nat.add_0_r. exact D1.
Qed.
