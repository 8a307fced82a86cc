(** The parser of data streams follows the machine that takes one byte at a time. *)
From Verif Require Import Base Tac Mem Mem_proofs Varint_spec Varint_model Varint_proofs Qpack_model H3_model H3_spec H3_proofs.

Lemma ok_app : forall a b, bytes_ok (a ++ b) <-> bytes_ok a /\ bytes_ok b.
Proof. intros a b. apply Forall_app. Qed.

Lemma fill_spec : forall t l p r, t <= 16 -> blen (p ++ r) = 16 -> bytes_ok (p ++ r) -> bytes_ok l ->
  exists x y r', l = x ++ y /\ fill t l (p ++ r) (blen p) = Ret (y, (p ++ x) ++ r', blen (p ++ x)) /\
    blen ((p ++ x) ++ r') = 16 /\ bytes_ok ((p ++ x) ++ r') /\
    (y = [] \/ t <= blen (p ++ x)) /\ (blen (p ++ x) <= t \/ x = []).
Proof.
  intros t l. induction l as [| b l IH]; intros p r T L O Ol.
  - exists [], [], r. rewrite (app_nil_r p). split; [reflexivity |]. split; [reflexivity |]. repeat split; [exact L | exact O | left; reflexivity | right; reflexivity].
  - cbn [fill]. destruct (blen p <? t) eqn:C.
    + destruct r as [| c r]; [rewrite app_nil_r in L; lia |].
      change (p ++ c :: r) with (p ++ [c] ++ r). rewrite mem_write3 by reflexivity. cbn [mem bind].
      inversion Ol as [| ? ? Ob Ol']; subst.
      replace (blen p + 1) with (blen (p ++ [b])) by (rewrite blen_app; reflexivity).
      rewrite app_assoc. destruct (IH (p ++ [b]) r T) as (x & y & r' & E & F & R1 & R2 & R3 & R4).
      * rewrite !blen_app in *. rewrite blen_cons in L. change (blen [b]) with 1. lia.
      * rewrite !ok_app in *. destruct O as [O1 O2]. inversion O2; subst. repeat split; [exact O1 | constructor; [exact Ob | constructor] | assumption].
      * exact Ol'.
      * exists (b :: x), y, r'. rewrite E. split; [reflexivity |].
        replace (p ++ b :: x) with ((p ++ [b]) ++ x) by (rewrite <- app_assoc; reflexivity).
        rewrite <- E. split; [exact F |]. split; [exact R1 |]. split; [exact R2 |]. split; [exact R3 |]. left.
        destruct R4 as [R4 | ->]; [exact R4 |]. rewrite app_nil_r. rewrite blen_app. change (blen [b]) with 1. lia.
    + exists [], (b :: l), r. rewrite (app_nil_r p). split; [reflexivity |]. split; [reflexivity |]. repeat split; [exact L | exact O | right; lia | right; reflexivity].
Qed.

Lemma get_at : forall a b r, mem_get (blen a) (a ++ b :: r) = Some b.
Proof.
  intros a b r. unfold mem_get, blen. rewrite Nat2N.id. rewrite nth_error_app2 by lia. rewrite Nat.sub_diag. reflexivity.
Qed.

Lemma cut_at : forall n l, n <= blen l -> exists a b, l = a ++ b /\ blen a = n.
Proof.
  intros n l H. exists (firstn (N.to_nat n) l), (skipn (N.to_nat n) l). split; [symmetry; apply firstn_skipn |].
  unfold blen in *. rewrite firstn_length. lia.
Qed.

Lemma blen0 : forall l, blen l = 0 -> l = [].
Proof. intros [| b l] H; [reflexivity | rewrite blen_cons in H; lia]. Qed.

Lemma skipn_at : forall a l, skipn (N.to_nat (blen a)) (a ++ l) = l.
Proof. intros a l. unfold blen. rewrite Nat2N.id. rewrite skipn_app, skipn_all, Nat.sub_diag. reflexivity. Qed.

Lemma firstn_at : forall a l, firstn (N.to_nat (blen a)) (a ++ l) = a.
Proof. intros a l. unfold blen. rewrite Nat2N.id. rewrite firstn_app, firstn_all, Nat.sub_diag. cbn [firstn]. apply app_nil_r. Qed.

(** Reading of the beginning of a frame. *)
Lemma frame_header_read : forall s p r l, d_hdr s = p ++ r -> blen (p ++ r) = 16 -> bytes_ok (p ++ r) -> d_hread s = blen p ->
  head p = None -> l <> [] -> bytes_ok l ->
  exists x y r' t, l = x ++ y /\ x <> [] /\ blen ((p ++ x) ++ r') = 16 /\ bytes_ok ((p ++ x) ++ r') /\
  match head (p ++ x) with
  | None => y = [] /\ read_frame_header l s = Ret (mk_r (Some []) (set_type (set_hdr s ((p ++ x) ++ r') (blen (p ++ x))) t) 0 0)
  | Some (ty, n) => (exists a b, p ++ x = a ++ b /\ is_varint ty a /\ is_varint n b) /\
      read_frame_header l s = Ret (check_frame y (set_length (set_type (set_hdr s ((p ++ x) ++ r') (blen (p ++ x))) ty) n))
  end.
Proof.
  intros s p r l D L O R HN NE Ol.
  assert (S1 : exists x1 l1 r1 c q, l = x1 ++ l1 /\ blen ((p ++ x1) ++ r1) = 16 /\ bytes_ok ((p ++ x1) ++ r1) /\
     p ++ x1 = c :: q /\ (x1 = [] \/ blen (p ++ x1) = 1) /\
     (if d_hread s <? 1 then
       match l with
       | [] => Undef
       | b :: r => let! h' := mem (mem_write (d_hread s) [b] (d_hdr s)) in Ret (r, h', d_hread s + 1)
       end
     else Ret (l, d_hdr s, d_hread s)) = Ret (l1, (p ++ x1) ++ r1, blen (p ++ x1))).
  { rewrite R, D. destruct (blen p <? 1) eqn:C.
    - assert (p = []) by (apply blen0; lia). subst p. destruct l as [| b l]; [congruence |].
      inversion Ol; subst. cbn [app] in *. destruct r as [| c r]; [discriminate |].
      rewrite blen_nil. change (c :: r) with ([] ++ [c] ++ r). rewrite mem_write3 by reflexivity. cbn [mem bind app].
      exists [b], l, r, b, []. repeat split.
      + exact L.
      + inversion O; subst. constructor; assumption.
      + right. reflexivity.
    - destruct p as [| c q]; [rewrite blen_nil in C; lia |]. exists [], l, r, c, q. rewrite app_nil_r.
      repeat split; [exact L | exact O | left; reflexivity]. }
  destruct S1 as (x1 & l1 & r1 & c & q & El & L1 & O1 & Ep & X1 & S1).
  unfold read_frame_header. rewrite S1. cbn [bind]. clear S1.
  assert (Ol1 : bytes_ok l1) by (rewrite El in Ol; apply ok_app in Ol; tauto).
  assert (Cb : c < 256) by (rewrite Ep in O1; inversion O1; assumption).
  assert (G : mem_get 0 ((p ++ x1) ++ r1) = Some c) by (rewrite Ep; reflexivity).
  rewrite G. cbn [mem bind]. rewrite (skip_len c Cb).
  pose proof (varint_len_cases c) as Cc.
  destruct (fill_spec (varint_len c) l1 (p ++ x1) r1) as (x2 & l2 & r2 & E2 & F2 & L2 & O2 & A2 & B2); [lia | assumption | assumption | assumption |].
  rewrite F2. cbn [bind]. clear F2.
  assert (Ol2 : bytes_ok l2) by (rewrite E2 in Ol1; apply ok_app in Ol1; tauto).
  assert (E2' : (p ++ x1) ++ x2 = p ++ (x1 ++ x2)) by (symmetry; apply app_assoc).
  destruct (blen ((p ++ x1) ++ x2) <? varint_len c) eqn:C2.
  { assert (l2 = []) by (destruct A2 as [A2 | A2]; [exact A2 | lia]). subst l2. rewrite app_nil_r in E2. subst x2.
    rewrite E2' in *. rewrite <- El in *. exists l, [], r2, (d_type s). rewrite app_nil_r. split; [reflexivity |]. split; [exact NE |].
    split; [exact L2 |]. split; [exact O2 |].
    assert (Hn : head (p ++ l) = None).
    { unfold head. replace (frames_varint_decode (p ++ l)) with (@None (N * list N)); [reflexivity |]. symmetry.
      apply decode_short; [apply ok_app in O2; tauto |]. rewrite <- E2', Ep. cbn [app]. rewrite <- E2', Ep in C2. cbn [app] in C2. lia. }
    rewrite Hn. split; [reflexivity |]. reflexivity. }
  assert (Hp2 : exists a q2, (p ++ x1) ++ x2 = a ++ q2 /\ blen a = varint_len c).
  { apply cut_at. lia. }
  destruct Hp2 as (a & q2 & Ea & La).
  destruct a as [| c' a]; [exfalso; rewrite blen_nil in La; lia |].
  assert (c' = c) by (rewrite Ep in Ea; injection Ea as -> _; reflexivity). subst c'.
  assert (Oa : bytes_ok (c :: a)) by (rewrite Ea in O2; rewrite !ok_app in O2; tauto).
  destruct (number_of c a Oa La) as (ty & V).
  assert (Oq : bytes_ok (q2 ++ r2)) by (rewrite Ea in O2; rewrite !ok_app in O2; apply ok_app; tauto).
  assert (Hd : H3_model.varint_decode (((p ++ x1) ++ x2) ++ r2) (varint_len c) = Ret ty).
  { rewrite Ea, <- app_assoc, <- La. exact (decode_number (c :: a) (q2 ++ r2) ty V Oq). }
  rewrite Hd. cbn [bind].
  destruct (fill_spec (varint_len c + 1) l2 ((p ++ x1) ++ x2) r2) as (x3 & l3 & r3 & E3 & F3 & L3 & O3 & A3 & B3); [lia | assumption | assumption | assumption |].
  rewrite F3. cbn [bind]. clear F3.
  assert (Ol3 : bytes_ok l3) by (rewrite E3 in Ol2; apply ok_app in Ol2; tauto).
  assert (E3' : ((p ++ x1) ++ x2) ++ x3 = p ++ (x1 ++ x2 ++ x3)) by (rewrite <- !app_assoc; reflexivity).
  assert (El3 : l = (x1 ++ x2 ++ x3) ++ l3) by (rewrite El, E2, E3, <- !app_assoc; reflexivity).
  (* the byte after the type *)
  assert (Eh : exists d z, (((p ++ x1) ++ x2) ++ x3) ++ r3 = (c :: a) ++ d :: z).
  { rewrite Ea. rewrite <- !app_assoc. destruct (q2 ++ x3 ++ r3) as [| d z] eqn:Q; [| exists d, z; reflexivity].
    exfalso. rewrite Ea, <- !app_assoc in L3. rewrite blen_app, Q, La, blen_nil in L3. lia. }
  destruct Eh as (d & z & Eh).
  assert (Od : d < 256) by (rewrite Eh in O3; apply ok_app in O3; destruct O3 as [_ O3]; inversion O3; assumption).
  assert (G1 : mem_get (varint_len c) ((((p ++ x1) ++ x2) ++ x3) ++ r3) = Some d) by (rewrite Eh, <- La; apply get_at).
  rewrite G1. cbn [mem bind]. rewrite (skip_len d Od).
  pose proof (varint_len_cases d) as Dc.
  replace (hdr_size <? varint_len d + varint_len c) with false by (unfold hdr_size; lia).
  destruct (fill_spec (varint_len d + varint_len c) l3 (((p ++ x1) ++ x2) ++ x3) r3) as (x4 & l4 & r4 & E4 & F4 & L4 & O4 & A4 & B4); [lia | assumption | assumption | assumption |].
  rewrite F4. cbn [bind]. clear F4.
  set (x := x1 ++ x2 ++ x3 ++ x4).
  assert (E4' : (((p ++ x1) ++ x2) ++ x3) ++ x4 = p ++ x) by (unfold x; rewrite <- !app_assoc; reflexivity).
  assert (El4 : l = x ++ l4) by (unfold x; rewrite El3, E4, <- !app_assoc; reflexivity).
  rewrite E4' in *.
  assert (Opx : bytes_ok (p ++ x)) by (apply ok_app in O4; tauto).
  (* whether that byte was received *)
  destruct (N.le_gt_cases (blen (((p ++ x1) ++ x2) ++ x3)) (varint_len c)) as [K | K].
  { assert (Z3 : l3 = []) by (destruct A3 as [A3 | A3]; [exact A3 | lia]). rewrite Z3 in E4.
    symmetry in E4. apply app_eq_nil in E4. destruct E4 as [-> ->]. rewrite app_nil_r in El4.
    assert (Ex : x = x1 ++ x2 ++ x3) by (unfold x; rewrite app_nil_r; reflexivity).
    rewrite E3', <- Ex in K.
    replace (varint_len d + varint_len c <=? blen (p ++ x)) with false by lia.
    exists x, [], r4, ty. rewrite app_nil_r. split; [exact El4 |]. split; [intro Y; rewrite Y in El4; congruence |].
    split; [exact L4 |]. split; [exact O4 |].
    assert (Epx : p ++ x = c :: a).
    { assert (X : p ++ x = (c :: a) ++ (q2 ++ x3)) by (rewrite Ex, <- E3', Ea, <- app_assoc; reflexivity).
      assert (Y : q2 ++ x3 = []) by (apply blen0; rewrite X, blen_app, La in K; lia).
      rewrite X, Y, app_nil_r. reflexivity. }
    assert (Hn : head (p ++ x) = None).
    { rewrite Epx. unfold head. pose proof (is_varint_decode ty (c :: a) [] V ltac:(constructor)) as W. rewrite app_nil_r in W. rewrite W. reflexivity. }
    rewrite Hn. split; [reflexivity |]. reflexivity. }
  assert (Ed : exists w, p ++ x = (c :: a) ++ d :: w).
  { destruct (q2 ++ x3) as [| d' w] eqn:Q.
    - exfalso. rewrite Ea, <- app_assoc, Q, app_nil_r, La in K. lia.
    - assert (X : p ++ x = (c :: a) ++ (d' :: w) ++ x4).
      { rewrite <- E4', Ea, <- !app_assoc. rewrite (app_assoc q2 x3 x4), Q. reflexivity. }
      assert (d' = d).
      { rewrite Ea, <- !app_assoc, (app_assoc q2 x3 r3), Q in Eh. apply app_inv_head in Eh. injection Eh as -> _. reflexivity. }
      subst d'. exists (w ++ x4). exact X. }
  destruct Ed as (w & Ed).
  assert (Ow : bytes_ok (d :: w)) by (rewrite Ed in Opx; apply ok_app in Opx; tauto).
  destruct (varint_len d + varint_len c <=? blen (p ++ x)) eqn:C4.
  - assert (Hw : exists b w', d :: w = b ++ w' /\ blen b = varint_len d).
    { apply cut_at. rewrite Ed, blen_app, La in C4. lia. }
    destruct Hw as (b & w' & Eb & Lb). destruct b as [| d' b]; [exfalso; rewrite blen_nil in Lb; lia |].
    injection Eb as <- Eb. subst w.
    assert (Ob : bytes_ok (d :: b)) by (change (d :: b ++ w') with ((d :: b) ++ w') in Ow; apply ok_app in Ow; tauto).
    destruct (number_of d b Ob Lb) as (n & Vn).
    assert (Ow' : bytes_ok w') by (change (d :: b ++ w') with ((d :: b) ++ w') in Ow; apply ok_app in Ow; tauto).
    assert (Hh : head (p ++ x) = Some (ty, n)).
    { rewrite Ed. exact (head_of ty n (c :: a) (d :: b) w' V Vn Ow'). }
    assert (NX : x <> []).
    { intro Y. rewrite Y, app_nil_r in Hh. congruence. }
    assert (W0 : w' = []).
    { destruct w' as [| e w']; [reflexivity |]. exfalso.
      assert (X : varint_len d + varint_len c < blen (p ++ x)).
      { rewrite Ed. change (d :: b ++ e :: w') with ((d :: b) ++ e :: w'). rewrite !blen_app, La, Lb, blen_cons. lia. }
      assert (Z4 : x4 = []) by (destruct B4 as [B4 | B4]; [lia | exact B4]).
      rewrite Z4, app_nil_r in E4'. rewrite E4' in *.
      assert (Z3 : x3 = []) by (destruct B3 as [B3 | B3]; [lia | exact B3]).
      rewrite Z3, app_nil_r in E4'. rewrite E4' in *.
      assert (Z2 : x2 = []) by (destruct B2 as [B2 | B2]; [lia | exact B2]).
      rewrite Z2, app_nil_r in E4'. rewrite E4' in *.
      assert (Z1 : x1 = []) by (destruct X1 as [X1 | X1]; [exact X1 | lia]).
      apply NX. unfold x. rewrite Z1, Z2, Z3, Z4. reflexivity. }
    subst w'. rewrite app_nil_r in Ed.
    exists x, l4, r4, ty. split; [exact El4 |]. split; [exact NX |]. split; [exact L4 |]. split; [exact O4 |].
    rewrite Hh. split; [exists (c :: a), (d :: b); split; [exact Ed |]; split; assumption |].
    replace (skipn (N.to_nat (varint_len c)) ((p ++ x) ++ r4)) with ((d :: b) ++ r4)
      by (rewrite Ed, <- app_assoc, <- La, skipn_at; reflexivity).
    replace (varint_len d + varint_len c - varint_len c) with (blen (d :: b)) by lia.
    rewrite (decode_number (d :: b) r4 n Vn) by (apply ok_app in O4; tauto). reflexivity.
  - assert (l4 = []) by (destruct A4 as [A4 | A4]; [exact A4 | lia]). subst l4. rewrite app_nil_r in El4.
    exists x, [], r4, ty. rewrite app_nil_r. split; [exact El4 |]. split; [intro Y; rewrite Y in El4; congruence |].
    split; [exact L4 |]. split; [exact O4 |].
    assert (Hn : head (p ++ x) = None).
    { rewrite Ed. unfold head. rewrite (is_varint_decode ty (c :: a) (d :: w) V Ow).
      replace (frames_varint_decode (d :: w)) with (@None (N * list N)); [reflexivity |]. symmetry.
      apply decode_short; [exact Ow |]. rewrite Ed, blen_app, La in C4. lia. }
    rewrite Hn. split; [reflexivity |]. reflexivity.
Qed.
