(** The reception of capsules, seen byte by byte. *)
From Verif Require Import Base Tac Mem Mem_proofs Varint_spec Varint_model Varint_proofs Qpack_model H3_model H3_spec
  H3_proofs H3b_proofs H3c_proofs Caps_model Caps_spec.

Section Machine.
Variable alloc : N -> bool.

Inductive cpos :=
| CH (p : list N)
| CB (ty n : N) (x : list N)
| CE (n : N) (e : wev).

Inductive kres :=
| KRun (q : cpos)
| KFail
| KUndef.

Definition event (ty : N) (x : list N) : option wev :=
  if ty =? 0 then Some (WDatagram x)
  else if (ty =? 30894) || (ty =? 10307) then
    match x with
    | a :: b :: d :: e :: msg => Some (WEnd ty (a * 16777216 + b * 65536 + d * 256 + e) msg)
    | _ => None
    end
  else None.

Lemma event_means : forall ty x e, event ty x = Some e <-> means ty x e.
Proof.
  intros ty x e. unfold event. split.
  - destruct (ty =? 0) eqn:T0.
    + intro H. injection H as <-. replace ty with 0 by lia. constructor.
    + destruct ((ty =? 30894) || (ty =? 10307)) eqn:T; [| discriminate].
      destruct x as [| a [| b [| c [| d msg]]]]; try discriminate. intro H. injection H as <-.
      replace (a * 16777216 + b * 65536 + c * 256 + d) with (2 ^ 24 * a + 2 ^ 16 * b + 2 ^ 8 * c + d) by lia.
      constructor. lia.
  - intro H. destruct H as [x | ty a b c d msg T]; [reflexivity |].
    replace (ty =? 0) with false by lia. replace ((ty =? 30894) || (ty =? 10307)) with true by lia.
    f_equal. f_equal. lia.
Qed.

Definition cfinish (ty : N) (x : list N) : kres := match event ty x with Some e => KRun (CE (blen x) e) | None => KFail end.
Definition cbegin (ty n : N) : kres := if (n =? 0) || negb (alloc n) then KFail else KRun (CB ty n []).

Definition kstep (b : N) (q : cpos) : kres :=
  match q with
  | CH p => match head (p ++ [b]) with None => KRun (CH (p ++ [b])) | Some (ty, n) => cbegin ty n end
  | CB ty n x => if n <=? blen (x ++ [b]) then cfinish ty (x ++ [b]) else KRun (CB ty n (x ++ [b]))
  | CE _ _ => KUndef
  end.

Fixpoint krun (l : list N) (q : cpos) : kres :=
  match l with
  | [] => KRun q
  | b :: r => match kstep b q with KRun q' => krun r q' | e => e end
  end.

Definition kthen (r : kres) (l : list N) : kres := match r with KRun q => krun l q | e => e end.

Lemma krun_app : forall a b q, krun (a ++ b) q = kthen (krun a q) b.
Proof.
  induction a as [| c a IH]; intros b q; [reflexivity |]. cbn [app krun].
  destruct (kstep c q); [apply IH | reflexivity | reflexivity].
Qed.

Lemma krun_head : forall x p, bytes_ok (p ++ x) -> head p = None ->
  match head (p ++ x) with
  | None => krun x (CH p) = KRun (CH (p ++ x))
  | Some (ty, n) => (exists a b, p ++ x = a ++ b /\ is_varint ty a /\ is_varint n b) -> krun x (CH p) = cbegin ty n
  end.
Proof.
  induction x as [| c x IH]; intros p O H0.
  { rewrite app_nil_r. rewrite H0. reflexivity. }
  assert (E : p ++ c :: x = (p ++ [c]) ++ x) by (rewrite <- app_assoc; reflexivity). rewrite E in *.
  cbn [krun kstep]. destruct (head (p ++ [c])) as [[ty n] |] eqn:E1.
  - assert (O1 : bytes_ok (p ++ [c])) by (apply ok_app in O; tauto).
    destruct (head_exact p c ty n O1 H0 E1) as (a & b & E2 & A & B).
    rewrite E2, <- app_assoc. rewrite (head_of ty n a b x A B) by (apply ok_app in O; tauto).
    intros (a' & b' & E3 & A' & B').
    assert (Ox : bytes_ok x) by (apply ok_app in O; tauto).
    assert (Ob : bytes_ok b) by (destruct B as (? & _ & _ & _ & _ & X); exact X).
    assert (Ob' : bytes_ok b') by (destruct B' as (? & _ & _ & _ & _ & X); exact X).
    pose proof (is_varint_decode ty a (b ++ x) A ltac:(apply ok_app; split; assumption)) as D1.
    pose proof (is_varint_decode ty a' b' A' Ob') as D1'. rewrite E3 in D1. rewrite D1 in D1'. injection D1' as D1'.
    pose proof (is_varint_decode n b x B Ox) as D2.
    pose proof (is_varint_decode n b' [] B' ltac:(constructor)) as D2'. rewrite app_nil_r in D2'. rewrite D1', D2' in D2. injection D2 as <-.
    destruct (cbegin ty n); reflexivity.
  - exact (IH (p ++ [c]) O E1).
Qed.

Lemma krun_body : forall x ty n z, blen z < n -> blen z + blen x <= n -> x <> [] ->
  krun x (CB ty n z) = if n <=? blen (z ++ x) then cfinish ty (z ++ x) else KRun (CB ty n (z ++ x)).
Proof.
  induction x as [| b x IH]; intros ty n z Lt Le NE; [congruence |].
  rewrite blen_cons in Le. destruct x as [| c x].
  - cbn [krun kstep]. destruct (n <=? blen (z ++ [b])); [| reflexivity].
    destruct (cfinish ty (z ++ [b])); reflexivity.
  - assert (E : z ++ b :: c :: x = (z ++ [b]) ++ c :: x) by (rewrite <- app_assoc; reflexivity).
    assert (Lb : blen (z ++ [b]) = blen z + 1) by (rewrite blen_app, blen_cons, blen_nil; lia).
    rewrite blen_cons in Le.
    change (krun (b :: c :: x) (CB ty n z)) with
      (match kstep b (CB ty n z) with KRun q' => krun (c :: x) q' | e => e end).
    cbn [kstep]. replace (n <=? blen (z ++ [b])) with false by lia.
    rewrite IH; [rewrite E; reflexivity | lia | rewrite blen_cons; lia | discriminate].
Qed.

(** ** The relation of the states *)

Definition fresh (c : capsule) (p : list N) : Prop :=
  (exists r, cp_hdr c = p ++ r /\ blen (p ++ r) = 16 /\ bytes_ok (p ++ r)) /\ cp_hread c = blen p /\
  cp_known c = false /\ cp_stored c = false /\ cp_vread c = 0 /\ cp_size c = 0 /\ cp_buf c = None.

Definition crel (c : capsule) (q : cpos) : Prop :=
  match q with
  | CH p => fresh c p /\ head p = None
  | CB ty n x => cp_known c = true /\ cp_stored c = false /\ cp_type c = ty /\ cp_length c = n /\ n < two62 /\ cp_vread c = blen x /\
      blen x < n /\ cp_size c = n /\ cp_buf c = Some (x ++ zeros (n - blen x))
  | CE n e => cp_known c = true /\ cp_stored c = true /\ cp_vread c = n /\ 0 < n /\ n < two62 /\ exists b, cp_buf c = Some b
  end.

Lemma number_in : forall a v q r d, is_varint v a -> header_number (blen q) (blen a) (q ++ a ++ r) d = Ret v.
Proof.
  intros a v q r d A. unfold header_number. rewrite (mem_split3 q a r (blen q) (blen a)) by reflexivity. cbn [mem bind].
  pose proof (is_varint_decode v a [] A ltac:(constructor)) as D. rewrite app_nil_r in D.
  pose proof (frames_varint_decode_o_not_UB a) as U. unfold frames_varint_decode in D.
  destruct (frames_varint_decode_o a) as [[w s] | |]; [| discriminate | congruence]. injection D as -> _. reflexivity.
Qed.

(** Reading of type and length. *)
Lemma header_read : forall l p c, fresh c p -> head p = None -> l <> [] -> bytes_ok l ->
  exists x y c', l = x ++ y /\ x <> [] /\ bytes_ok (p ++ x) /\ cap_header l c = Ret (y, c') /\
  match head (p ++ x) with
  | None => y = [] /\ fresh c' (p ++ x)
  | Some (ty, n) => (exists a b, p ++ x = a ++ b /\ is_varint ty a /\ is_varint n b) /\
      cp_known c' = true /\ cp_stored c' = false /\ cp_type c' = ty /\ cp_length c' = n /\ cp_vread c' = 0 /\ cp_size c' = 0 /\ cp_buf c' = None
  end.
Proof.
  intros l p c ((r & D & L & O) & R & Kn & Sto & Vr & Sz & Bf) HN NE Ol.
  assert (S1 : exists x1 l1 r1 c0 q, l = x1 ++ l1 /\ blen ((p ++ x1) ++ r1) = 16 /\ bytes_ok ((p ++ x1) ++ r1) /\
     p ++ x1 = c0 :: q /\ (x1 = [] \/ blen (p ++ x1) = 1) /\
     (if cp_hread c <? 1 then
       match l with
       | [] => Undef
       | b :: r => let! h' := mem (mem_write (cp_hread c) [b] (cp_hdr c)) in Ret (r, h', cp_hread c + 1)
       end
     else Ret (l, cp_hdr c, cp_hread c)) = Ret (l1, (p ++ x1) ++ r1, blen (p ++ x1))).
  { rewrite R, D. destruct (blen p <? 1) eqn:C.
    - assert (p = []) by (apply blen0; lia). subst p. destruct l as [| b l]; [congruence |].
      inversion Ol; subst. cbn [app] in *. destruct r as [| c1 r]; [discriminate |].
      rewrite blen_nil. change (c1 :: r) with ([] ++ [c1] ++ r). rewrite mem_write3 by reflexivity. cbn [mem bind app].
      exists [b], l, r, b, []. repeat split.
      + exact L.
      + inversion O; subst. constructor; assumption.
      + right. reflexivity.
    - destruct p as [| c1 q]; [rewrite blen_nil in C; lia |]. exists [], l, r, c1, q. rewrite app_nil_r.
      repeat split; [exact L | exact O | left; reflexivity]. }
  destruct S1 as (x1 & l1 & r1 & c0 & q & El & L1 & O1 & Ep & X1 & S1).
  unfold cap_header. rewrite S1. cbn [bind]. clear S1.
  assert (Ol1 : bytes_ok l1) by (rewrite El in Ol; apply ok_app in Ol; tauto).
  assert (Cb : c0 < 256) by (rewrite Ep in O1; inversion O1; assumption).
  assert (G : mem_get 0 ((p ++ x1) ++ r1) = Some c0) by (rewrite Ep; reflexivity).
  rewrite G. cbn [mem bind]. rewrite (skip_len c0 Cb).
  pose proof (varint_len_cases c0) as Cc.
  destruct (fill_spec (varint_len c0) l1 (p ++ x1) r1) as (x2 & l2 & r2 & E2 & F2 & L2 & O2 & A2 & B2); [lia | assumption | assumption | assumption |].
  rewrite F2. cbn [bind]. clear F2.
  assert (Ol2 : bytes_ok l2) by (rewrite E2 in Ol1; apply ok_app in Ol1; tauto).
  assert (E2' : (p ++ x1) ++ x2 = p ++ (x1 ++ x2)) by (symmetry; apply app_assoc).
  destruct (varint_len c0 <=? blen ((p ++ x1) ++ x2)) eqn:C2.
  2:{ assert (l2 = []) by (destruct A2 as [A2 | A2]; [exact A2 | lia]). subst l2. rewrite app_nil_r in E2. subst x2.
    rewrite E2' in *. rewrite <- El in *. exists l, []. eexists. rewrite app_nil_r. split; [reflexivity |]. split; [exact NE |].
    split; [apply ok_app in O2; tauto |]. split; [reflexivity |].
    assert (Hn : head (p ++ l) = None).
    { unfold head. replace (frames_varint_decode (p ++ l)) with (@None (N * list N)); [reflexivity |]. symmetry.
      apply decode_short; [apply ok_app in O2; tauto |]. rewrite <- E2', Ep. cbn [app]. rewrite <- E2', Ep in C2. cbn [app] in C2. lia. }
    rewrite Hn. split; [reflexivity |]. split; [exists r2; repeat split; assumption |]. repeat split; assumption. }
  assert (Hp2 : exists a q2, (p ++ x1) ++ x2 = a ++ q2 /\ blen a = varint_len c0).
  { apply cut_at. lia. }
  destruct Hp2 as (a & q2 & Ea & La).
  destruct a as [| c' a]; [exfalso; rewrite blen_nil in La; lia |].
  assert (c' = c0) by (rewrite Ep in Ea; injection Ea as -> _; reflexivity). subst c'.
  assert (Oa : bytes_ok (c0 :: a)) by (rewrite Ea in O2; rewrite !ok_app in O2; tauto).
  destruct (number_of c0 a Oa La) as (ty & V).
  assert (Hd : header_number 0 (varint_len c0) (((p ++ x1) ++ x2) ++ r2) (cp_type c) = Ret ty).
  { rewrite Ea, <- app_assoc, <- La. exact (number_in (c0 :: a) ty [] (q2 ++ r2) (cp_type c) V). }
  rewrite Hd. cbn [bind].
  destruct (fill_spec (varint_len c0 + 1) l2 ((p ++ x1) ++ x2) r2) as (x3 & l3 & r3 & E3 & F3 & L3 & O3 & A3 & B3); [lia | assumption | assumption | assumption |].
  rewrite F3. cbn [bind]. clear F3.
  assert (Ol3 : bytes_ok l3) by (rewrite E3 in Ol2; apply ok_app in Ol2; tauto).
  assert (E3' : ((p ++ x1) ++ x2) ++ x3 = p ++ (x1 ++ x2 ++ x3)) by (rewrite <- !app_assoc; reflexivity).
  assert (Ea3 : ((p ++ x1) ++ x2) ++ x3 = (c0 :: a) ++ q2 ++ x3) by (rewrite Ea, <- app_assoc; reflexivity).
  destruct (varint_len c0 + 1 <=? blen (((p ++ x1) ++ x2) ++ x3)) eqn:C3.
  2:{ assert (l3 = []) by (destruct A3 as [A3 | A3]; [exact A3 | lia]). subst l3. rewrite app_nil_r in E3. subst x3.
    rewrite <- E2 in E3'. rewrite <- El in E3'. rewrite E3' in *.
    exists l, []. eexists. rewrite app_nil_r. split; [reflexivity |]. split; [exact NE |].
    split; [apply ok_app in O3; tauto |]. split; [reflexivity |].
    assert (Z : q2 ++ l2 = []).
    { apply blen0. rewrite Ea3 in C3. rewrite !blen_app in *. rewrite La in C3. lia. }
    assert (Hn : head (p ++ l) = None).
    { rewrite Ea3, Z, app_nil_r. unfold head. pose proof (is_varint_decode ty (c0 :: a) [] V ltac:(constructor)) as Dv. rewrite app_nil_r in Dv.
      rewrite Dv. reflexivity. }
    rewrite Hn. split; [reflexivity |]. split; [exists r3; repeat split; assumption |]. repeat split; assumption. }
  destruct (q2 ++ x3) as [| d q3] eqn:Eq3.
  { exfalso. rewrite Ea3, app_nil_r in C3. lia. }
  assert (Oq3 : bytes_ok (d :: q3)) by (rewrite Ea3 in O3; rewrite !ok_app in O3; tauto).
  assert (Db : d < 256) by (inversion Oq3; assumption).
  assert (G1 : mem_get (varint_len c0) ((((p ++ x1) ++ x2) ++ x3) ++ r3) = Some d).
  { rewrite Ea3, <- La, <- app_assoc. apply get_at. }
  rewrite G1. cbn [mem bind]. rewrite (skip_len d Db).
  pose proof (varint_len_cases d) as Cd.
  destruct (fill_spec (varint_len c0 + varint_len d) l3 (((p ++ x1) ++ x2) ++ x3) r3) as (x4 & l4 & r4 & E4 & F4 & L4 & O4 & A4 & B4); [lia | assumption | assumption | assumption |].
  rewrite F4. cbn [bind]. clear F4.
  assert (E4' : (((p ++ x1) ++ x2) ++ x3) ++ x4 = p ++ (x1 ++ x2 ++ x3 ++ x4)) by (rewrite <- !app_assoc; reflexivity).
  assert (Ea4 : (((p ++ x1) ++ x2) ++ x3) ++ x4 = (c0 :: a) ++ (d :: q3) ++ x4) by (rewrite Ea3, <- app_assoc; reflexivity).
  destruct (varint_len c0 + varint_len d <=? blen ((((p ++ x1) ++ x2) ++ x3) ++ x4)) eqn:C4.
  2:{ assert (l4 = []) by (destruct A4 as [A4 | A4]; [exact A4 | lia]). subst l4. rewrite app_nil_r in E4. subst x4.
    rewrite <- E3 in E4'. rewrite <- E2 in E4'. rewrite <- El in E4'. rewrite E4' in *.
    exists l, []. eexists. rewrite app_nil_r. split; [reflexivity |]. split; [exact NE |].
    split; [apply ok_app in O4; tauto |]. split; [reflexivity |].
    assert (Hn : head (p ++ l) = None).
    { rewrite Ea4. unfold head.
      assert (Od : bytes_ok ((d :: q3) ++ l3)) by (rewrite Ea4 in O4; rewrite !ok_app in O4; apply ok_app; tauto).
      rewrite (is_varint_decode ty (c0 :: a) ((d :: q3) ++ l3) V Od).
      replace (frames_varint_decode ((d :: q3) ++ l3)) with (@None (N * list N)); [reflexivity |]. symmetry.
      apply decode_short; [exact Od |]. cbn [app]. rewrite Ea4, blen_app, La in C4. cbn [app] in C4. lia. }
    rewrite Hn. split; [reflexivity |]. split; [exists r4; repeat split; assumption |]. repeat split; assumption. }
  assert (Ld : blen ((d :: q3) ++ x4) = varint_len d).
  { assert (H1 : blen ((((p ++ x1) ++ x2) ++ x3) ++ x4) = varint_len c0 + varint_len d \/ x4 = []) by (destruct B4; [left; lia | right; assumption]).
    assert (H3 : blen (((p ++ x1) ++ x2) ++ x3) <= varint_len c0 + varint_len d \/ x4 = []) by (destruct B4 as [B4 | B4]; [left; rewrite blen_app in B4; lia | right; exact B4]).
    rewrite Ea4, blen_app, La in H1, C4.
    destruct H1 as [H1 | H1]; [lia |]. subst x4. rewrite app_nil_r in *.
    (* nothing was added: the bytes were there before, which is excluded *)
    assert (B3' : blen (((p ++ x1) ++ x2) ++ x3) <= varint_len c0 + 1 \/ x3 = []) by exact B3.
    rewrite Ea3, blen_app, La in B3'.
    destruct B3' as [B3' | ->]; [lia |]. rewrite app_nil_r in *. subst q2.
    assert (B2' : blen ((p ++ x1) ++ x2) <= varint_len c0 \/ x2 = []) by exact B2. rewrite Ea, blen_app, La, blen_cons in B2'.
    destruct B2' as [B2' | ->]; [lia |]. rewrite app_nil_r in *.
    destruct X1 as [-> | X1].
    - rewrite app_nil_r in *. exfalso.
      assert (Hd' : head p <> None); [| congruence].
      destruct (cut_at (varint_len d) (d :: q3) ltac:(lia)) as (b & q4 & Eb & Lb).
      destruct b as [| d' b]; [exfalso; rewrite blen_nil in Lb; lia |].
      assert (d' = d) by (injection Eb as -> _; reflexivity). subst d'.
      assert (Ob4 : bytes_ok (d :: b) /\ bytes_ok q4) by (rewrite Eb in Oq3; apply ok_app in Oq3; exact Oq3).
      destruct (number_of d b (proj1 Ob4) Lb) as (n & Vn).
      rewrite Ea, Eb. rewrite (head_of ty n (c0 :: a) (d :: b) q4 V Vn (proj2 Ob4)). discriminate.
    - rewrite Ea, blen_app, La, blen_cons in X1. lia. }
  assert (Od : bytes_ok ((d :: q3) ++ x4)) by (rewrite Ea4 in O4; rewrite !ok_app in O4; apply ok_app; tauto).
  destruct (number_of d (q3 ++ x4) Od Ld) as (n & Vn).
  assert (Hn : header_number (varint_len c0) (varint_len d) (((((p ++ x1) ++ x2) ++ x3) ++ x4) ++ r4) 0 = Ret n).
  { rewrite Ea4, <- !app_assoc. rewrite <- La, <- Ld. cbn [app]. change (c0 :: a ++ d :: q3 ++ x4 ++ r4) with ((c0 :: a) ++ (d :: q3 ++ x4 ++ r4)).
    replace (d :: q3 ++ x4 ++ r4) with ((d :: q3 ++ x4) ++ r4) by (cbn [app]; rewrite <- app_assoc; reflexivity).
    exact (number_in (d :: q3 ++ x4) n (c0 :: a) r4 0 Vn). }
  rewrite Hn. cbn [bind].
  exists (x1 ++ x2 ++ x3 ++ x4), l4. eexists.
  split; [rewrite El, E2, E3, E4, <- !app_assoc; reflexivity |].
  rewrite <- E4'.
  split.
  { intro Z. apply app_eq_nil in Z. destruct Z as [-> Z]. apply app_eq_nil in Z. destruct Z as [-> Z]. apply app_eq_nil in Z. destruct Z as [-> ->].
    rewrite !app_nil_r in *. rewrite Ea4 in HN.
    rewrite <- (app_nil_r (d :: q3)) in HN. rewrite (head_of ty n (c0 :: a) (d :: q3) [] V Vn ltac:(constructor)) in HN. discriminate. }
  split; [apply ok_app in O4; tauto |]. split; [reflexivity |].
  rewrite Ea4. rewrite <- (app_nil_r ((d :: q3) ++ x4)). rewrite (head_of ty n (c0 :: a) ((d :: q3) ++ x4) [] V Vn ltac:(constructor)).
  split; [exists (c0 :: a), ((d :: q3) ++ x4); rewrite app_nil_r; split; [reflexivity |]; split; [exact V | exact Vn] |].
  repeat split; assumption.
Qed.

End Machine.
