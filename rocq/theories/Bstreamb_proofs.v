(** Lemmas about the byte streams: compound items, series, skipping. *)
From Verif Require Import Base Tac Varint_model Varint_spec Varint_proofs Bstream_model Bstream_spec Bstream_proofs.

Definition cid_of (l p : list N) : Prop := blen l <= 20 /\ exists q, be (blen l) 1 q /\ p = q ++ l.
Definition str_of (max : N) (l p : list N) : Prop := blen l < max /\ exists q, is_varint (blen l) q /\ p = q ++ l.
Definition addr_of (a : N * list N * N) (p : list N) : Prop :=
  exists g q r, is_varint g q /\ be (snd a) 2 r /\ p = q ++ snd (fst a) ++ r /\
    (g = 2 /\ fst (fst a) = 2 /\ blen (snd (fst a)) = 4 \/ g <> 2 /\ fst (fst a) = 10 /\ blen (snd (fst a)) = 16).

Lemma step_ok : forall s s', bs_ok s -> b_data s' = b_data s -> b_ptr s <= b_ptr s' <= blen (b_data s) -> bs_ok s'.
Proof.
  intros s s' (A & B & C) D P. unfold bs_ok. rewrite D. repeat split; try assumption. apply P.
Qed.

Lemma cid_rd : forall old, Rd (r_cid old) cid_of.
Proof.
  intros old s H. unfold r_cid. destruct (int_rd 1 val8 val8_eq s H) as (s1 & v & -> & D1 & P1 & C1).
  pose proof (step_ok s s1 H D1 P1) as O1. set (len := match v with Some x => x | None => old end).
  destruct v as [n|].
  - destruct C1 as (p & t & E & B & Pt). destruct (rest_adv s s1 p t H E D1 Pt) as [R1 _].
    pose proof (rest_ok s H) as RO. rewrite E in RO. subst len.
    assert (U : forall l p' t', b_rest s = p' ++ t' -> cid_of l p' -> blen l = n /\ t = l ++ t' /\ p' = p ++ l).
    { intros l p' t' E' (L & q & Bq & ->). rewrite <- app_assoc in E'.
      assert (EE : p ++ t = q ++ (l ++ t')) by congruence.
      destruct (be_det 1 n (blen l) p q t (l ++ t') RO B Bq EE) as [-> ->]. apply app_inv_head in EE.
      repeat split. exact EE. }
    destruct (20 <? n) eqn:T.
    + eexists _, _. split; [reflexivity|]. split; [exact D1|]. split; [exact P1|].
      intros l p' t' E' CO. destruct (U l p' t' E' CO) as (L & _). destruct CO as (L' & _). lia.
    + destruct (get_rd n s1 O1) as (s2 & w & -> & D2 & P2 & C2). rewrite D1 in *.
      eexists _, _. split; [reflexivity|]. split; [exact D2|]. split; [lia|]. rewrite R1 in C2. destruct w as [l|].
      * destruct C2 as (q & u & Eq & [-> L] & Pq). exists (p ++ l), u. rewrite <- app_assoc, <- Eq, blen_app.
        split; [exact E|]. split; [|lia]. split; [lia|]. exists p. rewrite L. split; [exact B|reflexivity].
      * intros l p' t' E' CO. destruct (U l p' t' E' CO) as (L & Et & _).
        exact (C2 l l t' Et (conj eq_refl L)).
  - subst len. assert (NO : forall l p' t', b_rest s = p' ++ t' -> ~ cid_of l p').
    { intros l p' t' E' (L & q & Bq & ->). rewrite <- app_assoc in E'. exact (C1 _ _ _ E' Bq). }
    destruct (20 <? old).
    + eexists _, _. split; [reflexivity|]. split; [exact D1|]. split; [exact P1|]. exact NO.
    + destruct (get_rd old s1 O1) as (s2 & w & -> & D2 & P2 & _). rewrite D1 in *.
      eexists _, _. split; [reflexivity|]. split; [exact D2|]. split; [lia|]. exact NO.
Qed.

Lemma is_varint_lt : forall n p, is_varint n p -> n < two62.
Proof.
  intros n p V. pose proof (is_varint_decode n p [] V) as D. rewrite app_nil_r in D.
  eapply frames_varint_decode_lt; [apply D; constructor|]. destruct V as (c & _ & _ & _ & _ & O). exact O.
Qed.

Lemma cstr_rd : forall max, Rd (r_cstr max) (str_of max).
Proof.
  intros max s H. unfold r_cstr. destruct (vint_rd s H) as (s1 & v & -> & D1 & P1 & C1).
  pose proof (step_ok s s1 H D1 P1) as O1. destruct v as [n|].
  - destruct C1 as (p & t & E & B & Pt). destruct (rest_adv s s1 p t H E D1 Pt) as [R1 _].
    pose proof (rest_ok s H) as RO. rewrite E in RO. pose proof (is_varint_lt _ _ B) as NL.
    assert (U : forall l p' t', b_rest s = p' ++ t' -> str_of max l p' -> blen l = n /\ t = l ++ t').
    { intros l p' t' E' (L & q & Bq & ->). rewrite <- app_assoc in E'.
      assert (EE : p ++ t = q ++ (l ++ t')) by congruence.
      destruct (vint_det n (blen l) p q t (l ++ t') RO B Bq EE) as [-> ->]. apply app_inv_head in EE.
      split; [reflexivity|exact EE]. }
    assert (u64 (n + 1) = n + 1) as -> by (unfold u64, two62, two64 in *; lia).
    destruct (max <? n + 1) eqn:T.
    + eexists _, _. split; [reflexivity|]. split; [exact D1|]. split; [exact P1|].
      intros l p' t' E' CO. destruct (U l p' t' E' CO) as (L & _). destruct CO as (L' & _). lia.
    + destruct (get_rd n s1 O1) as (s2 & w & -> & D2 & P2 & C2). rewrite D1 in *.
      eexists _, _. split; [reflexivity|]. split; [exact D2|]. split; [lia|]. rewrite R1 in C2. destruct w as [l|].
      * destruct C2 as (q & u & Eq & [-> L] & Pq). exists (p ++ l), u. rewrite <- app_assoc, <- Eq, blen_app.
        split; [exact E|]. split; [|lia]. split; [lia|]. exists p. rewrite L. split; [exact B|reflexivity].
      * intros l p' t' E' CO. destruct (U l p' t' E' CO) as (L & Et).
        exact (C2 l l t' Et (conj eq_refl L)).
  - eexists _, _. split; [reflexivity|]. split; [exact D1|]. split; [exact P1|].
    intros l p' t' E' (L & q & Bq & ->). rewrite <- app_assoc in E'. exact (C1 _ _ _ E' Bq).
Qed.

Lemma addr_rd : Rd r_addr addr_of.
Proof.
  intros s H. unfold r_addr. destruct (vint_rd s H) as (s1 & v & -> & D1 & P1 & C1).
  pose proof (step_ok s s1 H D1 P1) as O1.
  set (v4 := match v with Some x => x =? 2 | None => false end).
  set (n := if v4 then 4 else 16).
  destruct (and_rd _ _ _ _ _ _ (get_rd n) (int_rd 2 val16 val16_eq) (get_det n) s1 O1)
    as (s2 & w & -> & D2 & P2 & C2).
  rewrite D1 in *. eexists _, _. split; [reflexivity|]. split; [exact D2|]. split; [lia|].
  destruct v as [g|].
  - destruct C1 as (p & t & E & B & Pt). destruct (rest_adv s s1 p t H E D1 Pt) as [R1 _]. rewrite R1 in C2.
    pose proof (rest_ok s H) as RO. rewrite E in RO. destruct w as [[ip port]|].
    + destruct C2 as (q & u & Eq & (p1 & p2 & -> & [-> L] & B2) & Pq). cbn [fst snd] in *.
      exists (p ++ (ip ++ p2)), u. rewrite <- app_assoc, <- Eq, blen_app. split; [exact E|]. split; [|lia].
      exists g, p, p2. cbn [fst snd]. split; [exact B|]. split; [exact B2|]. split; [reflexivity|].
      subst n v4. destruct (g =? 2) eqn:G; [left|right]; repeat split; try lia; assumption.
    + intros [[f ip] port] p' t' E' (g' & q & r & V & B2 & -> & K). cbn [fst snd] in *.
      rewrite <- app_assoc in E'. assert (EE : p ++ t = q ++ ((ip ++ r) ++ t')) by congruence.
      destruct (vint_det g g' p q t ((ip ++ r) ++ t') RO B V EE) as [<- <-]. apply app_inv_head in EE.
      refine (C2 (ip, port) (ip ++ r) t' EE _). exists ip, r. cbn [fst snd]. repeat split; try apply B2.
      subst n v4. destruct K as [(-> & _ & L)|(G & _ & L)]; [exact L|].
      replace (g =? 2) with false by lia. exact L.
  - intros [[f ip] port] p' t' E' (g' & q & r & V & B2 & -> & K). rewrite <- app_assoc in E'.
    exact (C1 _ _ _ E' V).
Qed.

Lemma map_rd : forall A (f : bstream -> rres A) (P : A -> list N -> Prop) (c : A -> bitem) (Q : bitem -> list N -> Prop),
  Rd f P -> (forall a p, P a p -> Q (c a) p) -> (forall i p, Q i p -> exists a, i = c a /\ P a p) ->
  Rd (fun s => rmap c (f s)) Q.
Proof.
  intros A f P c Q F I J s H. destruct (F s H) as (s' & v & -> & D & Pp & C). cbn [rmap].
  eexists _, _. split; [reflexivity|]. split; [exact D|]. split; [exact Pp|]. destruct v as [a|]; cbn [option_map].
  - destruct C as (p & t & E & X & Y). exists p, t. repeat split; try assumption. apply I. exact X.
  - intros i p t E X. destruct (J i p X) as (a & _ & Y). exact (C a p t E Y).
Qed.

Lemma item_rd : forall k, Rd (r_item k) (reads k).
Proof.
  intros [| | | | |n|old|max|]; cbn [r_item].
  - apply (map_rd _ _ is_varint); [apply vint_rd|intros a p X; exact X|].
    intros [] p X; cbn in X; try contradiction. eexists; split; [reflexivity|exact X].
  - apply (map_rd _ _ (fun v p => be v 1 p)); [apply int_rd, val8_eq|intros a p X; exact X|].
    intros [] p X; cbn in X; try contradiction. eexists; split; [reflexivity|exact X].
  - apply (map_rd _ _ (fun v p => be v 2 p)); [apply int_rd, val16_eq|intros a p X; exact X|].
    intros [] p X; cbn in X; try contradiction. eexists; split; [reflexivity|exact X].
  - apply (map_rd _ _ (fun v p => be v 4 p)); [apply int_rd, val32_eq|intros a p X; exact X|].
    intros [] p X; cbn in X; try contradiction. eexists; split; [reflexivity|exact X].
  - apply (map_rd _ _ (fun v p => be v 8 p)); [apply int_rd, val64_eq|intros a p X; exact X|].
    intros [] p X; cbn in X; try contradiction. eexists; split; [reflexivity|exact X].
  - apply (map_rd _ _ (fun l p => p = l /\ blen l = n)); [apply get_rd|intros a p X; exact X|].
    intros [] p X; cbn in X; try contradiction. eexists; split; [reflexivity|exact X].
  - apply (map_rd _ _ cid_of); [apply cid_rd|intros a p X; exact X|].
    intros [] p X; cbn in X; try contradiction. eexists; split; [reflexivity|exact X].
  - apply (map_rd _ _ (str_of max)); [apply cstr_rd|intros a p X; exact X|].
    intros [] p X; cbn in X; try contradiction. eexists; split; [reflexivity|exact X].
  - apply (map_rd _ _ addr_of); [apply addr_rd|intros a p X; exact X|].
    intros [] p X; cbn in X; try contradiction. exists (f, ip, port). split; [reflexivity|exact X].
Qed.

Lemma reads_det : forall k, Det (reads k).
Proof.
  intros k a a' p p' t t' O A B E.
  destruct k; destruct a; cbn in A; try contradiction; destruct a'; cbn in B; try contradiction.
  - destruct (vint_det _ _ _ _ _ _ O A B E) as [-> ->]. split; reflexivity.
  - destruct (be_det 1 _ _ _ _ _ _ O A B E) as [-> ->]. split; reflexivity.
  - destruct (be_det 2 _ _ _ _ _ _ O A B E) as [-> ->]. split; reflexivity.
  - destruct (be_det 4 _ _ _ _ _ _ O A B E) as [-> ->]. split; reflexivity.
  - destruct (be_det 8 _ _ _ _ _ _ O A B E) as [-> ->]. split; reflexivity.
  - destruct (get_det n _ _ _ _ _ _ O A B E) as [-> ->]. split; reflexivity.
  - destruct A as (L & q & Q & ->). destruct B as (L' & q' & Q' & ->). rewrite <- !app_assoc in E.
    rewrite <- app_assoc in O. destruct (be_det 1 _ _ _ _ _ _ O Q Q' E) as [EL ->]. apply app_inv_head in E.
    apply app_inj_len in E; [|exact EL]. destruct E as [-> _]. split; reflexivity.
  - destruct A as (L & q & Q & ->). destruct B as (L' & q' & Q' & ->). rewrite <- !app_assoc in E.
    rewrite <- app_assoc in O. destruct (vint_det _ _ _ _ _ _ O Q Q' E) as [EL ->]. apply app_inv_head in E.
    apply app_inj_len in E; [|exact EL]. destruct E as [-> _]. split; reflexivity.
  - destruct A as (g & q & r & Q & R & -> & K). destruct B as (g' & q' & r' & Q' & R' & -> & K').
    rewrite <- !app_assoc in E. rewrite <- !app_assoc in O.
    destruct (vint_det _ _ _ _ _ _ O Q Q' E) as [EL ->]. apply app_inv_head in E. subst g'.
    apply app_inj_len in E; [|lia]. destruct E as [-> E].
    rewrite !bytes_ok_app in O. assert (O2 : bytes_ok (r ++ t)) by (rewrite bytes_ok_app; tauto).
    destruct (be_det 2 _ _ _ _ _ _ O2 R R' E) as [-> ->].
    assert (f = f0) as -> by lia. split; reflexivity.
Qed.

Lemma read_thm : forall k s, bs_ok s ->
  exists s' v, r_item k s = Some (s', v) /\ bs_ok s' /\ b_data s' = b_data s /\ b_ptr s <= b_ptr s' /\
    match v with
    | Some i => exists a p t, b_data s = a ++ p ++ t /\ blen a = b_ptr s /\ reads k i p /\ b_ptr s' = b_ptr s + blen p
    | None => forall i a p t, b_data s = a ++ p ++ t -> blen a = b_ptr s -> ~ reads k i p
    end.
Proof.
  intros k s H. destruct (item_rd k s H) as (s' & v & E & D & P & C). exists s', v.
  split; [exact E|]. split; [apply (step_ok s); assumption|]. split; [exact D|]. split; [lia|].
  destruct (data_rest s H) as (a & Ed & La). destruct v as [i|].
  - destruct C as (p & t & Er & R & Pp). exists a, p, t. rewrite <- Er. repeat split; assumption.
  - intros i a' p t Ed' La' R. apply (C i p t); [|exact R]. rewrite Ed in Ed'.
    apply app_inj_len in Ed'; [|lia]. apply Ed'.
Qed.

Lemma read_exact : forall k s p t i, bs_ok s -> b_rest s = p ++ t -> reads k i p ->
  r_item k s = Some (mk_bs (b_data s) (b_ptr s + blen p), Some i).
Proof.
  intros k s p t i H E R. destruct (item_rd k s H) as ([d' n'] & v & -> & D & P & C). cbn [b_data b_ptr] in *. subst d'.
  destruct v as [j|].
  - destruct C as (q & u & Eq & Q & ->). pose proof (rest_ok s H) as RO. rewrite Eq in RO.
    assert (EE : q ++ u = p ++ t) by congruence.
    destruct (reads_det k j i q p u t RO Q R EE) as [-> ->]. reflexivity.
  - exfalso. exact (C i p t E R).
Qed.

Lemma lays_reads : forall k i p, item_ok i -> for_item k i -> lays i p -> reads k i p.
Proof.
  intros [| | | | |n|old|max|] [x|x|x|x|x|l|l|l|f ip port] p O F L; cbn in *; try contradiction; try exact L.
  - split; assumption.
  - split; [apply O|exact L].
  - split; assumption.
  - destruct L as (q & r & Q & R & ->). exists f, q, r. repeat split; try assumption; try apply R.
    destruct O as (_ & _ & O). lia.
Qed.

Lemma items_exact : forall ks l s p t, bs_ok s -> Forall item_ok l -> Forall2 for_item ks l -> series l p ->
  b_rest s = p ++ t -> r_items ks s = Some (mk_bs (b_data s) (b_ptr s + blen p), Some l).
Proof.
  induction ks as [|k ks IH]; intros l s p t H O F L E; inversion F as [|? i ? l' F1 F2]; subst.
  - cbn in L. subst p. destruct s as [d n]. rewrite blen_nil, N.add_0_r. reflexivity.
  - inversion O as [|? ? O1 O2]; subst. destruct L as (a & b & -> & [La _] & Lb). rewrite <- app_assoc in E.
    cbn [r_items]. unfold r_and. rewrite (read_exact k s a (b ++ t) i H E (lays_reads k i a O1 F1 La)).
    destruct (rest_adv s (mk_bs (b_data s) (b_ptr s + blen a)) a (b ++ t) H E eq_refl eq_refl) as [R1 H1].
    rewrite (IH l' _ b t H1 O2 F2 Lb R1). cbn [b_data b_ptr option_map fst snd]. rewrite blen_app, N.add_assoc. reflexivity.
Qed.

Lemma series_unique_len : forall l p q, series l p -> series l q -> blen p = blen q.
Proof.
  induction l as [|i l IH]; intros p q P Q; cbn in P, Q; [congruence|].
  destruct P as (a & b & -> & [A1 A2] & B). destruct Q as (a' & b' & -> & [A1' A2'] & B').
  rewrite !blen_app, (IH b b' B B'). specialize (A2 a' A1'). specialize (A2' a A1). lia.
Qed.

Lemma round_thm : forall ks l s s', bs_ok s -> Forall item_ok l -> Forall2 for_item ks l ->
  w_items l s = Some (s', true) ->
  r_items ks (mk_bs (b_data s') (b_ptr s)) = Some (s', Some l).
Proof.
  intros ks l s s' H O F W. destruct (items_wr l O s H) as (s1 & r & E & O1 & L & C).
  rewrite W in E. injection E as <- <-. destruct C as (A & (a & b & c & E & E' & La & Lb) & P).
  set (p := concat (map enc l)) in *.
  assert (HR : b_rest (mk_bs (b_data s') (b_ptr s)) = p ++ c).
  { unfold b_rest. cbn [b_data b_ptr]. rewrite E'. apply skipn_app_len. exact La. }
  assert (HO : bs_ok (mk_bs (b_data s') (b_ptr s))).
  { destruct O1 as (X & Y & Z). unfold bs_ok. cbn [b_data b_ptr]. repeat split; try assumption. lia. }
  rewrite (items_exact ks l _ p c HO O F (enc_series l O) HR). cbn [b_data b_ptr].
  destruct s' as [d n]. cbn [b_data b_ptr] in *. rewrite P. reflexivity.
Qed.

(** ** Skipping *)

Lemma skip_eq : forall n s, bs_ok s ->
  b_skip n s = match get n s with Some (s', v) => Some (s', match v with Some _ => true | None => false end) | None => None end.
Proof.
  intros n s H. unfold b_skip, get. destruct (b_room s <? n) eqn:R; [reflexivity|]. unfold peek.
  rewrite (room_eq s H) in R. unfold b_size. assert (A := proj1 H).
  replace (b_ptr s + n <=? blen (b_data s)) with true by lia. reflexivity.
Qed.

Lemma get_cases : forall n s, bs_ok s ->
  (n <= blen (b_data s) - b_ptr s /\ exists l, blen l = n /\ bytes_ok l /\
     get n s = Some (mk_bs (b_data s) (b_ptr s + n), Some l)) \/
  (blen (b_data s) - b_ptr s < n /\ get n s = Some (b_error s, None)).
Proof.
  intros n s H. pose proof (rest_ok s H) as RO. pose proof (room_rest s H) as RR. pose proof (room_eq s H) as RE.
  unfold get. destruct (b_room s <? n) eqn:R; [right; split; [lia|reflexivity]|].
  left. split; [lia|]. assert (LR : n <= blen (b_rest s)) by lia.
  destruct (split_at _ _ LR) as (x & y & Ex & Lx & Fx & _). unfold peek, b_size. assert (A := proj1 H).
  replace (b_ptr s + n <=? blen (b_data s)) with true by lia. rewrite Fx. exists x.
  rewrite Ex, bytes_ok_app in RO. repeat split; [exact Lx|apply RO].
Qed.

Definition okr {A} (v : option A) : bool := match v with Some _ => true | None => false end.

Lemma skip_int : forall n val s, bs_ok s -> (forall l, blen l = n -> bytes_ok l -> val l = Some (be_value l)) ->
  exists s' v, r_int n val s = Some (s', v) /\ b_skip n s = Some (s', okr v).
Proof.
  intros n val s H HV. rewrite (skip_eq n s H). unfold r_int.
  destruct (get_rd n s H) as (s' & w & E & D & P & C). rewrite E. destruct w as [l|].
  - destruct C as (p & t & Er & [-> L] & _). pose proof (rest_ok s H) as RO. rewrite Er, bytes_ok_app in RO.
    rewrite HV by tauto. eexists _, _. split; reflexivity.
  - eexists _, _. split; reflexivity.
Qed.

Lemma skip_vint_eq : forall s, bs_ok s -> exists s' v, r_vint s = Some (s', v) /\ skip_vint s = Some (s', okr v).
Proof.
  intros s H. unfold r_vint, skip_vint. rewrite (room_rest s H). pose proof (rest_ok s H) as RO.
  destruct (blen (b_rest s) <? 1) eqn:R; [eexists _, _; split; reflexivity|].
  destruct (b_rest s) as [|b l] eqn:E; [rewrite blen_nil in R; discriminate|].
  unfold varint_decode. set (len := decode_varint_length b). unfold b_skip. rewrite (room_rest s H), E.
  assert (HB : b < 256) by (inversion RO; assumption).
  assert (1 <= len <= 8).
  { subst len. rewrite (decode_varint_length_eq b HB). destruct (varint_len_cases b) as [-> |[-> |[-> | ->]]]; lia. }
  destruct (blen (b :: l) <? len) eqn:T; [cbn; eexists _, _; split; reflexivity|].
  destruct (be_loop_some (N.to_nat (len - 1)) (N.land b 63) l) as [v Hv].
  { rewrite blen_cons in T. unfold blen in T. lia. }
  rewrite Hv. replace (len =? 0) with false by lia. eexists _, _. split; reflexivity.
Qed.

Lemma skip_thm : forall k s, bs_ok s ->
  exists s' r, skip_item k s = Some (s', r) /\ b_data s' = b_data s /\ b_ptr s <= b_ptr s' <= blen (b_data s) /\
    (forall s'' i, r_item k s = Some (s'', Some i) -> r = true /\ s'' = s') /\
    (r = true -> (exists i, r_item k s = Some (s', Some i)) \/
       match k with KCid _ | KStr _ => True | _ => False end).
Proof.
  intros k s H.
  assert (R : forall s' v (c : bstream -> rres bitem) Q, Rd c Q -> c s = Some (s', v) ->
    b_data s' = b_data s /\ b_ptr s <= b_ptr s' <= blen (b_data s)).
  { intros s' v c Q RD E. destruct (RD s H) as (s2 & w & E2 & D & P & _). rewrite E in E2. injection E2 as <- <-.
    split; assumption. }
  assert (SI : forall A (f : bstream -> rres A) c (P : bitem -> list N -> Prop) sk, Rd (fun s => rmap c (f s)) P ->
    (exists s' v, f s = Some (s', v) /\ sk = Some (s', okr v)) ->
    exists s' r, sk = Some (s', r) /\ b_data s' = b_data s /\ b_ptr s <= b_ptr s' <= blen (b_data s) /\
      (forall s'' i, rmap c (f s) = Some (s'', Some i) -> r = true /\ s'' = s') /\
      (r = true -> (exists i, rmap c (f s) = Some (s', Some i)) \/ False)).
  { intros A f c P sk RD (s' & v & E & ->). exists s', (okr v). split; [reflexivity|].
    assert (E2 : rmap c (f s) = Some (s', option_map c v)) by (rewrite E; reflexivity).
    destruct (R _ _ _ _ RD E2) as [D Pp]. split; [exact D|]. split; [exact Pp|]. rewrite E2. split.
    - intros s'' i X. injection X as <- X. destruct v; [split; reflexivity|discriminate].
    - destruct v as [a|]; [|discriminate]. intros _. left. exists (c a). reflexivity. }
  destruct k as [| | | | |n|old|max|]; cbn [skip_item].
  - eapply SI; [apply (item_rd KVint)|apply skip_vint_eq; exact H].
  - eapply SI; [apply (item_rd K8)|apply skip_int; [exact H|apply val8_eq]].
  - eapply SI; [apply (item_rd K16)|apply skip_int; [exact H|apply val16_eq]].
  - eapply SI; [apply (item_rd K32)|apply skip_int; [exact H|apply val32_eq]].
  - eapply SI; [apply (item_rd K64)|apply skip_int; [exact H|apply val64_eq]].
  - eapply SI; [apply (item_rd (KBuf n))|]. rewrite (skip_eq n s H).
    destruct (get_rd n s H) as (s' & w & -> & _). exists s', w. split; reflexivity.
  - cbn [r_item]. unfold r_cid. destruct (int_rd 1 val8 val8_eq s H) as (s1 & v & -> & D1 & P1 & C1).
    pose proof (step_ok s s1 H D1 P1) as O1. rewrite (skip_eq _ s1 O1).
    destruct (get_rd (match v with Some x => x | None => 0 end) s1 O1) as (s2 & w & E2 & D2 & P2 & C2).
    rewrite E2, D1 in *. eexists _, _. split; [reflexivity|]. split; [exact D2|]. split; [lia|]. split; [|right; exact I].
    intros s'' i. destruct v as [x|].
    + destruct (20 <? x); [discriminate|]. rewrite E2. cbn [rmap]. intro X. injection X as <- X.
      destruct w; [split; reflexivity|discriminate].
    + destruct (20 <? old); [discriminate|]. destruct (get old s1) as [[]|]; discriminate.
  - cbn [r_item]. unfold r_cstr. destruct (vint_rd s H) as (s1 & v & -> & D1 & P1 & C1).
    pose proof (step_ok s s1 H D1 P1) as O1. destruct v as [x|].
    + rewrite (skip_eq x s1 O1). destruct (get_rd x s1 O1) as (s2 & w & E2 & D2 & P2 & C2).
      rewrite E2, D1 in *. eexists _, _. split; [reflexivity|]. split; [exact D2|]. split; [lia|]. split; [|right; exact I].
      intros s'' i. destruct (max <? u64 (x + 1)); [discriminate|]. cbn [rmap]. intro X. injection X as <- X.
      destruct w; [split; reflexivity|discriminate].
    + eexists _, _. split; [reflexivity|]. split; [exact D1|]. split; [exact P1|]. split; [discriminate|right; exact I].
  - cbn [r_item]. unfold r_addr. destruct (vint_rd s H) as (s1 & v & -> & D1 & P1 & C1).
    pose proof (step_ok s s1 H D1 P1) as O1.
    set (v4 := match v with Some x => x =? 2 | None => false end).
    assert (A1 := proj1 O1). unfold r_and, r_int, b_skip. rewrite (room_eq s1 O1).
    destruct (get_cases (if v4 then 4 else 16) s1 O1) as [(G & l & Ll & OK & ->)|(G & ->)].
    + set (s2 := mk_bs (b_data s1) (b_ptr s1 + (if v4 then 4 else 16))) in *.
      assert (O2 : bs_ok s2).
      { destruct O1 as (X & Y & Z). unfold bs_ok. subst s2. cbn [b_data b_ptr]. repeat split; try assumption. lia. }
      destruct (get_cases 2 s2 O2) as [(G2 & l2 & Ll2 & OK2 & ->)|(G2 & ->)];
        subst s2; cbn [b_data b_ptr b_error] in *.
      * rewrite (val16_eq l2 Ll2 OK2).
        replace (blen (b_data s1) - b_ptr s1 <? (if v4 then 6 else 18)) with false by (destruct v4; lia).
        replace (b_ptr s1 + (if v4 then 4 else 16) + 2) with (b_ptr s1 + (if v4 then 6 else 18)) by (destruct v4; lia).
        eexists _, _. split; [reflexivity|]. cbn [b_data b_ptr rmap]. rewrite D1 in *.
        split; [reflexivity|]. split; [destruct v4; lia|]. destruct v as [x|]; cbn [option_map].
        -- split; [intros s'' i X; injection X as <- _; split; reflexivity|]. intros _. left. eexists. reflexivity.
        -- split; [discriminate|discriminate].
      * replace (blen (b_data s1) - b_ptr s1 <? (if v4 then 6 else 18)) with true by (destruct v4; lia).
        eexists _, _. split; [reflexivity|]. cbn [b_data b_ptr b_error rmap]. unfold b_size. rewrite D1 in *.
        split; [reflexivity|]. split; [lia|]. destruct v as [x|]; cbn [option_map]; split; discriminate.
    + replace (blen (b_data s1) - b_ptr s1 <? (if v4 then 6 else 18)) with true by (destruct v4; lia).
      pose proof (error_ok s1 O1) as O2.
      destruct (get_cases 2 (b_error s1) O2) as [(G2 & _)|(G2 & ->)].
      { cbn [b_data b_ptr b_error] in G2. unfold b_size in G2. lia. }
      eexists _, _. split; [reflexivity|]. cbn [b_data b_ptr b_error rmap]. unfold b_size. rewrite D1 in *.
      split; [reflexivity|]. split; [lia|]. destruct v as [x|]; cbn [option_map]; split; discriminate.
Qed.

Lemma end_thm : forall k s s', bs_ok s -> r_item k s = Some (s', None) ->
  b_ptr s' = blen (b_data s) \/ match k with KCid _ | KStr _ => True | _ => False end.
Proof.
  intros k s s' H. pose proof (fun n => get_cases n s H) as GC.
  assert (VE : forall s', r_vint s = Some (s', None) -> s' = b_error s).
  { intros s1. unfold r_vint. destruct (b_room s <? 1); [intro X; injection X as <-; reflexivity|].
    destruct (varint_decode (b_rest s)) as [[len v]| |]; try discriminate.
    destruct (len =? 0); [|discriminate]. intro X. injection X as <-. reflexivity. }
  assert (IE : forall n val c, rmap c (r_int n val s) = Some (s', None) -> s' = b_error s).
  { intros n val c. unfold r_int. destruct (GC n) as [(_ & l & _ & _ & ->)|(_ & ->)].
    - destruct (val l); discriminate.
    - intro X. injection X as <-. reflexivity. }
  destruct k as [| | | | |n|old|max|]; cbn [r_item]; intro E; try (right; exact I).
  - left. destruct (r_vint s) as [[s1 [v|]]|] eqn:V; try discriminate. rewrite (VE s1 eq_refl) in E.
    injection E as <-. reflexivity.
  - left. rewrite (IE _ _ _ E). reflexivity.
  - left. rewrite (IE _ _ _ E). reflexivity.
  - left. rewrite (IE _ _ _ E). reflexivity.
  - left. rewrite (IE _ _ _ E). reflexivity.
  - left. destruct (GC n) as [(_ & l & _ & _ & X)|(_ & X)]; rewrite X in E; [discriminate|].
    injection E as <-. reflexivity.
  - left. revert E. unfold r_addr. destruct (vint_rd s H) as (s1 & v & EV & D1 & P1 & C1). rewrite EV.
    pose proof (step_ok s s1 H D1 P1) as O1. rewrite <- D1.
    set (n := if match v with Some x => x =? 2 | None => false end then 4 else 16).
    assert (Hn : 4 <= n) by (subst n; destruct (match v with Some x => x =? 2 | None => false end); lia).
    unfold r_and, r_int.
    destruct (get_cases n s1 O1) as [(G & l & Ll & OK & ->)|(G & ->)].
    + set (s2 := mk_bs (b_data s1) (b_ptr s1 + n)) in *.
      assert (O2 : bs_ok s2).
      { destruct O1 as (X & Y & Z). unfold bs_ok. subst s2. cbn [b_data b_ptr]. repeat split; try assumption. lia. }
      destruct (get_cases 2 s2 O2) as [(G2 & l2 & Ll2 & OK2 & ->)|(G2 & ->)].
      * rewrite (val16_eq l2 Ll2 OK2). destruct v as [x|]; [discriminate|].
        rewrite (VE s1 EV) in G. cbn [b_error b_data b_ptr] in G. unfold b_size in G. lia.
      * intro X. injection X as <- _. reflexivity.
    + destruct (get_cases 2 (b_error s1) (error_ok s1 O1)) as [(G2 & _)|(G2 & ->)].
      { cbn [b_data b_ptr b_error] in G2. unfold b_size in G2. lia. }
      intro X. injection X as <- _. reflexivity.
Qed.
