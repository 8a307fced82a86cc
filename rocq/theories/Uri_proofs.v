(** Proofs about paths and queries. *)
From Verif Require Import Base Tac Mem Mem_proofs Varint_proofs Qpack_model H3_model H3b_proofs Uri_model Uri_spec.

(** ** Paths *)

Lemma path_part_at : forall p q, without 63 p -> path_part (p ++ 63 :: q) = blen p.
Proof.
  induction p as [| c p IH]; intros q W; [reflexivity |]. cbn [app path_part].
  replace (c =? 63) with false by (symmetry; apply N.eqb_neq; intros ->; apply W; left; reflexivity).
  rewrite IH by (intros I; apply W; right; exact I). rewrite blen_cons. lia.
Qed.

Lemma path_part_all : forall p, without 63 p -> path_part p = blen p.
Proof.
  induction p as [| c p IH]; intros W; [reflexivity |]. cbn [path_part].
  replace (c =? 63) with false by (symmetry; apply N.eqb_neq; intros ->; apply W; left; reflexivity).
  rewrite IH by (intros I; apply W; right; exact I). rewrite blen_cons. lia.
Qed.

Lemma value_part_at : forall p q, without 38 p -> value_part (p ++ 38 :: q) = blen p.
Proof.
  induction p as [| c p IH]; intros q W; [reflexivity |]. cbn [app value_part].
  replace (c =? 38) with false by (symmetry; apply N.eqb_neq; intros ->; apply W; left; reflexivity).
  rewrite IH by (intros I; apply W; right; exact I). rewrite blen_cons. lia.
Qed.

Lemma value_part_all : forall p, without 38 p -> value_part p = blen p.
Proof.
  induction p as [| c p IH]; intros W; [reflexivity |]. cbn [value_part].
  replace (c =? 38) with false by (symmetry; apply N.eqb_neq; intros ->; apply W; left; reflexivity).
  rewrite IH by (intros I; apply W; right; exact I). rewrite blen_cons. lia.
Qed.

Lemma value_part_le : forall l, value_part l <= blen l.
Proof. induction l as [| c l IH]; [reflexivity |]. cbn [value_part]. rewrite blen_cons. destruct (c =? 38); lia. Qed.

Lemma get_mid : forall p c q, mem_get (blen p) (p ++ c :: q) = Some c.
Proof.
  intros p c q. unfold mem_get, blen. rewrite Nat2N.id. rewrite nth_error_app2 by lia. rewrite Nat.sub_diag. reflexivity.
Qed.

Lemma offset_query : forall p q, without 63 p -> query_offset (p ++ 63 :: q) = Ret (blen p + 1).
Proof.
  intros p q W. unfold query_offset. rewrite (path_part_at p q W), get_mid.
  replace (blen p <? blen (p ++ 63 :: q)) with true by (rewrite blen_app, blen_cons; lia). reflexivity.
Qed.

Lemma offset_none : forall p, without 63 p -> query_offset p = Ret (blen p).
Proof. intros p W. unfold query_offset. rewrite (path_part_all p W), N.ltb_irrefl. reflexivity. Qed.

(** ** The position of a parameter *)

Lemma same_iff : forall a b, same a b = true <-> a = b.
Proof.
  induction a as [| x a IH]; intros [| y b]; cbn [same]; try (split; congruence).
  rewrite Bool.andb_true_iff, N.eqb_eq, IH. split; [intros [-> ->]; reflexivity | intros H; injection H; auto].
Qed.

(** The end of a component. *)
Definition ends (t : list N) : Prop := t = [] \/ exists l, t = 38 :: l.

Lemma value_part_ends : forall v t, without 38 v -> ends t -> value_part (v ++ t) = blen v.
Proof.
  intros v t W [-> | (l & ->)]; [rewrite app_nil_r; apply value_part_all; exact W | apply value_part_at; exact W].
Qed.

Lemma value_here : forall pre v t, without 38 v -> ends t -> value_at (pre ++ v ++ t) (blen pre) = Ret v.
Proof.
  intros pre v t W E. unfold value_at. rewrite skipn_at, (value_part_ends v t W E).
  pose proof (mem_split3 [] v t 0 (blen v) eq_refl eq_refl) as H. cbn [app] in H. rewrite H. reflexivity.
Qed.

Definition found (q id : list N) (begin : N) : outcome bool :=
  if begin + blen id <=? blen q then
    let! m := mem (mem_read begin (blen id) q) in
    if same m id then
      if begin + blen id =? blen q then Ret true
      else let! c := mem (mem_get (begin + blen id) q) in Ret ((c =? 61) || (c =? 38))
    else Ret false
  else Ret false.

Definition found_at (q id : list N) (begin : N) : outcome N :=
  if begin + blen id <? blen q then
    let! c := mem (mem_get (begin + blen id) q) in
    Ret (if c =? 61 then begin + blen id + 1 else begin + blen id)
  else Ret (begin + blen id).

Lemma position_step : forall f q id begin, begin < blen q ->
  position_loop (S f) q id begin =
  (let! k := found q id begin in
   if k then found_at q id begin
   else
     let b := begin + value_part (skipn (N.to_nat begin) q) in
     position_loop f q id (if b <? blen q then b + 1 else b)).
Proof. intros f q id begin H. cbn [position_loop]. replace (begin <? blen q) with true by lia. reflexivity. Qed.

Lemma position_end : forall f q id begin, blen q <= begin -> position_loop (S f) q id begin = Ret 0.
Proof. intros f q id begin H. cbn [position_loop]. replace (begin <? blen q) with false by lia. reflexivity. Qed.

Lemma found_yes : forall pre c t id v, without 38 c -> ends t -> gives id c v -> id <> [] ->
  found (pre ++ c ++ t) id (blen pre) = Ret true /\
  exists p, found_at (pre ++ c ++ t) id (blen pre) = Ret p /\ p <> 0 /\ value_at (pre ++ c ++ t) p = Ret v.
Proof.
  intros pre c t id v W E G NE.
  assert (exists r, c ++ t = id ++ r) as (r & Er).
  { destruct G as [[-> _] | ->]; [exists t; reflexivity | exists ((61 :: v) ++ t); rewrite <- app_assoc; reflexivity]. }
  assert (L0 : blen id <> 0) by (destruct id; [congruence | rewrite blen_cons; lia]).
  assert (Rd : mem_read (blen pre) (blen id) (pre ++ c ++ t) = Some id) by (rewrite Er; apply (mem_split3 pre id r); reflexivity).
  assert (Gt : forall x y, r = x :: y -> mem_get (blen pre + blen id) (pre ++ c ++ t) = Some x).
  { intros x y ->. rewrite Er, app_assoc, <- blen_app. apply get_mid. }
  assert (Le : blen (pre ++ c ++ t) = blen pre + blen id + blen r) by (rewrite Er, !blen_app; lia).
  assert (Sm : same id id = true) by (apply same_iff; reflexivity).
  unfold found, found_at. rewrite Le, Rd. cbn [mem bind]. rewrite Sm.
  replace (blen pre + blen id <=? blen pre + blen id + blen r) with true by lia.
  destruct G as [[-> ->] | ->].
  - apply app_inv_head in Er. subst r. destruct E as [-> | (l & ->)].
    + rewrite blen_nil, N.add_0_r, N.eqb_refl. split; [reflexivity |]. rewrite N.ltb_irrefl.
      eexists. split; [reflexivity |]. split; [lia |]. rewrite app_nil_r, <- blen_app.
      pose proof (value_here (pre ++ id) [] [] (fun H => H) (or_introl eq_refl)) as V. cbn [app] in V. rewrite app_nil_r in V. exact V.
    + rewrite (Gt 38 l eq_refl). cbn [mem bind]. rewrite blen_cons.
      replace (blen pre + blen id =? blen pre + blen id + (1 + blen l)) with false by lia. split; [reflexivity |].
      replace (blen pre + blen id <? blen pre + blen id + (1 + blen l)) with true by lia.
      eexists. split; [reflexivity |]. cbn [N.eqb Pos.eqb]. split; [lia |]. rewrite app_assoc, <- blen_app.
      apply (value_here (pre ++ id) [] (38 :: l)); [intros H; exact H | right; exists l; reflexivity].
  - rewrite <- app_assoc in Er. apply app_inv_head in Er. cbn [app] in Er. symmetry in Er.
    rewrite (Gt 61 (v ++ t) Er), Er. cbn [mem bind]. rewrite blen_cons.
    replace (blen pre + blen id =? blen pre + blen id + (1 + blen (v ++ t))) with false by lia. split; [reflexivity |].
    replace (blen pre + blen id <? blen pre + blen id + (1 + blen (v ++ t))) with true by lia.
    eexists. split; [reflexivity |]. split; [cbn; lia |]. cbn [N.eqb Pos.eqb].
    replace (pre ++ (id ++ 61 :: v) ++ t) with ((pre ++ id ++ [61]) ++ v ++ t) by (rewrite <- !app_assoc; reflexivity).
    replace (blen pre + blen id + 1) with (blen (pre ++ id ++ [61])) by (rewrite !blen_app, blen_cons, blen_nil; lia).
    apply value_here; [| exact E]. intros I. apply W. apply in_or_app. right. right. exact I.
Qed.

(** A name without '&' within a query is within a component. *)
Lemma prefix_in : forall id c t r, without 38 id -> ends t -> c ++ t = id ++ r -> exists d, c = id ++ d /\ r = d ++ t.
Proof.
  induction id as [| x id IH]; intros c t r W E H; [exists c; split; [reflexivity | symmetry; exact H] |].
  destruct c as [| y c].
  - cbn [app] in H. destruct E as [-> | (l & ->)]; [discriminate |]. injection H as <- _. exfalso. apply W. left. reflexivity.
  - cbn [app] in H. injection H as -> H. destruct (IH c t r) as (d & -> & ->); [intros I; apply W; right; exact I | exact E | exact H |].
    exists d. split; reflexivity.
Qed.

Lemma found_no : forall pre c t id, without 38 c -> ends t -> without 38 id -> (forall v, ~ gives id c v) ->
  found (pre ++ c ++ t) id (blen pre) = Ret false.
Proof.
  intros pre c t id W E Wi G. unfold found. destruct (blen pre + blen id <=? blen (pre ++ c ++ t)) eqn:Le; [| reflexivity].
  rewrite !blen_app in Le.
  assert (Sp : c ++ t = firstn (length id) (c ++ t) ++ skipn (length id) (c ++ t)) by (symmetry; apply firstn_skipn).
  set (m := firstn (length id) (c ++ t)) in *. set (r := skipn (length id) (c ++ t)) in *.
  assert (Lm : blen m = blen id).
  { unfold blen, m. rewrite firstn_length. unfold blen in Le. rewrite app_length. lia. }
  rewrite Sp. rewrite (mem_split3 pre m r (blen pre) (blen id) eq_refl (eq_sym Lm)). cbn [mem bind].
  destruct (same m id) eqn:Sm; [| reflexivity]. apply same_iff in Sm. rewrite Sm in *.
  destruct (prefix_in id c t r Wi E Sp) as (d & -> & Er). rewrite Er.
  rewrite !blen_app. destruct d as [| x d].
  - exfalso. apply (G []). left. rewrite app_nil_r. split; reflexivity.
  - cbn [app]. replace (blen pre + blen id =? blen pre + (blen id + (blen (x :: d) + blen t))) with false by (rewrite blen_cons; lia).
    replace (mem_get (blen pre + blen id) (pre ++ id ++ x :: d ++ t)) with (Some x)
      by (rewrite app_assoc, <- blen_app; symmetry; apply get_mid).
    cbn [mem bind]. f_equal. apply orb_false_iff. split; apply N.eqb_neq; intros ->.
    + apply (G d). right. reflexivity.
    + apply W. apply in_or_app. right. left. reflexivity.
Qed.

(** The result of the search. *)
Definition located (q : list N) (o : outcome N) (r : option (list N)) : Prop :=
  match r with
  | None => o = Ret 0
  | Some v => exists p, o = Ret p /\ p <> 0 /\ value_at q p = Ret v
  end.

Lemma position_from : forall cs l, query cs l -> forall pre id r f, id <> [] -> without 38 id -> first_value id cs r -> (length l < f)%nat ->
  located (pre ++ l) (position_loop f (pre ++ l) id (blen pre)) r.
Proof.
  induction 1 as [c W | c cs l W Q IH]; intros pre id r f NE Wi F Lf.
  - destruct f as [| f]; [lia |]. destruct (N.eq_dec (blen c) 0) as [Z | Z].
    + assert (c = []) as -> by (destruct c; [reflexivity | rewrite blen_cons in Z; lia]).
      rewrite app_nil_r, position_end by lia. inversion F as [| c' cs' v G | c' cs' r' G F']; subst.
      * destruct G as [[E _] | E]; [congruence | destruct id; discriminate].
      * inversion F'; subst. reflexivity.
    + rewrite position_step by (rewrite blen_app; lia).
      assert (Et : pre ++ c = pre ++ c ++ []) by (rewrite app_nil_r; reflexivity).
      inversion F as [| c' cs' v G | c' cs' r' G F']; subst.
      * rewrite Et. destruct (found_yes pre c [] id v W (or_introl eq_refl) G NE) as (-> & p & Fp & P0 & V). cbn [bind].
        exists p. repeat split; assumption.
      * inversion F'; subst. rewrite Et at 2. rewrite (found_no pre c [] id W (or_introl eq_refl) Wi G). cbn [bind]. cbv zeta.
        rewrite skipn_at, (value_part_all c W). rewrite <- blen_app, N.ltb_irrefl.
        destruct f as [| f]; [destruct c; [rewrite blen_nil in Z; lia | cbn [length] in Lf; lia] |].
        rewrite position_end by lia. reflexivity.
  - destruct f as [| f]; [lia |]. rewrite position_step by (rewrite !blen_app, blen_cons; lia).
    assert (E : ends (38 :: l)) by (right; exists l; reflexivity).
    inversion F as [| c' cs' v G | c' cs' r' G F']; subst.
    + destruct (found_yes pre c (38 :: l) id v W E G NE) as (-> & p & Fp & P0 & V). cbn [bind]. exists p. repeat split; assumption.
    + rewrite (found_no pre c (38 :: l) id W E Wi G). cbn [bind]. cbv zeta. rewrite skipn_at, (value_part_at c l W).
      replace (blen pre + blen c <? blen (pre ++ c ++ 38 :: l)) with true by (rewrite !blen_app, blen_cons; lia).
      replace (pre ++ c ++ 38 :: l) with ((pre ++ c ++ [38]) ++ l) by (rewrite <- !app_assoc; reflexivity).
      replace (blen pre + blen c + 1) with (blen (pre ++ c ++ [38])) by (rewrite !blen_app, blen_cons, blen_nil; lia).
      apply IH; try assumption. rewrite app_length in Lf. cbn [length] in Lf. lia.
Qed.

Lemma position_found : forall cs q id r, query cs q -> id <> [] -> without 38 id -> first_value id cs r -> located q (position q id) r.
Proof. intros cs q id r Q NE W F. apply (position_from cs q Q [] id r (S (length q)) NE W F). lia. Qed.

(** ** Every text is a query, and every query has a first value or none *)

Lemma query_total : forall l, exists cs, query cs l.
Proof.
  induction l as [| c l (cs & IH)]; [exists [[]]; apply query_last; intros [] |].
  destruct (N.eq_dec c 38) as [-> | NE].
  - exists ([] :: cs). apply (query_more [] cs l); [intros [] | exact IH].
  - inversion IH as [d W | d ds l' W Q]; subst.
    + exists [c :: l]. apply query_last. intros [-> | I]; [congruence | exact (W I)].
    + exists ((c :: d) :: ds). apply (query_more (c :: d)); [intros [-> | I]; [congruence | exact (W I)] | exact Q].
Qed.

Lemma gives_dec : forall id c, (exists v, gives id c v) \/ (forall v, ~ gives id c v).
Proof.
  induction id as [| x id IH]; intros c.
  - destruct c as [| y c]; [left; exists []; left; split; reflexivity |].
    destruct (N.eq_dec y 61) as [-> | NE]; [left; exists c; right; reflexivity |].
    right. intros v [[E _] | E]; [discriminate | injection E as E _; congruence].
  - destruct c as [| y c]; [right; intros v [[E _] | E]; discriminate |].
    destruct (N.eq_dec y x) as [-> | NE]; [| right; intros v [[E _] | E]; injection E as E _; congruence].
    destruct (IH c) as [(v & [[-> ->] | ->]) | H].
    + left. exists []. left. split; reflexivity.
    + left. exists v. right. reflexivity.
    + right. intros v [[E ->] | E]; injection E as E.
      * apply (H []). left. split; [exact E | reflexivity].
      * apply (H v). right. exact E.
Qed.

Lemma first_total : forall id cs, exists r, first_value id cs r.
Proof.
  intros id. induction cs as [| c cs (r & IH)]; [exists None; constructor |].
  destruct (gives_dec id c) as [(v & G) | G]; [exists (Some v); apply first_here; exact G | exists r; apply first_later; assumption].
Qed.
