(** The parser of header blocks. *)
From Coq Require Import Strings.String.
From Verif Require Import Base Tac Qpack_model Qpack_spec Qpack_proofs Qpack2_proofs.

(** ** Texts *)

Lemma same_eq : forall a b, same_text a b = eq_text a b.
Proof. induction a as [| x a IH]; intros [| y b]; cbn [same_text eq_text]; reflexivity. Qed.

Lemma eq_text_true : forall a b, eq_text a b = true -> a = b.
Proof.
  induction a as [| x a IH]; intros [| y b] H; cbn [eq_text] in H; try discriminate; [reflexivity |].
  apply andb_true_iff in H. destruct H as [H1 H2]. apply N.eqb_eq in H1. subst y. f_equal. exact (IH b H2).
Qed.

Lemma eq_text_refl : forall a, eq_text a a = true.
Proof. induction a as [| x a IH]; cbn [eq_text]; [reflexivity |]. rewrite N.eqb_refl, IH. reflexivity. Qed.

Lemma decode_total : forall h raw, bytes_ok raw -> exists t, decode_string h raw = Ret t /\ reading (mk_str h raw) t.
Proof.
  intros h raw O. unfold decode_string, reading. cbn [s_huff s_raw]. destruct h.
  - destruct (huff_total raw 256 O) as (ok & out & tail & E1 & E2 & _). rewrite E1. destruct ok.
    + exists out. split; [reflexivity |]. right. split; [reflexivity |]. exists tail. exact E2.
    + exists raw. split; [reflexivity |]. left. reflexivity.
  - exists raw. split; [reflexivity |]. left. reflexivity.
Qed.

Lemma decode_text : forall s t, bytes_ok (s_raw s) -> text s t -> decode_string (s_huff s) (s_raw s) = Ret t.
Proof.
  intros s t O T. unfold text in T. unfold decode_string. destruct (s_huff s).
  - destruct T as [T L]. rewrite (huff_text t (s_raw s) 256 O T); [reflexivity |]. unfold blen. lia.
  - subst t. reflexivity.
Qed.

(** ** Status *)

Definition dec_from (v : Z) (l : list N) : Z := fold_left (fun a c => (a * 10 + (Z.of_N c - 48))%Z) l v.

Lemma status_undef : forall l v, (0 <= v)%Z -> parse_status l v = Undef ->
  exists d r, l = d ++ r /\ Forall digit d /\ (int_max < dec_from v d)%Z.
Proof.
  induction l as [| c l IH]; intros v V H; cbn [parse_status] in H; [discriminate |].
  destruct ((48 <=? c) && (c <=? 57)) eqn:T; [| discriminate].
  destruct (int_max <? v * 10 + (Z.of_N c - 48))%Z eqn:U.
  - exists [c], l. split; [reflexivity |]. split; [constructor; [unfold digit; lia | constructor] |].
    unfold dec_from. cbn [fold_left]. lia.
  - apply IH in H; [| lia]. destruct H as (d & r & -> & D & B).
    exists (c :: d), r. split; [reflexivity |]. split; [constructor; [unfold digit; lia | exact D] |]. exact B.
Qed.

Lemma status_nofuel : forall l v, parse_status l v <> NoFuel.
Proof.
  induction l as [| c l IH]; intros v H; cbn [parse_status] in H; [discriminate |].
  destruct ((48 <=? c) && (c <=? 57)); [| discriminate].
  destruct (int_max <? v * 10 + (Z.of_N c - 48))%Z; [discriminate |]. exact (IH _ H).
Qed.

Lemma status_ret : forall l k v, (0 <= v < 10 ^ Z.of_nat k)%Z -> (k + List.length l <= 9)%nat ->
  exists x, parse_status l v = Ret x /\
    ((Forall digit l /\ x = dec_from v l) \/ (~ Forall digit l /\ x = (-1)%Z)).
Proof.
  induction l as [| c l IH]; intros k v V L; cbn [parse_status].
  - exists v. split; [reflexivity |]. left. split; [constructor | reflexivity].
  - cbn [List.length] in L. destruct ((48 <=? c) && (c <=? 57)) eqn:T.
    + assert (P : (10 ^ Z.of_nat (S k) = 10 * 10 ^ Z.of_nat k)%Z).
      { rewrite Nat2Z.inj_succ, Z.pow_succ_r by lia. reflexivity. }
      assert (Q : (10 ^ Z.of_nat (S k) <= 10 ^ 9)%Z) by (apply Z.pow_le_mono_r; lia).
      change (10 ^ 9)%Z with 1000000000%Z in Q.
      replace (int_max <? v * 10 + (Z.of_N c - 48))%Z with false by (unfold int_max; lia).
      destruct (IH (S k) (v * 10 + (Z.of_N c - 48))%Z) as (x & E & H); [lia | lia |].
      exists x. split; [exact E |]. destruct H as [[D ->] | [D ->]].
      * left. split; [constructor; [unfold digit; lia | exact D] | reflexivity].
      * right. split; [| reflexivity]. intros F. apply D. inversion F; assumption.
    + exists (-1)%Z. split; [reflexivity |]. right. split; [| reflexivity].
      intros F. inversion F as [| a b D E]; subst. unfold digit in D. lia.
Qed.

Lemma status_sound : forall v, sound_status v ->
  exists x, parse_status v 0 = Ret x /\ status_of v x /\ x <> 0%Z.
Proof.
  intros v [L P]. destruct (status_ret v 0 0) as (x & E & H); [cbn; lia | lia |].
  exists x. split; [exact E |]. split; [exact H |].
  destruct H as [[D ->] | [D ->]]; [| lia]. specialize (P D). unfold decimal in P. unfold dec_from. lia.
Qed.

Lemma status_of_nonzero : forall v x, sound_status v -> status_of v x -> x <> 0%Z.
Proof. intros v x [L P] [[D ->] | [D ->]]; [specialize (P D); lia | lia]. Qed.

(** ** Names *)

Definition hdr (name : list N) : N := header_by_name interesting name.

Lemma method_eq : forall v, get_method_by_name v = method_of v.
Proof.
  intros v. unfold get_method_by_name, method_of.
  cbn [enum_by_name nth_error qpack_static e_content e_enum lookup].
  rewrite !same_eq. reflexivity.
Qed.

Lemma content_type_eq : forall v, get_content_type_by_name v = content_type_of v.
Proof.
  intros v. unfold get_content_type_by_name, content_type_of.
  cbn [enum_by_name nth_error qpack_static e_content e_enum lookup].
  rewrite !same_eq. reflexivity.
Qed.

Lemma method_of_known : forall v, (method_of v =? h3zero_method_none) = false.
Proof.
  intros v. unfold method_of. cbn [lookup].
  repeat (match goal with |- context [if ?b then _ else _] => destruct b end; try reflexivity).
Qed.

Lemma content_type_of_known : forall v, (content_type_of v =? h3zero_content_type_none) = false.
Proof.
  intros v. unfold content_type_of. cbn [lookup].
  repeat (match goal with |- context [if ?b then _ else _] => destruct b end; try reflexivity).
Qed.

(** The kinds of headers the parser looks at. *)
Definition kinds : list N :=
  [http_pseudo_header_method; http_header_content_type; http_pseudo_header_status;
   http_pseudo_header_path; http_header_range; http_pseudo_header_protocol].

Lemma apply_kind : forall h h' v p, (forall k, In k kinds -> (h =? k) = (h' =? k)) ->
  apply_value h v p = apply_value h' v p.
Proof.
  intros h h' v p H. unfold apply_value.
  rewrite !(H http_pseudo_header_method), !(H http_header_content_type), !(H http_pseudo_header_status),
    !(H http_pseudo_header_path), !(H http_header_range), !(H http_pseudo_header_protocol)
    by (unfold kinds; cbn [In]; tauto).
  reflexivity.
Qed.

Lemma apply_other : forall h v p, (forall k, In k kinds -> (h =? k) = false) -> apply_value h v p = Ret (true, p).
Proof.
  intros h v p H. unfold apply_value.
  rewrite (H http_pseudo_header_method), (H http_header_content_type), (H http_pseudo_header_status),
    (H http_pseudo_header_path), (H http_header_range), (H http_pseudo_header_protocol)
    by (unfold kinds; cbn [In]; tauto).
  reflexivity.
Qed.

(** ** The static table *)

Definition zret (o : outcome Z) (x : Z) : bool := match o with Ret y => (y =? x)%Z | _ => false end.
Definition teq (o : option (list N)) (v : list N) : bool := match o with Some w => eq_text w v | None => false end.

(** An entry and the field of RFC 9204 agree. *)
Definition entry_ok (i : nat) (e : entry) (f : list N * list N) : bool :=
  let h := hdr (fst f) in
  forallb (fun k => Bool.eqb (e_header e =? k) (h =? k)) kinds &&
  (negb (h =? http_pseudo_header_method) || (e_enum e =? get_method_by_name (snd f))) &&
  (negb (h =? http_header_content_type) || (e_enum e =? get_content_type_by_name (snd f))) &&
  (negb (h =? http_pseudo_header_status) || zret (parse_status (snd f) 0) (Z.of_N (e_enum e))) &&
  (negb (h =? http_pseudo_header_path) || teq (e_content e) (snd f)) &&
  (negb (h =? http_header_range) || Nat.eqb i 55) &&
  negb (h =? http_pseudo_header_protocol).

Lemma table_ok : forallb (fun i =>
  match nth_error qpack_static i, nth_error static_table i with
  | Some e, Some f => entry_ok i e f
  | _, _ => false
  end) (seq 0 99) = true.
Proof. vm_compute. reflexivity. Qed.

Lemma nb_static_99 : nb_static = 99.
Proof. vm_compute. reflexivity. Qed.

Lemma tables : forall i, (i < 99)%nat ->
  exists e f, nth_error qpack_static i = Some e /\ nth_error static_table i = Some f /\ entry_ok i e f = true.
Proof.
  intros i I. pose proof (all_below _ _ table_ok i I) as H. cbv beta in H.
  destruct (nth_error qpack_static i) as [e |]; [| discriminate].
  destruct (nth_error static_table i) as [f |]; [| discriminate].
  exists e, f. repeat split. exact H.
Qed.

Lemma static_short : forall i f, nth_error static_table i = Some f -> (i < 99)%nat.
Proof.
  intros i f H. assert (L : List.length static_table = 99%nat) by (vm_compute; reflexivity).
  rewrite <- L. apply nth_error_Some. rewrite H. discriminate.
Qed.

Lemma entry_kinds : forall i e f, entry_ok i e f = true -> forall k, In k kinds -> (e_header e =? k) = (hdr (fst f) =? k).
Proof.
  intros i e f H k K. unfold entry_ok in H. cbv zeta in H.
  do 6 (apply andb_true_iff in H; destruct H as [H _]).
  rewrite forallb_forall in H. specialize (H k K). apply Bool.eqb_prop. exact H.
Qed.

Lemma entry_apply : forall i e f p, entry_ok i e f = true -> i <> 55%nat ->
  apply_entry e p = apply_value (hdr (fst f)) (snd f) p.
Proof.
  intros i e f p H I. pose proof (entry_kinds i e f H) as K.
  unfold entry_ok in H. cbv zeta in H.
  apply andb_true_iff in H. destruct H as [H H7]. apply andb_true_iff in H. destruct H as [H H6].
  apply andb_true_iff in H. destruct H as [H H5]. apply andb_true_iff in H. destruct H as [H H4].
  apply andb_true_iff in H. destruct H as [H H3]. apply andb_true_iff in H. destruct H as [_ H2].
  unfold apply_entry, apply_value.
  rewrite (K http_pseudo_header_method), (K http_header_content_type), (K http_pseudo_header_status),
    (K http_pseudo_header_path) by (unfold kinds; cbn [In]; tauto).
  destruct (hdr (fst f) =? http_pseudo_header_method) eqn:E1.
  { cbn [negb orb] in H2. apply N.eqb_eq in H2. rewrite H2. reflexivity. }
  destruct (hdr (fst f) =? http_header_content_type) eqn:E2.
  { cbn [negb orb] in H3. apply N.eqb_eq in H3. rewrite H3. reflexivity. }
  destruct (hdr (fst f) =? http_pseudo_header_status) eqn:E3.
  { cbn [negb orb] in H4. destruct (p_status p =? 0)%Z; [| reflexivity].
    destruct (parse_status (snd f) 0) as [| | y]; cbn [zret] in H4; [discriminate | discriminate |].
    apply Z.eqb_eq in H4. rewrite H4. reflexivity. }
  destruct (hdr (fst f) =? http_pseudo_header_path) eqn:E4.
  { cbn [negb orb] in H5. destruct (p_path p); [reflexivity |].
    destruct (e_content e) as [w |]; cbn [teq] in H5; [| discriminate].
    apply eq_text_true in H5. rewrite H5. reflexivity. }
  destruct (hdr (fst f) =? http_header_range) eqn:E5.
  { cbn [negb orb] in H6. apply Nat.eqb_eq in H6. contradiction. }
  destruct (hdr (fst f) =? http_pseudo_header_protocol) eqn:E6; [discriminate | reflexivity].
Qed.

(** ** First bytes *)

Lemma bit_facts : forall b, b < 256 ->
  (192 <= b -> N.land b 192 = 192) /\
  (b < 192 -> N.land b 192 <> 192) /\
  ((80 <= b < 96 \/ 112 <= b < 128) -> N.land b 208 = 80) /\
  (32 <= b < 64 -> N.land b 208 <> 80 /\ N.land b 224 = 32) /\
  (N.land b 208 = 80 -> 80 <= b < 96 \/ 112 <= b < 128) /\
  (N.land b 224 = 32 -> 32 <= b < 64) /\
  N.testbit b 7 = (128 <=? b) /\
  N.testbit b 3 = (8 <=? b mod 16) .
Proof.
  assert (E : forallb (fun n => let b := N.of_nat n in
    implb (192 <=? b) (N.land b 192 =? 192) &&
    implb (b <? 192) (negb (N.land b 192 =? 192)) &&
    Bool.eqb (((80 <=? b) && (b <? 96)) || ((112 <=? b) && (b <? 128))) (N.land b 208 =? 80) &&
    implb ((32 <=? b) && (b <? 64)) (negb (N.land b 208 =? 80)) &&
    Bool.eqb ((32 <=? b) && (b <? 64)) (N.land b 224 =? 32) &&
    Bool.eqb (N.testbit b 7) (128 <=? b) && Bool.eqb (N.testbit b 3) (8 <=? b mod 16)) (seq 0 256) = true)
    by (vm_compute; reflexivity).
  intros b B. pose proof (all_below _ _ E (N.to_nat b) ltac:(lia)) as H. cbv beta zeta in H.
  rewrite N2Nat.id in H.
  apply andb_true_iff in H. destruct H as [H H7]. apply andb_true_iff in H. destruct H as [H H6].
  apply andb_true_iff in H. destruct H as [H H5]. apply andb_true_iff in H. destruct H as [H H4].
  apply andb_true_iff in H. destruct H as [H H3]. apply andb_true_iff in H. destruct H as [H1 H2].
  apply Bool.eqb_prop in H3, H5, H6, H7.
  generalize dependent (N.land b 192). generalize dependent (N.land b 208). generalize dependent (N.land b 224).
  intros x H5 y H3 H4 z H1 H2.
  repeat split; try lia; assumption.
Qed.

Lemma first_byte : forall mask hi v l, int_repr mask hi v l -> exists x q, l = (hi + x) :: q /\ x <= mask.
Proof.
  intros mask hi v l [_ [[V ->] | (c & r & _ & -> & _)]].
  - exists v, []. split; [reflexivity | lia].
  - exists mask, r. split; [reflexivity | lia].
Qed.

Lemma ok_app : forall a b, bytes_ok (a ++ b) -> bytes_ok a /\ bytes_ok b.
Proof. intros a b H. apply Forall_app in H. exact H. Qed.

Lemma first_n : forall (a b : list N), firstn (N.to_nat (blen a)) (a ++ b) = a /\ skipn (N.to_nat (blen a)) (a ++ b) = b.
Proof.
  intros a b. unfold blen. rewrite Nat2N.id. split.
  - rewrite firstn_app, Nat.sub_diag, firstn_all. cbn [firstn]. apply app_nil_r.
  - rewrite skipn_app, Nat.sub_diag, skipn_all. reflexivity.
Qed.

Lemma take_ok : forall (r : list N) n, n <= blen r -> exists a b, r = a ++ b /\ blen a = n.
Proof.
  intros r n H. exists (firstn (N.to_nat n) r), (skipn (N.to_nat n) r). split.
  - symmetry. apply firstn_skipn.
  - unfold blen in *. rewrite firstn_length. lia.
Qed.

Lemma blen_app2 : forall (a b : list N), blen (a ++ b) = blen a + blen b.
Proof. intros a b. unfold blen. rewrite app_length. lia. Qed.

Ltac pfx := unfold prefix; cbn [In]; split; [tauto | split; [first [reflexivity | lia] | lia]].

(** ** Strings and values *)

Definition finish (r : list N) (o : outcome (bool * parts)) : outcome (option (list N) * parts) :=
  match o with
  | Undef => Undef
  | NoFuel => NoFuel
  | Ret (true, p) => Ret (Some r, p)
  | Ret (false, p) => Ret (None, p)
  end.

Lemma value_back : forall h v t q r p, str_bytes 127 0 v q -> bytes_ok (s_raw v) -> text v t ->
  parse_value h (q ++ r) p = finish r (apply_value h t p).
Proof.
  intros h v t q r p (n & R & ->) O T.
  destruct (first_byte _ _ _ _ R) as (x & q' & E & X).
  assert (P : prefix 127 (0 + bit (s_huff v) (127 + 1))) by (unfold bit; destruct (s_huff v); pfx).
  rewrite <- app_assoc. unfold parse_value.
  destruct ((n ++ s_raw v ++ r)) as [| b w] eqn:W; [subst n; discriminate |].
  assert (Eb : b = 0 + bit (s_huff v) (127 + 1) + x) by (subst n; injection W as <- _; reflexivity).
  rewrite <- W. rewrite (int_back _ _ _ _ (s_raw v ++ r) P R).
  rewrite blen_app2. replace (blen (s_raw v) + blen r <? blen (s_raw v)) with false by lia.
  destruct (first_n (s_raw v) r) as [-> ->].
  assert (Hb : N.testbit b 7 = s_huff v).
  { assert (B : b < 256) by (unfold bit in Eb; destruct (s_huff v); lia).
    destruct (bit_facts b B) as (_ & _ & _ & _ & _ & _ & -> & _). unfold bit in Eb. destruct (s_huff v); lia. }
  rewrite Hb, (decode_text v t O T). unfold finish.
  destruct (apply_value h t p) as [| | [[|] p']]; reflexivity.
Qed.

Lemma value_inv : forall h l p, bytes_ok l ->
  match parse_value h l p with
  | Ret (Some r, p') => exists v q, l = q ++ r /\ str_bytes 127 0 v q
  | Ret (None, p') => True
  | NoFuel => False
  | Undef => exists v q r t, l = q ++ r /\ str_bytes 127 0 v q /\ reading v t /\ huge t /\
      h = http_pseudo_header_status
  end.
Proof.
  intros h l p O. unfold parse_value. destruct l as [| b l]; [exact I |].
  destruct (int_decode 127 (b :: l)) as [n [r |]] eqn:D; [| exact I].
  destruct (blen r <? n) eqn:T; [exact I |].
  destruct (int_inv 127 (b :: l) n r ltac:(cbn [In]; tauto) O D) as (b' & q & hi & P & R & E & Hi & Bb).
  rewrite E in O. destruct (ok_app _ _ O) as [_ Or].
  destruct (take_ok r n ltac:(lia)) as (x & y & -> & L). rewrite <- L. rewrite <- L in R.
  destruct (first_n x y) as [-> ->].
  destruct (ok_app _ _ Or) as [Ox _].
  injection E as E0 E1. subst b'.
  destruct (decode_total (N.testbit b 7) x Ox) as (t & -> & Rd).
  assert (S : str_bytes 127 0 (mk_str (N.testbit b 7) x) (b :: q ++ x)).
  { exists (b :: q). split; [| reflexivity]. cbn [s_huff s_raw].
    replace (0 + bit (N.testbit b 7) (127 + 1)) with hi; [exact R |].
    destruct (bit_facts b Bb) as (_ & _ & _ & _ & _ & _ & -> & _).
    rewrite Hi. unfold bit. destruct (128 <=? b) eqn:T7; lia. }
  assert (F : b :: l = (b :: q ++ x) ++ y) by (rewrite E1; cbn [app]; rewrite app_assoc; reflexivity).
  assert (U : apply_value h t p <> NoFuel /\ (apply_value h t p = Undef -> huge t /\ h = http_pseudo_header_status)).
  { unfold apply_value.
    destruct (h =? http_pseudo_header_method); [destruct (p_method p =? h3zero_method_none); split; discriminate |].
    destruct (h =? http_header_content_type); [destruct (p_content_type p =? h3zero_content_type_none); split; discriminate |].
    destruct (h =? http_pseudo_header_status) eqn:Eh.
    { destruct (p_status p =? 0)%Z; [| split; discriminate].
      destruct (parse_status t 0) as [| | z] eqn:Ps.
      - split; [discriminate |]. intros _. split; [| apply N.eqb_eq; exact Eh].
        apply status_undef in Ps; [| lia]. destruct Ps as (d & w & -> & D1 & D2).
        exists d, w. split; [reflexivity |]. split; [exact D1 | exact D2].
      - exfalso. exact (status_nofuel t 0 Ps).
      - split; discriminate. }
    destruct (h =? http_pseudo_header_path); [destruct (p_path p); split; discriminate |].
    destruct (h =? http_header_range); [destruct (p_range p); split; discriminate |].
    destruct (h =? http_pseudo_header_protocol); [destruct (p_protocol p); split; discriminate |].
    split; discriminate. }
  destruct U as [U1 U2].
  destruct (apply_value h t p) as [| | [[|] p']].
  - destruct (U2 eq_refl) as [Hu ->]. exists (mk_str (N.testbit b 7) x), (b :: q ++ x), y, t.
    split; [exact F |]. split; [exact S |]. split; [exact Rd |]. split; [exact Hu | reflexivity].
  - contradiction.
  - exists (mk_str (N.testbit b 7) x), (b :: q ++ x). split; [exact F | exact S].
  - exact I.
Qed.

(** ** Lines *)

Lemma line_back : forall ln l f r p, line_bytes ln l -> line_field ln f -> bytes_ok l -> ln <> Indexed 55 ->
  exists b l', l = b :: l' /\
    parse_line b (l ++ r) p = finish r (apply_value (hdr (fst f)) (snd f) p).
Proof.
  intros ln l f r p Hl Hf O NI. destruct ln as [i | never i v | never name v]; cbn [line_bytes line_field] in *.
  - destruct (first_byte _ _ _ _ Hl) as (x & q & E & X). exists (192 + x), q. split; [exact E |].
    unfold parse_line.
    destruct (bit_facts (192 + x) ltac:(lia)) as (F1 & _). rewrite F1 by lia. rewrite N.eqb_refl.
    rewrite (int_back 63 192 i l r ltac:(pfx) Hl).
    pose proof (static_short _ _ Hf) as S.
    rewrite nb_static_99. replace (99 <? i) with false by lia.
    destruct (tables (N.to_nat i) S) as (e & f' & E1 & E2 & E3). rewrite Hf in E2. injection E2 as <-.
    rewrite E1. rewrite (entry_apply (N.to_nat i) e f p E3).
    + unfold finish. destruct (apply_value (hdr (fst f)) (snd f) p) as [| | [[|] p']]; reflexivity.
    + intros C. apply NI. f_equal. lia.
  - destruct Hl as (pp & q & R & V & ->). destruct Hf as (w & Hf & T).
    destruct (first_byte _ _ _ _ R) as (x & q' & E & X). subst pp.
    exists (80 + bit never 32 + x), (q' ++ q). split; [reflexivity |].
    unfold parse_line.
    assert (B : 80 + bit never 32 + x < 256 /\ (80 <= 80 + bit never 32 + x < 96 \/ 112 <= 80 + bit never 32 + x < 128))
      by (unfold bit; destruct never; lia).
    destruct B as [B1 B2]. destruct (bit_facts _ B1) as (_ & F2 & F3 & _).
    assert (B3 : 80 + bit never 32 + x < 192) by lia.
    specialize (F2 B3). specialize (F3 B2).
    replace (N.land (80 + bit never 32 + x) 192 =? 192) with false by (symmetry; apply N.eqb_neq; exact F2).
    rewrite F3. change (80 =? 80) with true. cbv iota.
    rewrite <- app_assoc. rewrite (int_back 15 (80 + bit never 32) i _ (q ++ r)); [| unfold bit; destruct never; pfx | exact R].
    pose proof (static_short _ _ Hf) as S.
    rewrite nb_static_99. replace (99 <? i) with false by lia.
    destruct (tables (N.to_nat i) S) as (e & f' & E1 & E2 & E3). rewrite Hf in E2. injection E2 as <-.
    rewrite E1.
    destruct (ok_app _ _ O) as [_ Oq]. destruct V as (n & R2 & ->). destruct (ok_app _ _ Oq) as [_ Or].
    rewrite (value_back (e_header e) v (snd f) (n ++ s_raw v) r p); [| exists n; split; [exact R2 | reflexivity] | exact Or | exact T].
    rewrite (apply_kind (e_header e) (hdr (fst f))); [reflexivity |].
    exact (entry_kinds _ _ _ E3).
  - destruct Hl as (pp & q & (n & R & ->) & V & ->). destruct Hf as (Tn & T).
    destruct (first_byte _ _ _ _ R) as (x & q' & E & X).
    destruct (ok_app _ _ O) as [On Oq]. destruct (ok_app _ _ On) as [_ Onr].
    destruct V as (m & R2 & ->). destruct (ok_app _ _ Oq) as [_ Ov].
    exists (32 + bit never 16 + bit (s_huff name) (7 + 1) + x), ((q' ++ s_raw name) ++ m ++ s_raw v).
    split; [subst n; reflexivity |].
    unfold parse_line.
    set (b := 32 + bit never 16 + bit (s_huff name) (7 + 1) + x).
    assert (B : b < 256 /\ 32 <= b < 64 /\ (8 <=? b mod 16) = s_huff name).
    { unfold b, bit. destruct never, (s_huff name); lia. }
    destruct B as (B1 & B2 & B3). destruct (bit_facts _ B1) as (_ & F2 & _ & F4 & _ & _ & _ & F8).
    specialize (F2 ltac:(lia)). specialize (F4 B2). destruct F4 as [F4 F5].
    replace (N.land b 192 =? 192) with false by (symmetry; apply N.eqb_neq; exact F2).
    replace (N.land b 208 =? 80) with false by (symmetry; apply N.eqb_neq; exact F4).
    rewrite F5. change (32 =? 32) with true. cbv iota.
    rewrite <- !app_assoc.
    rewrite (int_back 7 (32 + bit never 16 + bit (s_huff name) (7 + 1)) (blen (s_raw name)) n _); [| unfold bit; destruct never, (s_huff name); pfx | exact R].
    rewrite blen_app2.
    match goal with |- context [blen (s_raw name) + ?y <? blen (s_raw name)] =>
      replace (blen (s_raw name) + y <? blen (s_raw name)) with false by lia end.
    destruct (first_n (s_raw name) (m ++ s_raw v ++ r)) as [-> ->].
    unfold get_header_type. rewrite F8, B3, (decode_text name (fst f) Onr Tn).
    rewrite app_assoc.
    rewrite (value_back (header_by_name interesting (fst f)) v (snd f) (m ++ s_raw v) r p);
      [reflexivity | exists m; split; [exact R2 | reflexivity] | exact Ov | exact T].
Qed.

Lemma hdr_status : forall n, hdr n = http_pseudo_header_status -> n = chars ":status".
Proof.
  intros n. unfold hdr, interesting. cbn [header_by_name].
  repeat match goal with |- context [same_text ?a ?b] => change (same_text a b) with (eq_text a b) end.
  destruct (eq_text (chars ":method") n); [intros X; vm_compute in X; discriminate X |].
  destruct (eq_text (chars ":path") n); [intros X; vm_compute in X; discriminate X |].
  destruct (eq_text (chars ":status") n) eqn:E; [intros _; symmetry; apply eq_text_true; exact E |].
  destruct (eq_text (chars "content-type") n); [intros X; vm_compute in X; discriminate X |].
  destruct (eq_text (chars ":protocol") n); [intros X; vm_compute in X; discriminate X |].
  destruct (eq_text (chars "origin") n); [intros X; vm_compute in X; discriminate X |].
  destruct (eq_text (chars "range") n); intros X; vm_compute in X; discriminate X.
Qed.

Lemma entry_none : forall i, i <= 99 -> nth_error qpack_static (N.to_nat i) = None -> i = 99.
Proof.
  intros i I H. destruct (N.eq_dec i 99) as [E | E]; [exact E |].
  destruct (tables (N.to_nat i) ltac:(lia)) as (e & f & X & _). rewrite X in H. discriminate.
Qed.

Lemma entry_some : forall i e, nth_error qpack_static i = Some e -> (i < 99)%nat.
Proof.
  intros i e H. assert (L : List.length qpack_static = 99%nat) by (vm_compute; reflexivity).
  rewrite <- L. apply nth_error_Some. rewrite H. discriminate.
Qed.

Lemma entry_defined : forall i e p, nth_error qpack_static i = Some e ->
  exists ok p', apply_entry e p = Ret (ok, p').
Proof.
  assert (T : forallb (fun i => match nth_error qpack_static i with
     | Some e => negb (e_header e =? http_pseudo_header_path) || match e_content e with Some _ => true | None => false end
     | None => false end) (seq 0 99) = true) by (vm_compute; reflexivity).
  intros i e p H. pose proof (all_below _ _ T i (entry_some _ _ H)) as X. cbv beta in X. rewrite H in X.
  unfold apply_entry.
  destruct (e_header e =? http_pseudo_header_method); [destruct (p_method p =? h3zero_method_none); eauto |].
  destruct (e_header e =? http_header_content_type); [destruct (p_content_type p =? h3zero_content_type_none); eauto |].
  destruct (e_header e =? http_pseudo_header_status); [destruct (p_status p =? 0)%Z; eauto |].
  destruct (e_header e =? http_pseudo_header_path); [| eauto].
  destruct (p_path p); [eauto |]. destruct (e_content e); [eauto | discriminate].
Qed.

Lemma line_inv : forall b l p, bytes_ok (b :: l) ->
  match parse_line b (b :: l) p with
  | Ret (Some r, p') => exists ln q, b :: l = q ++ r /\ line_bytes ln q /\ index_ok ln /\ (1 <= List.length q)%nat
  | Ret (None, p') => True
  | NoFuel => False
  | Undef => harmful (b :: l)
  end.
Proof.
  intros b l p O. unfold parse_line.
  assert (Bb : b < 256) by (inversion O; assumption).
  destruct (bit_facts b Bb) as (F1 & F2 & F3 & F4 & F5 & F6 & F7 & F8).
  destruct (N.land b 192 =? 192) eqn:T1.
  { destruct (int_decode 63 (b :: l)) as [i rest] eqn:D.
    rewrite nb_static_99. destruct (99 <? i) eqn:T; [exact I |].
    assert (K : forall r, rest = Some r -> exists q, b :: l = (b :: q) ++ r /\ int_repr 63 192 i (b :: q)).
    { intros r ->. destruct (int_inv 63 _ _ _ ltac:(cbn [In]; tauto) O D) as (b' & q & hi & P & R & E & Hi & _).
      injection E as <- E. exists q. split; [rewrite E; reflexivity |].
      replace 192 with hi; [exact R |].
      assert (192 <= b).
      { destruct (N.lt_ge_cases b 192) as [C | C]; [| exact C]. exfalso. apply (F2 C). apply N.eqb_eq. exact T1. }
      rewrite Hi. lia. }
    destruct (nth_error qpack_static (N.to_nat i)) as [e |] eqn:E.
    - destruct (entry_defined _ _ p E) as (ok & p' & ->).
      destruct ok; [| exact I]. destruct rest as [r |]; [| exact I].
      destruct (K r eq_refl) as (q & E1 & E2). exists (Indexed i), (b :: q).
      split; [exact E1 |]. split; [exact E2 |]. split; [| cbn [List.length]; lia].
      apply entry_some in E. cbn [index_ok]. lia.
    - apply entry_none in E; [| lia]. subst i.
      destruct rest as [r |].
      + destruct (K r eq_refl) as (q & E1 & E2). left. exists (b :: q), r. split; [exact E1 |]. left. exact E2.
      + exfalso. cbn [int_decode] in D. destruct (N.land b 63 =? 63) eqn:Z.
        * apply N.eqb_eq in Z. rewrite Z in D. destruct (int_decode_loop l 0 0) as [[? ?] |]; discriminate.
        * discriminate. }
  destruct (N.land b 208 =? 80) eqn:T2.
  { destruct (int_decode 15 (b :: l)) as [i [r |]] eqn:D; [| exact I].
    rewrite nb_static_99. destruct (99 <? i) eqn:T; [exact I |].
    destruct (int_inv 15 _ _ _ ltac:(cbn [In]; tauto) O D) as (b' & q & hi & P & R & E & Hi & _).
    injection E as <- E.
    apply N.eqb_eq in T2. specialize (F5 T2).
    assert (R' : exists n, int_repr 15 (80 + bit n 32) i (b :: q)).
    { destruct F5 as [F5 | F5].
      - exists false. replace (80 + bit false 32) with hi; [exact R |]. unfold bit. lia.
      - exists true. replace (80 + bit true 32) with hi; [exact R |]. unfold bit. lia. }
    destruct R' as (never & R').
    assert (Or : bytes_ok r).
    { rewrite E in O. inversion O as [| ? ? _ O2]; subst. exact (proj2 (ok_app _ _ O2)). }
    destruct (nth_error qpack_static (N.to_nat i)) as [e |] eqn:Ee.
    - pose proof (value_inv (e_header e) r p Or) as V.
      destruct (parse_value (e_header e) r p) as [| | [[r' |] p']].
      + destruct V as (v & q2 & r2 & t & E2 & S & Rd & Hu & Hh). right.
        exists (NameRef never i v), ((b :: q) ++ q2), r2, t.
        split; [rewrite E, E2; cbn [app]; rewrite app_assoc; reflexivity |].
        split; [exists (b :: q), q2; split; [exact R' | split; [exact S | reflexivity]] |].
        split; [exact Hu |]. split; [| exact Rd].
        destruct (tables (N.to_nat i)) as (e' & f & X1 & X2 & X3); [exact (entry_some _ _ Ee) |].
        rewrite Ee in X1. injection X1 as <-.
        exists (snd f). rewrite X2. f_equal. rewrite <- (hdr_status (fst f)); [apply surjective_pairing |].
        apply N.eqb_eq. rewrite <- (entry_kinds _ _ _ X3) by (unfold kinds; cbn [In]; tauto).
        rewrite Hh. apply N.eqb_refl.
      + exact V.
      + destruct V as (v & q2 & E2 & S). exists (NameRef never i v), ((b :: q) ++ q2).
        split; [rewrite E, E2; cbn [app]; rewrite app_assoc; reflexivity |].
        split; [exists (b :: q), q2; split; [exact R' | split; [exact S | reflexivity]] |].
        split; [apply entry_some in Ee; cbn [index_ok]; lia | cbn [app List.length]; lia].
      + exact I.
    - apply entry_none in Ee; [| lia]. subst i. left. exists (b :: q), r.
      split; [rewrite E; reflexivity |]. right. exists never. exact R'. }
  destruct (N.land b 224 =? 32) eqn:T3; [| exact I].
  destruct (int_decode 7 (b :: l)) as [n [r |]] eqn:D; [| exact I].
  destruct (blen r <? n) eqn:T; [exact I |].
  destruct (int_inv 7 _ _ _ ltac:(cbn [In]; tauto) O D) as (b' & q & hi & P & R & E & Hi & _).
  injection E as <- E.
  apply N.eqb_eq in T3. specialize (F6 T3).
  assert (R' : exists never, hi = 32 + bit never 16 + bit (N.testbit b 3) (7 + 1)).
  { exists (48 <=? b). rewrite F8. unfold bit. rewrite Hi.
    destruct (48 <=? b) eqn:C1, (8 <=? b mod 16) eqn:C2; lia. }
  destruct R' as (never & R').
  assert (Or : bytes_ok r).
  { rewrite E in O. inversion O as [| ? ? _ O2]; subst. exact (proj2 (ok_app _ _ O2)). }
  destruct (take_ok r n ltac:(lia)) as (x & y & -> & L). rewrite <- L. rewrite <- L in R.
  destruct (first_n x y) as [-> ->].
  destruct (ok_app _ _ Or) as [Ox Oy].
  unfold get_header_type.
  destruct (decode_total (N.testbit b 3) x Ox) as (t & -> & Rd).
  assert (S1 : str_bytes 7 (32 + bit never 16) (mk_str (N.testbit b 3) x) ((b :: q) ++ x)).
  { exists (b :: q). split; [| reflexivity]. cbn [s_huff s_raw]. rewrite <- R'. exact R. }
  pose proof (value_inv (header_by_name interesting t) y p Oy) as V.
  destruct (parse_value (header_by_name interesting t) y p) as [| | [[r' |] p']].
  - destruct V as (v & q2 & r2 & t2 & E2 & S & Rd2 & Hu & Hh). right.
    exists (Literal never (mk_str (N.testbit b 3) x) v), (((b :: q) ++ x) ++ q2), r2, t2.
    split; [rewrite E, E2; cbn [app]; rewrite <- !app_assoc; reflexivity |].
    split; [exists ((b :: q) ++ x), q2; split; [exact S1 | split; [exact S | reflexivity]] |].
    split; [exact Hu |]. split; [| exact Rd2].
    rewrite <- (hdr_status t Hh). exact Rd.
  - exact V.
  - destruct V as (v & q2 & E2 & S). exists (Literal never (mk_str (N.testbit b 3) x) v), (((b :: q) ++ x) ++ q2).
    split; [rewrite E, E2; cbn [app]; rewrite <- !app_assoc; reflexivity |].
    split; [exists ((b :: q) ++ x), q2; split; [exact S1 | split; [exact S | reflexivity]] |].
    split; [exact I | cbn [app List.length]; lia].
  - exact I.
Qed.
