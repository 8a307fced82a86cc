(** Header blocks: what the parser understands, and what the creators write. *)
From Coq Require Import Strings.String.
From Verif Require Import Base Tac Varint_proofs Qpack_model Qpack_spec Qpack_proofs Qpack2_proofs Qpack3_proofs.

(** ** Which inputs are undefined, which are accepted *)

Lemma lines_inv : forall f l p, bytes_ok l -> (List.length l < f)%nat ->
  match parse_lines f l p with
  | NoFuel => False
  | Undef => exists lns l1 l2, l = l1 ++ l2 /\ block lns l1 /\ harmful l2
  | Ret (true, _) => exists lns, block lns l /\ Forall index_ok lns
  | Ret (false, _) => True
  end.
Proof.
  induction f as [| f IH]; intros l p O F; [lia |]. cbn [parse_lines].
  destruct l as [| b l].
  - exists []. split; constructor.
  - pose proof (line_inv b l p O) as L.
    destruct (parse_line b (b :: l) p) as [| | [[r |] p']].
    + exists [], [], (b :: l). split; [reflexivity |]. split; [constructor | exact L].
    + exact L.
    + destruct L as (ln & q & E & Hl & Hi & Q).
      assert (Or : bytes_ok r) by (rewrite E in O; exact (proj2 (ok_app _ _ O))).
      assert (Fr : (List.length r < f)%nat).
      { assert (Z : List.length (b :: l) = List.length (q ++ r)) by (rewrite <- E; reflexivity).
        rewrite app_length in Z. lia. }
      specialize (IH r p' Or Fr).
      destruct (parse_lines f r p') as [| | [[|] p2]].
      * destruct IH as (lns & l1 & l2 & -> & Hb & Hh).
        exists (ln :: lns), (q ++ l1), l2. split; [rewrite E, app_assoc; reflexivity |].
        split; [constructor; assumption | exact Hh].
      * exact IH.
      * destruct IH as (lns & Hb & Hf). exists (ln :: lns). rewrite E. split; constructor; assumption.
      * exact I.
    + exact I.
Qed.

Lemma start_inv : forall b r v l', bytes_ok (b :: r) -> b = 0 -> int_decode 127 r = (v, Some l') ->
  exists s, block_start s /\ b :: r = s ++ l'.
Proof.
  intros b r v l' O -> D. inversion O as [| ? ? _ Or]; subst.
  destruct (int_inv 127 r v l' ltac:(cbn [In]; tauto) Or D) as (b' & q & hi & P & R & E & Hi & Bb).
  exists (0 :: b' :: q). split; [| rewrite E; reflexivity].
  exists (128 <=? b'), v, (b' :: q). split; [| reflexivity].
  replace (bit (128 <=? b') 128) with hi; [exact R |]. unfold bit. destruct (128 <=? b') eqn:T; lia.
Qed.

Theorem frame_defined : forall l, bytes_ok l ->
  match parse_header_frame l with
  | NoFuel => False
  | Undef => exists s lns l1 l2, block_start s /\ block lns l1 /\ harmful l2 /\ l = s ++ l1 ++ l2
  | Ret (true, _) => exists lns, header_block lns l /\ Forall index_ok lns
  | Ret (false, _) => True
  end.
Proof.
  intros l O. unfold parse_header_frame. destruct l as [| b r]; [exact I |].
  destruct (b =? 0) eqn:B; [| exact I]. apply N.eqb_eq in B.
  destruct (int_decode 127 r) as [v [l' |]] eqn:D; [| exact I].
  destruct (start_inv b r v l' O B D) as (s & St & E).
  rewrite E in O. destruct (ok_app _ _ O) as [_ O'].
  pose proof (lines_inv (S (List.length l')) l' no_parts O' ltac:(lia)) as L.
  destruct (parse_lines (S (List.length l')) l' no_parts) as [| | [[|] p]].
  - destruct L as (lns & l1 & l2 & -> & Hb & Hh). exists s, lns, l1, l2.
    split; [exact St |]. split; [exact Hb |]. split; [exact Hh | exact E].
  - exact L.
  - destruct L as (lns & Hb & Hf). exists lns. split; [| exact Hf].
    exists s, l'. split; [exact St |]. split; [exact Hb | exact E].
  - exact I.
Qed.

(** ** What the fields say *)

Lemma values_snoc : forall n fs f, values n (fs ++ [f]) =
  values n fs ++ (if eq_text (chars n) (fst f) then [snd f] else []).
Proof.
  intros n fs f. unfold values. rewrite filter_app, map_app. cbn [filter].
  destruct (eq_text (chars n) (fst f)); reflexivity.
Qed.

Definition says_next {A} (vs : list (list N)) (x none : A) (of : list N -> A -> Prop) : Prop :=
  says vs x none of.

Lemma says_keep : forall {A} (vs : list (list N)) (x none : A) of, says vs x none of -> says (vs ++ []) x none of.
Proof. intros A vs x none of H. rewrite app_nil_r. exact H. Qed.

Lemma says_first : forall {A} (v : list N) (x none : A) (of : list N -> A -> Prop), of v x -> says ([] ++ [v]) x none of.
Proof. intros A v x none of H. right. exists v. split; [reflexivity | exact H]. Qed.

(** A name is one of those looked at, or none. *)
Lemma name_cases : forall n,
  n = chars ":method" \/ n = chars ":path" \/ n = chars "range" \/ n = chars ":status" \/
  n = chars "content-type" \/ n = chars ":protocol" \/
  ((forall k, In k kinds -> (hdr n =? k) = false) /\ Forall (fun s => eq_text (chars s) n = false) known).
Proof.
  intros n.
  destruct (eq_text (chars ":method") n) eqn:E1; [left; symmetry; apply eq_text_true; exact E1 | right].
  destruct (eq_text (chars ":path") n) eqn:E2; [left; symmetry; apply eq_text_true; exact E2 | right].
  destruct (eq_text (chars "range") n) eqn:E3; [left; symmetry; apply eq_text_true; exact E3 | right].
  destruct (eq_text (chars ":status") n) eqn:E4; [left; symmetry; apply eq_text_true; exact E4 | right].
  destruct (eq_text (chars "content-type") n) eqn:E5; [left; symmetry; apply eq_text_true; exact E5 | right].
  destruct (eq_text (chars ":protocol") n) eqn:E6; [left; symmetry; apply eq_text_true; exact E6 | right].
  split.
  - intros k K. unfold hdr, interesting. cbn [header_by_name].
    repeat match goal with |- context [same_text ?a ?b] => change (same_text a b) with (eq_text a b) end.
    rewrite E1, E2, E3, E4, E5, E6.
    unfold kinds in K. cbn [In] in K.
    destruct (eq_text (chars "origin") n);
      destruct K as [<- | [<- | [<- | [<- | [<- | [<- | []]]]]]]; reflexivity.
  - repeat constructor; assumption.
Qed.

Ltac known_name :=
  repeat match goal with
  | |- context [eq_text (chars ?a) (chars ?b)] =>
    let v := eval vm_compute in (eq_text (chars a) (chars b)) in
    change (eq_text (chars a) (chars b)) with v
  end; cbv iota.

Lemma hdr_known : hdr (chars ":method") = http_pseudo_header_method /\ hdr (chars ":path") = http_pseudo_header_path /\
  hdr (chars "range") = http_header_range /\ hdr (chars ":status") = http_pseudo_header_status /\
  hdr (chars "content-type") = http_header_content_type /\ hdr (chars ":protocol") = http_pseudo_header_protocol.
Proof. repeat split; vm_compute; reflexivity. Qed.

Definition twice (fs : list field) : Prop := Exists (fun n => (2 <= List.length (values n fs))%nat) known.

Lemma step_field : forall fs p n v, expected fs p -> Forall sound_status (values ":status" fs) ->
  (n = chars ":status" -> sound_status v) ->
  (exists p', apply_value (hdr n) v p = Ret (true, p') /\ expected (fs ++ [(n, v)]) p') \/
  (apply_value (hdr n) v p = Ret (false, p) /\ twice (fs ++ [(n, v)])).
Proof.
  intros fs p n v (E1 & E2 & E3 & E4 & E5 & E6) S Sv.
  destruct hdr_known as (K1 & K2 & K3 & K4 & K5 & K6).
  unfold expected, twice. rewrite !values_snoc. cbn [fst snd].
  destruct (name_cases n) as [-> | [-> | [-> | [-> | [-> | [-> | [Kn Kt]]]]]]].
  - rewrite K1. unfold apply_value. rewrite N.eqb_refl. known_name.
    destruct E1 as [[V ->] | (w & V & ->)].
    + left. rewrite N.eqb_refl. eexists. split; [reflexivity |]. rewrite V.
      cbn [set_method p_method p_path p_range p_status p_content_type p_protocol].
      rewrite !app_nil_r. repeat split; try assumption.
      apply says_first. apply method_eq.
    + right. rewrite method_of_known. split; [reflexivity |].
      constructor. rewrite values_snoc, V. cbn [fst]. known_name. cbn [app List.length]. lia.
  - rewrite K2. unfold apply_value.
    change (http_pseudo_header_path =? http_pseudo_header_method) with false.
    change (http_pseudo_header_path =? http_header_content_type) with false.
    change (http_pseudo_header_path =? http_pseudo_header_status) with false.
    rewrite N.eqb_refl. cbv iota. known_name.
    destruct E2 as [[V ->] | (w & V & ->)].
    + left. eexists. split; [reflexivity |]. rewrite V.
      cbn [set_path p_method p_path p_range p_status p_content_type p_protocol].
      rewrite !app_nil_r. repeat split; try assumption.
      apply says_first. reflexivity.
    + right. split; [reflexivity |].
      right. constructor. rewrite values_snoc, V. cbn [fst]. known_name. cbn [app List.length]. lia.
  - rewrite K3. unfold apply_value.
    change (http_header_range =? http_pseudo_header_method) with false.
    change (http_header_range =? http_header_content_type) with false.
    change (http_header_range =? http_pseudo_header_status) with false.
    change (http_header_range =? http_pseudo_header_path) with false.
    rewrite N.eqb_refl. cbv iota. known_name.
    destruct E3 as [[V ->] | (w & V & ->)].
    + left. eexists. split; [reflexivity |]. rewrite V.
      cbn [set_range p_method p_path p_range p_status p_content_type p_protocol].
      rewrite !app_nil_r. repeat split; try assumption.
      apply says_first. reflexivity.
    + right. split; [reflexivity |].
      do 2 right. constructor. rewrite values_snoc, V. cbn [fst]. known_name. cbn [app List.length]. lia.
  - rewrite K4. unfold apply_value.
    change (http_pseudo_header_status =? http_pseudo_header_method) with false.
    change (http_pseudo_header_status =? http_header_content_type) with false.
    rewrite N.eqb_refl. cbv iota. known_name.
    destruct E4 as [[V E4] | (w & V & E4)].
    + left. rewrite E4. cbn [Z.eqb].
      destruct (status_sound v (Sv eq_refl)) as (x & -> & X1 & X2).
      eexists. split; [reflexivity |]. rewrite V.
      cbn [set_status p_method p_path p_range p_status p_content_type p_protocol].
      rewrite !app_nil_r. repeat split; try assumption.
      apply says_first. exact X1.
    + right. rewrite V in S. inversion S as [| ? ? Sw _]; subst.
      pose proof (status_of_nonzero _ _ Sw E4) as NZ.
      replace (p_status p =? 0)%Z with false by lia. split; [reflexivity |].
      do 3 right. constructor. rewrite values_snoc, V. cbn [fst]. known_name. cbn [app List.length]. lia.
  - rewrite K5. unfold apply_value.
    change (http_header_content_type =? http_pseudo_header_method) with false.
    rewrite N.eqb_refl. cbv iota. known_name.
    destruct E5 as [[V ->] | (w & V & ->)].
    + left. rewrite N.eqb_refl. eexists. split; [reflexivity |]. rewrite V.
      cbn [set_content_type p_method p_path p_range p_status p_content_type p_protocol].
      rewrite !app_nil_r. repeat split; try assumption.
      apply says_first. apply content_type_eq.
    + right. rewrite content_type_of_known. split; [reflexivity |].
      do 4 right. constructor. rewrite values_snoc, V. cbn [fst]. known_name. cbn [app List.length]. lia.
  - rewrite K6. unfold apply_value.
    change (http_pseudo_header_protocol =? http_pseudo_header_method) with false.
    change (http_pseudo_header_protocol =? http_header_content_type) with false.
    change (http_pseudo_header_protocol =? http_pseudo_header_status) with false.
    change (http_pseudo_header_protocol =? http_pseudo_header_path) with false.
    change (http_pseudo_header_protocol =? http_header_range) with false.
    rewrite N.eqb_refl. cbv iota. known_name.
    destruct E6 as [[V ->] | (w & V & ->)].
    + left. eexists. split; [reflexivity |]. rewrite V.
      cbn [set_protocol p_method p_path p_range p_status p_content_type p_protocol].
      rewrite !app_nil_r. repeat split; try assumption.
      apply says_first. reflexivity.
    + right. split; [reflexivity |].
      do 5 right. constructor. rewrite values_snoc, V. cbn [fst]. known_name. cbn [app List.length]. lia.
  - left. exists p. split; [apply apply_other; exact Kn |].
    unfold known in Kt.
    inversion Kt as [| ? ? X1 Kt1]; subst. inversion Kt1 as [| ? ? X2 Kt2]; subst.
    inversion Kt2 as [| ? ? X3 Kt3]; subst. inversion Kt3 as [| ? ? X4 Kt4]; subst.
    inversion Kt4 as [| ? ? X5 Kt5]; subst. inversion Kt5 as [| ? ? X6 Kt6]; subst.
    rewrite X1, X2, X3, X4, X5, X6, !app_nil_r. repeat split; assumption.
Qed.

Lemma twice_more : forall fs f, twice fs -> twice (fs ++ [f]).
Proof.
  intros fs f H. unfold twice in *. apply Exists_exists in H. destruct H as (n & In & L).
  apply Exists_exists. exists n. split; [exact In |]. rewrite values_snoc, app_length. lia.
Qed.

Lemma twice_app : forall gs fs, twice fs -> twice (fs ++ gs).
Proof.
  induction gs as [| g gs IH]; intros fs H; [rewrite app_nil_r; exact H |].
  replace (fs ++ g :: gs) with ((fs ++ [g]) ++ gs) by (rewrite <- app_assoc; reflexivity).
  apply IH. apply twice_more. exact H.
Qed.

Lemma values_app : forall n a b, values n (a ++ b) = values n a ++ values n b.
Proof. intros n a b. unfold values. rewrite filter_app, map_app. reflexivity. Qed.

Lemma lines_back : forall lns l, block lns l -> forall fs gs p f, Forall2 line_field lns gs -> bytes_ok l ->
  ~ In (Indexed 55) lns -> Forall sound_status (values ":status" (fs ++ gs)) -> expected fs p ->
  (List.length l < f)%nat ->
  exists ok p', parse_lines f l p = Ret (ok, p') /\
    (if ok then expected (fs ++ gs) p' else twice (fs ++ gs)).
Proof.
  intros lns l B. induction B as [| ln l lns r Hl B IH]; intros fs gs p f F2 O NI S E F.
  - inversion F2; subst. destruct f as [| f]; [cbn [List.length] in F; lia |].
    exists true, p. split; [reflexivity |]. rewrite app_nil_r. exact E.
  - inversion F2 as [| ? g ? gs' Hf F2']; subst. destruct f as [| f]; [lia |].
    destruct (ok_app _ _ O) as [Ol Or].
    destruct (line_back ln l g r p Hl Hf Ol) as (b & l' & El & Ep).
    { intros ->. apply NI. left. reflexivity. }
    cbn [parse_lines].
    destruct (l ++ r) as [| b' w] eqn:W; [subst l; discriminate |].
    assert (b' = b) by (subst l; injection W as <- _; reflexivity). subst b'.
    rewrite Ep. rewrite <- W in F. rewrite app_length in F.
    assert (L1 : (1 <= List.length l)%nat) by (subst l; cbn [List.length]; lia).
    destruct g as [n v]. cbn [fst snd].
    assert (S1 : Forall sound_status (values ":status" fs)).
    { rewrite values_app in S. apply Forall_app in S. exact (proj1 S). }
    assert (Sv : n = chars ":status" -> sound_status v).
    { intros ->. rewrite values_app in S. apply Forall_app in S. destruct S as [_ S].
      unfold values in S. cbn [filter fst] in S. rewrite eq_text_refl in S. cbn [map snd] in S.
      inversion S; assumption. }
    destruct (step_field fs p n v E S1 Sv) as [(p' & -> & E') | [-> T]]; unfold finish.
    + assert (EA : (fs ++ [(n, v)]) ++ gs' = fs ++ (n, v) :: gs') by (rewrite <- app_assoc; reflexivity).
      destruct (IH (fs ++ [(n, v)]) gs' p' f F2' Or) as (ok & p2 & E2 & H2).
      * intros C. apply NI. right. exact C.
      * rewrite EA. exact S.
      * exact E'.
      * lia.
      * exists ok, p2. split; [exact E2 |]. rewrite EA in H2. exact H2.
    + exists false, p. split; [reflexivity |].
      assert (EA : (fs ++ [(n, v)]) ++ gs' = fs ++ (n, v) :: gs') by (rewrite <- app_assoc; reflexivity).
      pose proof (twice_app gs' _ T) as T2. rewrite EA in T2. exact T2.
Qed.

Lemma single_twice : forall fs, single fs -> ~ twice fs.
Proof.
  intros fs S T. unfold single, twice in *. apply Exists_exists in T. destruct T as (n & In & L).
  rewrite Forall_forall in S. specialize (S n In). cbv beta in S. lia.
Qed.

Lemma expected_single : forall fs p, expected fs p -> single fs.
Proof.
  intros fs p (E1 & E2 & E3 & E4 & E5 & E6).
  assert (X : forall A vs (x none : A) of, says vs x none of -> (List.length vs <= 1)%nat).
  { intros A vs x none of [[-> _] | (v & -> & _)]; cbn [List.length]; lia. }
  unfold single, known. repeat (apply Forall_cons; [eapply X; eassumption |]). apply Forall_nil.
Qed.

Theorem block_parsed : forall lns l fs, header_block lns l -> bytes_ok l -> Forall2 line_field lns fs ->
  mild lns fs ->
  exists ok p, parse_header_frame l = Ret (ok, p) /\
    (single fs -> ok = true /\ expected fs p) /\ (~ single fs -> ok = false).
Proof.
  intros lns l fs (s & r & (sign & base & q & R & ->) & B & ->) O F2 [M1 M2].
  cbn [app]. unfold parse_header_frame. change (0 =? 0) with true. cbv iota.
  rewrite (int_back 127 (bit sign 128) base q r); [| unfold bit; destruct sign; pfx | exact R].
  assert (Or : bytes_ok r) by (inversion O as [| ? ? _ O2]; subst; exact (proj2 (ok_app _ _ O2))).
  destruct (lines_back lns r B [] fs no_parts (S (List.length r)) F2 Or M1 M2) as (ok & p & E & H).
  - unfold expected. cbn [no_parts p_method p_path p_range p_status p_content_type p_protocol].
    repeat split; left; split; reflexivity.
  - lia.
  - exists ok, p. split; [exact E |]. cbn [app] in H. destruct ok.
    + split; [intros _; split; [reflexivity | exact H] |]. intros NS. exfalso. apply NS.
      exact (expected_single _ _ H).
    + split; [| reflexivity]. intros S. exfalso. exact (single_twice _ S H).
Qed.

(** ** Creators *)

Definition writes (w : writer) (P : list N -> Prop) : Prop := forall room l, w room = Some l -> P l /\ blen l <= room.

Lemma wseq_writes : forall a b P Q, writes a P -> writes b Q -> writes (a >>> b) (fun l => exists x y, l = x ++ y /\ P x /\ Q y).
Proof.
  intros a b P Q A B room l H. unfold wseq in H.
  destruct (a room) as [x |] eqn:Ea; [| discriminate].
  destruct (b (room - blen x)) as [y |] eqn:Eb; [| discriminate].
  injection H as <-. destruct (A _ _ Ea) as [Px Lx]. destruct (B _ _ Eb) as [Qy Ly].
  split; [exists x, y; repeat split; assumption |]. rewrite blen_app2. lia.
Qed.

Lemma code_writes : forall pre mask v, prefix mask pre -> v < 2 ^ 63 -> writes (code_encode pre mask v) (int_repr mask pre v).
Proof.
  intros pre mask v P V room l H. unfold code_encode in H. destruct (room <? 1); [discriminate |].
  destruct (int_encode_repr mask pre v room l P V H) as (R & L & _). split; assumption.
Qed.

Lemma put_writes : forall v, writes (put_bytes v) (fun l => l = v).
Proof.
  intros v room l H. unfold put_bytes in H. destruct (room <? blen v) eqn:T; [discriminate |].
  injection H as <-. split; [reflexivity | lia].
Qed.

Lemma pow6263 : forall x, x < 2 ^ 62 -> x < 2 ^ 63.
Proof. intros x H. change (2 ^ 63) with (2 * 2 ^ 62). lia. Qed.

Lemma ref_writes : forall i v, i < 99 -> fit v -> writes (literal_plus_ref_encode i v) (line_bytes (NameRef false i (mk_str false v))).
Proof.
  intros i v I [V _] room l H. unfold literal_plus_ref_encode in H.
  pose proof (wseq_writes _ _ _ _ (code_writes 80 15 i ltac:(pfx) ltac:(change (2 ^ 63) with 9223372036854775808; lia))
    (wseq_writes _ _ _ _ (code_writes 0 127 (blen v) ltac:(pfx) (pow6263 _ V)) (put_writes v)) room l H) as [X L].
  split; [| exact L]. destruct X as (x & y & -> & X1 & (z & w & -> & X2 & ->)).
  exists x, (z ++ v). split; [exact X1 |]. split; [| reflexivity].
  exists z. split; [exact X2 | reflexivity].
Qed.

Lemma name_writes : forall n v, fit n -> fit v ->
  writes (literal_plus_name_encode n v) (line_bytes (Literal false (mk_str false n) (mk_str false v))).
Proof.
  intros n v [Ln _] [V _] room l H. unfold literal_plus_name_encode, name_encode in H.
  pose proof (wseq_writes _ _ _ _
    (wseq_writes _ _ _ _ (code_writes 32 7 (blen n) ltac:(pfx) (pow6263 _ Ln)) (put_writes n))
    (wseq_writes _ _ _ _ (code_writes 0 127 (blen v) ltac:(pfx) (pow6263 _ V)) (put_writes v)) room l H) as [X L].
  split; [| exact L]. destruct X as (x & y & -> & (a & b & -> & X1 & ->) & (z & w & -> & X2 & ->)).
  exists (a ++ n), (z ++ v). split; [| split; [| reflexivity]].
  - exists a. split; [exact X1 | reflexivity].
  - exists z. split; [exact X2 | reflexivity].
Qed.

Lemma index_writes : forall i, i < 99 -> writes (code_encode 192 63 i) (line_bytes (Indexed i)).
Proof. intros i I. apply code_writes; [pfx |]. change (2 ^ 63) with 9223372036854775808. lia. Qed.

Lemma block_one : forall ln l, line_bytes ln l -> block [ln] l.
Proof. intros ln l H. rewrite <- (app_nil_r l). constructor; [exact H | constructor]. Qed.

Lemma block_app : forall a x, block a x -> forall b y, block b y -> block (a ++ b) (x ++ y).
Proof.
  intros a x A. induction A as [| ln l lns r Hl A IH]; intros b y B; [exact B |].
  cbn [app]. rewrite <- app_assoc. constructor; [exact Hl | exact (IH b y B)].
Qed.

Lemma one_writes : forall w ln, writes w (line_bytes ln) -> writes w (block [ln]).
Proof. intros w ln H room l E. destruct (H room l E) as [X L]. split; [apply block_one; exact X | exact L]. Qed.

Lemma seq_blocks : forall a b x y, writes a (block x) -> writes b (block y) -> writes (a >>> b) (block (x ++ y)).
Proof.
  intros a b x y A B room l H. destruct (wseq_writes _ _ _ _ A B room l H) as [(u & v & -> & U & V) L].
  split; [apply block_app; assumption | exact L].
Qed.

Definition opt_lines (s : option (list N)) (f : list N -> line) : list line :=
  match s with None => [] | Some v => [f v] end.

Lemma opt_writes : forall s w f, (forall v, s = Some v -> writes (w v) (line_bytes (f v))) ->
  writes (opt_encode s w) (block (opt_lines s f)).
Proof.
  intros s w f H. destruct s as [v |]; cbn [opt_encode opt_lines].
  - apply one_writes. exact (H v eq_refl).
  - intros room l E. injection E as <-. split; [constructor | cbn; lia].
Qed.

Definition plain (s : list N) : str := mk_str false s.

Lemma start_writes : forall w lns, writes w (block lns) -> writes (frame_start >>> w) (header_block lns).
Proof.
  intros w lns W room l H. unfold wseq in H.
  destruct (frame_start room) as [x |] eqn:Ea; [| discriminate].
  destruct (w (room - blen x)) as [y |] eqn:Eb; [| discriminate].
  injection H as <-. destruct (W _ _ Eb) as [B L].
  unfold frame_start in Ea. destruct (room <? 2) eqn:T; [discriminate |]. injection Ea as <-.
  split.
  - exists [0; 0], y. split; [| split; [exact B | reflexivity]].
    exists false, 0, [0]. split; [| reflexivity]. split; [cbn [List.length]; lia |]. left. split; [lia | reflexivity].
  - rewrite blen_app2. change (blen [0; 0]) with 2. change (blen [0; 0]) with 2 in L. lia.
Qed.

(** Every byte of a block is a byte, if the texts are. *)
Definition raw_ok (ln : line) : Prop :=
  match ln with
  | Indexed i => True
  | NameRef _ _ v => bytes_ok (s_raw v)
  | Literal _ n v => bytes_ok (s_raw n) /\ bytes_ok (s_raw v)
  end.

Lemma repr_ok : forall mask hi v l, hi + mask < 256 -> int_repr mask hi v l -> bytes_ok l.
Proof.
  intros mask hi v l P [_ [[V ->] | (c & r & _ & -> & G)]].
  - constructor; [unfold is_byte; lia | constructor].
  - constructor; [unfold is_byte; lia | exact (groups_bytes _ _ G)].
Qed.

Lemma block_ok : forall lns l, block lns l -> Forall raw_ok lns -> bytes_ok l.
Proof.
  intros lns l B. induction B as [| ln l lns r Hl B IH]; intros F; [constructor |].
  inversion F as [| ? ? R F']; subst. apply Forall_app. split; [| exact (IH F')].
  destruct ln as [i | never i v | never n v]; cbn [line_bytes raw_ok] in *.
  - exact (repr_ok 63 192 i l ltac:(lia) Hl).
  - destruct Hl as (p & q & P & (z & Z & ->) & ->). apply Forall_app. split.
    + apply (repr_ok 15 (80 + bit never 32) i); [unfold bit; destruct never; lia | exact P].
    + apply Forall_app. split; [| exact R].
      apply (repr_ok 127 (0 + bit (s_huff v) (127 + 1)) (blen (s_raw v))); [unfold bit; destruct (s_huff v); lia | exact Z].
  - destruct R as [R1 R2]. destruct Hl as (p & q & (y & Y & ->) & (z & Z & ->) & ->).
    apply Forall_app. split; apply Forall_app; split; try assumption.
    + apply (repr_ok 7 (32 + bit never 16 + bit (s_huff n) (7 + 1)) (blen (s_raw n)));
        [unfold bit; destruct never, (s_huff n); lia | exact Y].
    + apply (repr_ok 127 (0 + bit (s_huff v) (127 + 1)) (blen (s_raw v))); [unfold bit; destruct (s_huff v); lia | exact Z].
Qed.

Lemma header_ok : forall lns l, header_block lns l -> Forall raw_ok lns -> bytes_ok l.
Proof.
  intros lns l (s & r & (sign & base & q & R & ->) & B & ->) F.
  cbn [app]. constructor; [unfold is_byte; lia |]. apply Forall_app. split; [| exact (block_ok _ _ B F)].
  apply (repr_ok 127 (bit sign 128) base); [unfold bit; destruct sign; lia | exact R].
Qed.

(** What is parsed from a created frame. *)
Lemma created : forall w lns fs p, writes w (header_block lns) -> Forall raw_ok lns -> Forall2 line_field lns fs ->
  mild lns fs -> single fs -> (forall p', expected fs p' -> p' = p) ->
  forall room l, w room = Some l ->
  parse_header_frame l = Ret (true, p) /\ header_block lns l /\ bytes_ok l /\ blen l <= room.
Proof.
  intros w lns fs p W R F2 M S E room l H. destruct (W room l H) as [B L].
  pose proof (header_ok _ _ B R) as O.
  destruct (block_parsed lns l fs B O F2 M) as (ok & p' & P & K & _).
  destruct (K S) as [-> X]. apply E in X. subst p'. repeat split; assumption.
Qed.
