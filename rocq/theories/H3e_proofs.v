(** What comes of a stream of data. *)
From Verif Require Import Base Tac Mem Mem_proofs Varint_spec Varint_model Varint_proofs Qpack_model H3_model H3_spec H3_proofs H3b_proofs H3c_proofs H3d_proofs.

Definition mseen (v : view) (q : pos) : seen :=
  mk_seen (v_header v) (v_trailer v) (match q with PW id _ => Some id | _ => None end)
    (match q with PB _ n _ => negb (n =? 0) | _ => false end).

Definition mres (a : ares) : result :=
  match a with
  | ARun v q => Open (data_of v q) (mseen v q)
  | AFail c d => Closed d [c]
  | AUndef => Broken
  end.

Lemma rel_seen : forall s v q, rel s v q -> seen_of s = mseen v q.
Proof.
  intros s v q (_ & _ & R). unfold seen_of, mseen, client_fin.
  assert (RV : rel_view s v -> d_web s = false -> (if d_hfound s && negb (d_web s) then Some (d_header s) else None) = v_header v /\
     (if d_tfound s then Some (d_trailer s) else None) = v_trailer v).
  { intros (V1 & V2 & V3 & V4 & V5 & V6) W. rewrite V1, V2, W. split.
    - destruct (v_header v) as [p |]; cbn [is_some andb negb]; [rewrite (V4 p eq_refl) |]; reflexivity.
    - destruct (v_trailer v) as [p |]; cbn [is_some]; [rewrite (V5 p eq_refl) |]; reflexivity. }
  destruct q as [p | ty n x | id x].
  - destruct R as (V & P & W & F & _ & _ & _ & RL). destruct (RV V W) as [-> ->]. rewrite W, RL, N.ltb_irrefl. reflexivity.
  - destruct R as (V & P & W & T & Ln & R & _ & _ & Lx & _). destruct (RV V W) as [-> ->]. rewrite W, Ln, R.
    f_equal. destruct Lx as [Lx | [-> ->]]; [| reflexivity]. replace (blen x <? n) with true by lia. cbn [is_some]. destruct (n =? 0) eqn:Z; [lia | reflexivity].
  - destruct R as (P & W & C & RL & Hv & Ht & Tf). rewrite W, Tf, Hv, Ht, C, RL, N.ltb_irrefl. rewrite andb_false_r. reflexivity.
Qed.

Lemma closes_none : forall e, closed e = false -> closes e = [].
Proof. induction e as [| [l | c | b] e IH]; cbn; intro H; [reflexivity | apply IH; exact H | discriminate | apply IH; exact H]. Qed.

Lemma closes_app : forall a b, closes (a ++ b) = closes a ++ closes b.
Proof. intros a b. apply flat_map_app. Qed.

Lemma untold_closes : forall e, closes (untold e) = closes e.
Proof. induction e as [| [l | c | b] e IH]; cbn [untold filter closes flat_map app] in *; [reflexivity | exact IH | f_equal; exact IH | exact IH]. Qed.

Theorem result_machine : forall data cs l, side data -> stream cs l ->
  result_of (pieces data cs dstate0) = mres (arun l view0 (PH [])).
Proof.
  intros data cs l Sd (E & O & B). change (2 ^ 62) with two62 in B. subst l.
  pose proof (pieces_ok cs dstate0 view0 (PH []) rel0 O B) as H.
  assert (HS : result_of (pieces server_data cs dstate0) = mres (arun (concat cs) view0 (PH []))).
  { unfold run_ok in H. destruct (arun (concat cs) view0 (PH [])) as [v q | c d |].
    - destruct H as (e & s & -> & C & R & D). cbn [result_of mres]. rewrite C. rewrite (rel_seen s v q R), D. reflexivity.
    - destruct H as (e & s & -> & C & D). cbn [result_of mres]. rewrite closed_app. cbn [closed existsb]. rewrite orb_true_r.
      rewrite given_app, closes_app, (closes_none e C), D. cbn. rewrite app_nil_r. reflexivity.
    - rewrite H. reflexivity. }
  destruct Sd as [-> | ->]; [exact HS |]. rewrite <- HS.
  pose proof (client_pieces cs dstate0) as K. unfold same_but_told in K.
  destruct (pieces server_data cs dstate0) as [| | [e s]], (pieces client_data cs dstate0) as [| | [e' s']]; try contradiction; try reflexivity.
  destruct K as [<- ->]. cbn [result_of]. rewrite untold_closed, untold_given, untold_closes. reflexivity.
Qed.

Theorem cut : forall data1 data2 cs1 cs2 l, side data1 -> side data2 -> stream cs1 l -> stream cs2 l ->
  result_of (pieces data1 cs1 dstate0) = result_of (pieces data2 cs2 dstate0).
Proof.
  intros data1 data2 cs1 cs2 l S1 S2 C1 C2. rewrite (result_machine data1 cs1 l S1 C1), (result_machine data2 cs2 l S2 C2). reflexivity.
Qed.

(** *** From messages to results *)

Lemma prefix_none : forall p q ty n a b, is_varint ty a -> is_varint n b -> q <> [] -> p ++ q = a ++ b -> head p = None.
Proof.
  intros p q ty n a b A B NQ E. destruct (head p) as [[ty' n'] |] eqn:H; [| reflexivity]. exfalso.
  assert (Oa : bytes_ok (a ++ b)) by (apply ok_app; split; eapply varint_ok; eassumption).
  assert (Op : bytes_ok (p ++ q)) by (rewrite E; exact Oa). apply ok_app in Op. destruct Op as [Op Oq].
  destruct (head_inv p ty' n' Op H) as (a' & b' & r & -> & A' & B').
  assert (Or : bytes_ok (b' ++ r ++ q)).
  { apply ok_app in Op. destruct Op as [_ Op]. apply ok_app in Op. destruct Op as [O1 O2]. rewrite !ok_app. tauto. }
  pose proof (is_varint_decode ty' a' (b' ++ r ++ q) A' Or) as D1.
  pose proof (is_varint_decode ty a b A ltac:(eapply varint_ok; eassumption)) as D2.
  rewrite <- E in D2. rewrite <- !app_assoc in D2. rewrite D1 in D2.
  assert (Eb : b' ++ r ++ q = b) by (injection D2 as _ D2; exact D2).
  pose proof (is_varint_decode n' b' (r ++ q) B' ltac:(apply ok_app in Or; tauto)) as D3.
  pose proof (is_varint_decode n b [] B ltac:(constructor)) as D4. rewrite app_nil_r in D4.
  rewrite Eb, D4 in D3. injection D3 as _ D3. symmetry in D3. apply app_eq_nil in D3. tauto.
Qed.

Lemma tail_run : forall v p d id c, bytes_ok p -> tail v p d id c ->
  exists q, arun p v (PH []) = ARun v q /\ data_of v q = v_data v ++ d /\ mseen v q = mk_seen (v_header v) (v_trailer v) id c.
Proof.
  intros v p d id c O T. destruct T as [p q ty n a b A B NQ E | ty n a b x A B T65 Rf Lx | id a b x A B Hv].
  - exists (PH p). pose proof (prefix_none p q ty n a b A B NQ E) as H.
    pose proof (arun_head p [] v O eq_refl) as R. cbn [app] in R. rewrite H in R. split; [exact R |]. split; reflexivity.
  - exists (PB ty n x). replace (a ++ b ++ x) with ((a ++ b) ++ x) by (symmetry; apply app_assoc).
    rewrite (begin_run ty n a b v x A B). unfold begin. rewrite Rf. replace (ty =? 65) with false by lia.
    split; [| split; [reflexivity | reflexivity]].
    destruct x as [| e x]; [reflexivity |].
    rewrite arun_body; [| destruct Lx as [Lx | [_ Lx]]; [lia | discriminate] | rewrite blen_nil; destruct Lx as [Lx | [_ Lx]]; [lia | discriminate]
      | rewrite blen_nil; destruct Lx as [Lx | [_ Lx]]; [lia | discriminate] | discriminate].
    cbn [app]. replace (n <=? blen (e :: x)) with false; [reflexivity |]. destruct Lx as [Lx | [_ Lx]]; [lia | discriminate].
  - exists (PW id x). replace (a ++ b ++ x) with ((a ++ b) ++ x) by (symmetry; apply app_assoc).
    rewrite (begin_run 65 id a b v x A B). unfold begin, refused. rewrite Hv. cbn. rewrite arun_web. cbn [app].
    split; [reflexivity |]. split; [reflexivity |]. unfold mseen. rewrite Hv. reflexivity.
Qed.

Lemma settle_same : forall v q v', (exists p, where_ v q p) -> settle v q = ARun v' (PH []) ->
  data_of v q = v_data v' /\ mseen v q = mk_seen (v_header v') (v_trailer v') None false.
Proof.
  intros v q v' (p & Wh) S. destruct q as [p' | ty n x | id x]; cbn [settle] in S.
  - injection S as <- ->. unfold data_of. rewrite app_nil_r. split; reflexivity.
  - destruct (n =? 0) eqn:Z; [| discriminate]. destruct Wh as (a & b & _ & _ & _ & Rf & Lx & _).
    assert (x = []) by (destruct Lx as [Lx | [_ Lx]]; [lia | exact Lx]). subst x.
    unfold finish, take in S. cbn [fst snd] in S. destruct (refused v ty (blen [])); [discriminate |].
    unfold data_of, mseen. rewrite Z.
    destruct (ty =? 0) eqn:T0; [injection S as <-; split; reflexivity |].
    destruct (ty =? 1) eqn:T1; [cbn in S; discriminate |]. injection S as <-. rewrite app_nil_r. split; reflexivity.
  - discriminate.
Qed.

Theorem opened : forall data cs fs l v p d id c, side data -> stream cs (l ++ p) -> frames fs l -> message view0 fs v ->
  tail v p d id c -> result_of (pieces data cs dstate0) = Open (v_data v ++ d) (mk_seen (v_header v) (v_trailer v) id c).
Proof.
  intros data cs fs l v p d id c Sd St F M T. rewrite (result_machine data cs (l ++ p) Sd St).
  assert (O : bytes_ok (l ++ p)) by (destruct St as (_ & O & _); exact O). apply ok_app in O. destruct O as [O1 O2].
  destruct (tail_run v p d id c O2 T) as (q & R & D & S1).
  destruct p as [| b p].
  - rewrite app_nil_r. destruct (message_run_end fs l view0 v F M) as (v1 & q1 & E1 & E2). rewrite E1. cbn [mres].
    destruct (arun_inv l v1 q1 O1 E1) as (_ & _ & p & _ & _ & _ & Wh).
    destruct (settle_same v1 q1 v (ex_intro _ p Wh) E2) as [X1 X2]. rewrite X1, X2.
    cbn [arun] in R. injection R as <-. rewrite <- S1, <- D. unfold data_of. rewrite app_nil_r. reflexivity.
  - rewrite (message_run fs l view0 v (b :: p) F M) by discriminate. rewrite R. cbn [mres]. rewrite D, S1. reflexivity.
Qed.

Theorem wrong_closed : forall data cs fs l v r c, side data -> stream cs (l ++ r) -> frames fs l -> message view0 fs v ->
  wrong v r c -> result_of (pieces data cs dstate0) = Closed (v_data v) [c].
Proof.
  intros data cs fs l v r c Sd St F M T. rewrite (result_machine data cs (l ++ r) Sd St).
  destruct T as [ty n a b r c A B Rf | f lf r c Ff Rf Tk NE].
  - rewrite (message_run fs l view0 v _ F M).
    + rewrite (app_assoc a b r). rewrite (begin_run ty n a b v r A B). unfold begin. rewrite Rf. reflexivity.
    + destruct (varint_first ty a A) as (b0 & q0 & -> & _). discriminate.
  - assert (T65 : fst f <> 65).
    { intro Z. unfold take in Tk. rewrite Rf, Z in Tk. cbn in Tk. discriminate. }
    rewrite (message_run fs l view0 v _ F M).
    + rewrite (frame_run f lf v r Ff T65 Rf) by tauto. unfold finish. destruct f as [ty x]. cbn [fst snd] in *. rewrite Tk. cbn [mres].
      unfold take in Tk. cbn [fst snd] in Tk. rewrite Rf in Tk. destruct (ty =? 0); [discriminate |]. rewrite app_nil_r. reflexivity.
    + destruct Ff as (a & b & A & _ & ->). destruct (varint_first _ a A) as (b0 & q0 & -> & _). discriminate.
Qed.

(** *** From results to messages *)

Lemma zero_bytes : forall n, bytes_ok (zeros n).
Proof. intro n. unfold zeros. apply Forall_forall. intros x H. apply repeat_spec in H. subst x. reflexivity. Qed.

(** An incomplete beginning can be completed. *)
Lemma complete : forall p, bytes_ok p -> head p = None -> exists q ty n a b, is_varint ty a /\ is_varint n b /\ q <> [] /\ p ++ q = a ++ b.
Proof.
  intros p O H.
  assert (Z1 : exists n, is_varint n [0]) by (apply number_of; [repeat constructor | reflexivity]). destruct Z1 as (z & Z1).
  assert (Fn : forall c p, bytes_ok (c :: p) -> blen (c :: p) <= varint_len c -> exists v, is_varint v ((c :: p) ++ zeros (varint_len c - blen (c :: p)))).
  { intros c p' O' L. apply number_of.
    - change (bytes_ok ((c :: p') ++ zeros (varint_len c - blen (c :: p')))). apply ok_app. split; [exact O' | apply zero_bytes].
    - change (blen ((c :: p') ++ zeros (varint_len c - blen (c :: p'))) = varint_len c). rewrite blen_app, zeros_len. lia. }
  destruct p as [| c p].
  { exists [0; 0], z, z, [0], [0]. split; [exact Z1 |]. split; [exact Z1 |]. split; [discriminate | reflexivity]. }
  destruct (N.le_gt_cases (blen (c :: p)) (varint_len c)) as [L | L].
  - destruct (Fn c p O L) as (v & V). exists (zeros (varint_len c - blen (c :: p)) ++ [0]), v, z. eexists _, _. split; [exact V |]. split; [exact Z1 |].
    split; [intro Z; apply app_eq_nil in Z; destruct Z; discriminate | rewrite app_assoc; reflexivity].
  - destruct (cut_at (varint_len c) (c :: p)) as (a & r & E & La); [lia |].
    destruct a as [| c' a]; [exfalso; rewrite blen_nil in La; pose proof (varint_len_cases c); lia |].
    assert (c' = c) by (injection E as -> _; reflexivity). subst c'.
    rewrite E in *. apply ok_app in O. destruct O as [Oa Or].
    destruct (number_of c a Oa La) as (ty & V).
    destruct r as [| d r]; [exfalso; rewrite app_nil_r in L; lia |].
    unfold head in H. rewrite (is_varint_decode ty (c :: a) (d :: r) V Or) in H.
    destruct (frames_varint_decode (d :: r)) as [[n r'] |] eqn:D; [discriminate |].
    apply decode_short in D; [| exact Or].
    destruct (Fn d r Or ltac:(lia)) as (n & Vn).
    exists (zeros (varint_len d - blen (d :: r))), ty, n, (c :: a). eexists. split; [exact V |]. split; [exact Vn |].
    split; [| rewrite <- app_assoc; reflexivity]. intro Z. apply (f_equal blen) in Z. rewrite zeros_len, blen_nil in Z. lia.
Qed.

Lemma where_tail : forall v q p, bytes_ok p -> where_ v q p ->
  exists d id c, tail v p d id c /\ data_of v q = v_data v ++ d /\ mseen v q = mk_seen (v_header v) (v_trailer v) id c.
Proof.
  intros v q p O Wh. destruct q as [p' | ty n x | id x].
  - destruct Wh as [-> H]. destruct (complete p O H) as (q & ty & n & a & b & A & B & NQ & E).
    exists [], None, false. split; [exact (tail_start v p q ty n a b A B NQ E) |]. split; reflexivity.
  - destruct Wh as (a & b & A & B & T65 & Rf & Lx & ->). eexists _, _, _. split; [apply tail_content; eassumption |]. split; reflexivity.
  - destruct Wh as (a & b & A & B & Hv & ->). eexists _, _, _. split; [apply tail_web; eassumption |]. split; reflexivity.
Qed.

Theorem opened_inv : forall data cs l d n, side data -> stream cs l -> result_of (pieces data cs dstate0) = Open d n ->
  exists fs lf v p d' id c, l = lf ++ p /\ frames fs lf /\ message view0 fs v /\ tail v p d' id c /\
    d = v_data v ++ d' /\ n = mk_seen (v_header v) (v_trailer v) id c.
Proof.
  intros data cs l d n Sd St H. rewrite (result_machine data cs l Sd St) in H.
  destruct (arun l view0 (PH [])) as [v q | |] eqn:E; [| discriminate | discriminate]. cbn [mres] in H. injection H as <- <-.
  assert (O : bytes_ok l) by (destruct St as (_ & O & _); exact O).
  destruct (arun_inv l v q O E) as (fs & lf & p & -> & F & M & Wh).
  apply ok_app in O. destruct O as [_ O].
  destruct (where_tail v q p O Wh) as (d' & id & c & T & D & S1).
  exists fs, lf, v, p, d', id, c. repeat split; assumption.
Qed.

Lemma arun_stop : forall l v q r, arun l v q = r -> (forall v' q', r <> ARun v' q') ->
  exists l1 b l2 v1 q1, l = l1 ++ b :: l2 /\ arun l1 v q = ARun v1 q1 /\ astep b v1 q1 = r.
Proof.
  induction l as [| b l IH]; intros v q r H NR.
  - exfalso. apply (NR v q). symmetry. exact H.
  - cbn [arun] in H. destruct (astep b v q) as [v' q' | |] eqn:E.
    + destruct (IH v' q' r H NR) as (l1 & b1 & l2 & v1 & q1 & -> & A & B). exists (b :: l1), b1, l2, v1, q1.
      split; [reflexivity |]. split; [cbn [arun]; rewrite E; exact A | exact B].
    + exists [], b, l, v, q. rewrite <- H. repeat split. exact E.
    + exists [], b, l, v, q. rewrite <- H. repeat split. exact E.
Qed.

Lemma begin_cases : forall v ty n, begin v ty n <> AUndef /\ (forall c d, begin v ty n = AFail c d -> refused v ty n = Some c /\ d = v_data v).
Proof.
  intros v ty n. unfold begin. destruct (refused v ty n) as [c |].
  - split; [discriminate |]. intros c' d H. injection H as <- <-. split; reflexivity.
  - destruct (ty =? 65); (split; [discriminate | intros c d H; discriminate]).
Qed.

Lemma finish_fail : forall v ty x c d, refused v ty (blen x) = None -> finish v ty x = AFail c d -> take v (ty, x) = Bad c /\ d = v_data v.
Proof.
  intros v ty x c d Rf H. unfold finish in H. destruct (take v (ty, x)) as [| c' |] eqn:Tk; [discriminate | | discriminate].
  injection H as <- <-. split; [reflexivity |]. unfold take in Tk. cbn [fst snd] in Tk. rewrite Rf in Tk.
  destruct (ty =? 0); [discriminate | apply app_nil_r].
Qed.

Lemma finish_undef : forall v ty x, finish v ty x = AUndef -> take v (ty, x) = Wild.
Proof. intros v ty x H. unfold finish in H. destruct (take v (ty, x)); [discriminate | discriminate | reflexivity]. Qed.

Lemma stop_inv : forall l1 b l2 v1 q1 r, bytes_ok (l1 ++ b :: l2) -> arun l1 view0 (PH []) = ARun v1 q1 -> astep b v1 q1 = r ->
  (forall v' q', r <> ARun v' q') ->
  exists fs lf v p, l1 ++ b :: l2 = lf ++ p /\ frames fs lf /\ message view0 fs v /\
    match r with ARun _ _ => False | AFail c d => d = v_data v /\ wrong v p c | AUndef => wild v p end.
Proof.
  intros l1 b l2 v1 q1 r O H1 H2 NR.
  assert (O1 : bytes_ok l1) by (apply ok_app in O; tauto).
  destruct (arun_inv l1 v1 q1 O1 H1) as (fs & lf & p & -> & F & M & Wh).
  assert (Frame : forall ty n x a b', is_varint ty a -> is_varint n b' -> blen x = n -> frame_bytes (ty, x) (a ++ b' ++ x)).
  { intros ty n x a b' A B E. exists a, b'. cbn [fst snd]. rewrite E. repeat split; assumption. }
  assert (New : forall v p fs lf, frames fs lf -> message view0 fs v -> head p = None -> bytes_ok (p ++ [b]) -> lf ++ p ++ b :: l2 = lf ++ p ++ b :: l2 ->
    match head (p ++ [b]) with Some (ty, n) => begin v ty n | None => ARun v (PH (p ++ [b])) end = r ->
    match r with ARun _ _ => False | AFail c d => d = v_data v /\ wrong v (p ++ b :: l2) c | AUndef => wild v (p ++ b :: l2) end).
  { intros v p' fs' lf' F' M' Hn Op _ Hr. destruct (head (p' ++ [b])) as [[ty n] |] eqn:Hh; [| exfalso; eapply NR; symmetry; exact Hr].
    destruct (head_exact p' b ty n Op Hn Hh) as (a & b' & Ea & A & B). destruct (begin_cases v ty n) as [B1 B2].
    replace (p' ++ b :: l2) with (a ++ b' ++ l2) by (rewrite app_assoc, <- Ea, <- app_assoc; reflexivity).
    destruct r as [v' q' | c d |]; [exfalso; eapply NR; reflexivity | | congruence].
    destruct (B2 c d Hr) as [Rf ->]. split; [reflexivity |]. econstructor; eassumption. }
  assert (Ob : bytes_ok [b]) by (apply ok_app in O; destruct O as [_ O]; inversion O; subst; constructor; [assumption | constructor]).
  unfold astep in H2. destruct q1 as [p' | ty n x | id x]; cbn [settle] in H2.
  - destruct Wh as [-> Hn]. exists fs, lf, v1, (p ++ b :: l2). split; [symmetry; apply app_assoc |]. split; [exact F |]. split; [exact M |].
    apply (New v1 p fs lf F M Hn); [apply ok_app; split; [apply ok_app in O1; tauto | exact Ob] | reflexivity | exact H2].
  - destruct Wh as (a & b' & A & B & T65 & Rf & Lx & ->).
    destruct (n =? 0) eqn:Z.
    + assert (n = 0) by lia. subst n. assert (x = []) by (destruct Lx as [Lx | [_ Lx]]; [lia | exact Lx]). subst x.
      unfold finish in H2. destruct (take v1 (ty, [])) as [v2 | c |] eqn:Tk.
      * exists (fs ++ [(ty, [])]), (lf ++ a ++ b' ++ []), v2, ([] ++ b :: l2). cbn [app] in H2.
        split; [rewrite <- !app_assoc; reflexivity |].
        assert (F' : frames (fs ++ [(ty, [])]) (lf ++ a ++ b' ++ [])) by (apply frames_snoc; [exact F | eapply Frame; [exact A | exact B | reflexivity]]).
        assert (M' : message view0 (fs ++ [(ty, [])]) v2) by (eapply message_snoc; eassumption).
        split; [exact F' |]. split; [exact M' |]. apply (New v2 [] _ _ F' M' eq_refl Ob eq_refl H2).
      * exists fs, lf, v1, ((a ++ b' ++ []) ++ b :: l2). split; [rewrite <- !app_assoc; reflexivity |]. split; [exact F |]. split; [exact M |].
        subst r. split.
        -- unfold take in Tk. cbn [fst snd] in Tk. change (blen []) with 0 in Tk. rewrite Rf in Tk.
           destruct (ty =? 0); [discriminate | apply app_nil_r].
        -- apply wrong_content with (f := (ty, [])); [eapply Frame; [exact A | exact B | reflexivity] | exact Rf | exact Tk | right; discriminate].
      * exists fs, lf, v1, ((a ++ b' ++ []) ++ b :: l2). split; [rewrite <- !app_assoc; reflexivity |]. split; [exact F |]. split; [exact M |].
        subst r. exists (ty, []), (a ++ b' ++ []), (b :: l2). split; [eapply Frame; [exact A | exact B | reflexivity] | split; [exact Tk | reflexivity]].
    + destruct (n <=? blen (x ++ [b])) eqn:C; [| exfalso; eapply NR; symmetry; exact H2].
      assert (En : blen (x ++ [b]) = n) by (rewrite blen_app in *; change (blen [b]) with 1 in *; lia).
      exists fs, lf, v1, ((a ++ b' ++ (x ++ [b])) ++ l2). split; [rewrite <- !app_assoc; reflexivity |]. split; [exact F |]. split; [exact M |].
      destruct r as [v' q' | c d |]; [eapply NR; reflexivity | |].
      * destruct (finish_fail v1 ty (x ++ [b]) c d ltac:(rewrite En; exact Rf) H2) as [Tk ->]. split; [reflexivity |].
        apply wrong_content with (f := (ty, x ++ [b])); [eapply Frame; eassumption | cbn [fst snd]; rewrite En; exact Rf | exact Tk |].
        left. cbn [snd]. destruct x; discriminate.
      * exists (ty, x ++ [b]), (a ++ b' ++ (x ++ [b])), l2. split; [eapply Frame; eassumption |]. split; [apply finish_undef; exact H2 | reflexivity].
  - exfalso. eapply NR. symmetry. exact H2.
Qed.

Theorem closed_inv : forall data cs l d c, side data -> stream cs l -> result_of (pieces data cs dstate0) = Closed d c ->
  exists fs lf v p k, l = lf ++ p /\ frames fs lf /\ message view0 fs v /\ wrong v p k /\ d = v_data v /\ c = [k].
Proof.
  intros data cs l d c Sd St H. rewrite (result_machine data cs l Sd St) in H.
  destruct (arun l view0 (PH [])) as [| k d' |] eqn:E; [discriminate | | discriminate]. cbn [mres] in H. injection H as <- <-.
  assert (O : bytes_ok l) by (destruct St as (_ & O & _); exact O).
  assert (NR : forall v' q', AFail k d' <> ARun v' q') by discriminate.
  destruct (arun_stop l view0 (PH []) _ E NR) as (l1 & b & l2 & v1 & q1 & -> & A & B).
  destruct (stop_inv l1 b l2 v1 q1 _ O A B NR) as (fs & lf & v & p & E2 & F & M & D & W).
  exists fs, lf, v, p, k. repeat split; assumption.
Qed.

Theorem defined : forall data cs l, side data -> stream cs l ->
  match result_of (pieces data cs dstate0) with
  | Stuck => False
  | Broken => exists fs lf v p, l = lf ++ p /\ frames fs lf /\ message view0 fs v /\ wild v p
  | _ => True
  end.
Proof.
  intros data cs l Sd St. rewrite (result_machine data cs l Sd St).
  destruct (arun l view0 (PH [])) as [v q | k d' |] eqn:E; [exact I | exact I |]. cbn [mres].
  assert (O : bytes_ok l) by (destruct St as (_ & O & _); exact O).
  assert (NR : forall v' q', AUndef <> ARun v' q') by discriminate.
  destruct (arun_stop l view0 (PH []) _ E NR) as (l1 & b & l2 & v1 & q1 & -> & A & B).
  destruct (stop_inv l1 b l2 v1 q1 _ O A B NR) as (fs & lf & v & p & E2 & F & M & W).
  exists fs, lf, v, p. repeat split; assumption.
Qed.
