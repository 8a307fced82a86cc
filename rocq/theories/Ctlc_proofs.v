(** The streams of the peer: what is accepted and refused. *)
From Verif Require Import Base Tac Mem Mem_proofs Varint_spec Varint_model Varint_proofs Qpack_model H3_model H3_spec
  H3_proofs H3b_proofs H3c_proofs Ctl_model Ctl_spec Ctl_proofs Ctlb_proofs.

Section Streams.
Variable known : N -> bool.

(** ** The machine on numbers and frames *)

Lemma run_number : forall k d, number_pos known k d -> forall a v st, is_varint v a -> urun known a st (k []) = d st v.
Proof.
  intros k d K a v st V. pose proof (varint_pos _ _ V) as Pa.
  assert (NE : a <> []) by (destruct a; [cbn [length] in Pa; lia | discriminate]).
  pose proof (urun_number known k d K a [] st (varint_ok _ _ V) NE) as H. cbn [app] in H.
  pose proof (num_of v a [] V ltac:(constructor)) as Nv. rewrite app_nil_r in Nv. rewrite Nv in H. exact (H V).
Qed.

Lemma run_start : forall k d, number_pos known k d -> forall p st, bytes_ok p -> number_start p -> urun known p st (k []) = MRun st (k p).
Proof.
  intros k d K p st O P. apply num_start in P; [| exact O]. destruct p as [| b p]; [reflexivity |].
  pose proof (urun_number known k d K (b :: p) [] st O ltac:(discriminate)) as H. cbn [app] in H. rewrite P in H. exact H.
Qed.

Lemma run_content : forall ty n a b x st, is_varint ty a -> is_varint n b -> type_bad (se_received st) ty = None ->
  (ty = 4 -> n <= 65536) -> blen x <= n ->
  urun known (a ++ b ++ x) st (UT []) = if n <=? blen x then ufinish st ty x else MRun st (UB ty n x).
Proof.
  intros ty n a b x st A B Tb L6 Lx. rewrite urun_app, (run_number _ _ (pos_type known) a ty st A).
  unfold type_done. rewrite Tb. cbn [uthen]. rewrite urun_app, (run_number _ _ (pos_length known ty) b n st B).
  unfold length_done. replace ((ty =? 4) && (65536 <? n)) with false.
  2:{ symmetry. destruct (ty =? 4) eqn:T4; [| reflexivity]. specialize (L6 ltac:(lia)). cbn [andb]. lia. }
  destruct (n =? 0) eqn:Z.
  - assert (x = []) by (apply blen0; lia). subst x. rewrite blen_nil. replace (n <=? 0) with true by lia.
    destruct (ufinish st ty []); reflexivity.
  - destruct x as [| c x].
    + rewrite blen_nil. replace (n <=? 0) with false by lia. reflexivity.
    + cbn [uthen]. apply (urun_body known (c :: x) st ty n []); [rewrite blen_nil; lia | rewrite blen_nil; lia | discriminate].
Qed.

Lemma frame_ok : forall f l, frame_bytes f l -> exists a b, is_varint (fst f) a /\ is_varint (blen (snd f)) b /\ l = a ++ b ++ snd f.
Proof. intros f l H. exact H. Qed.

Lemma type_settings : forall st, se_received st = false -> type_bad (se_received st) 4 = None.
Proof. intros st ->. reflexivity. Qed.

Lemma run_control : forall fs l, frames fs l -> forall st st', control st fs st' -> urun known l st (UT []) = MRun st' (UT []).
Proof.
  intros fs l F. induction F as [| f l fs r Fb F IH]; intros st st' C.
  - inversion C; subst. reflexivity.
  - destruct Fb as (a & b & A & B & ->). rewrite urun_app. inversion C; subst; cbn [fst snd] in *.
    + rewrite (run_content 4 (blen x) a b x st A B (type_settings st ltac:(assumption))) by (intros; lia).
      rewrite N.leb_refl. rewrite (finish_pairs ps x st) by assumption. cbn [uthen]. apply IH. assumption.
    + rewrite (run_content ty (blen x) a b x st A B) by (try assumption; intros; lia).
      rewrite N.leb_refl. unfold ufinish. replace (ty =? 4) with false by lia. cbn [uthen]. apply IH. assumption.
Qed.

Lemma run_tail : forall st p, bytes_ok p -> control_tail st p -> exists q, urun known p st (UT []) = MRun st q /\ uctl q = true.
Proof.
  intros st p O T. destruct T as [p P | ty a p A Tb P | ty n a b x A B Tb L6 Lx].
  - exists (UT p). split; [apply (run_start _ _ (pos_type known)); assumption | reflexivity].
  - apply ok_app in O. exists (UL ty p). split; [| reflexivity].
    rewrite urun_app, (run_number _ _ (pos_type known) a ty st A). unfold type_done. rewrite Tb. cbn [uthen].
    apply (run_start _ _ (pos_length known ty)); tauto.
  - exists (UB ty n x). split; [| reflexivity]. rewrite (run_content ty n a b x st A B Tb L6) by lia.
    replace (n <=? blen x) with false by lia. reflexivity.
Qed.

Lemma run_bad : forall st p c, bytes_ok p -> control_bad st p c ->
  exists st', urun known p st (UT []) = MFail c st' /\ se_received st' = se_received st.
Proof.
  intros st p c O T. destruct T as [ty a r c A Tb | n a b r A B R L6 | x lf r Fb R Lx H].
  - exists st. split; [| reflexivity]. rewrite urun_app, (run_number _ _ (pos_type known) a ty st A). unfold type_done. rewrite Tb. reflexivity.
  - exists st. split; [| reflexivity]. rewrite urun_app, (run_number _ _ (pos_type known) a 4 st A). unfold type_done.
    rewrite (type_settings st R). cbn [uthen]. rewrite urun_app, (run_number _ _ (pos_length known 4) b n st B).
    unfold length_done. cbn [N.eqb Pos.eqb andb]. replace (65536 <? n) with true by lia. reflexivity.
  - destruct Fb as (a & b & A & B & ->). cbn [fst snd] in *.
    assert (Ox : bytes_ok x) by (rewrite <- !app_assoc in O; apply ok_app in O; destruct O as [_ O]; apply ok_app in O; destruct O as [_ O]; apply ok_app in O; tauto).
    destruct (finish_bad x st Ox H) as (st' & E & Rr). exists st'. split; [| exact Rr].
    rewrite urun_app, (run_content 4 (blen x) a b x st A B (type_settings st R)) by (intros; lia).
    rewrite N.leb_refl, E. reflexivity.
Qed.

(** Every stream is one of these. *)
Lemma control_cases : forall k l st, (length l <= k)%nat -> bytes_ok l ->
  exists fs lf p st', l = lf ++ p /\ frames fs lf /\ control st fs st' /\ (control_tail st' p \/ exists c, control_bad st' p c).
Proof.
  induction k as [| k IH]; intros l st Lk O.
  - assert (l = []) by (destruct l; [reflexivity | cbn [length] in Lk; lia]). subst l.
    exists [], [], [], st. split; [reflexivity |]. split; [constructor |]. split; [constructor |]. left. apply control_tail_type.
    apply num_start; [exact O | reflexivity].
  - assert (Stop : forall (P : Prop), (control_tail st l \/ (exists c, control_bad st l c)) ->
      exists fs lf p st', l = lf ++ p /\ frames fs lf /\ control st fs st' /\ (control_tail st' p \/ exists c, control_bad st' p c)).
    { intros _ H. exists [], [], l, st. split; [reflexivity |]. split; [constructor |]. split; [constructor | exact H]. }
    destruct (num l) as [ty |] eqn:N1.
    2:{ apply (Stop True). left. apply control_tail_type. apply num_start; assumption. }
    destruct (num_inv _ _ O N1) as (a & l1 & -> & A). apply ok_app in O. destruct O as [Oa O1].
    destruct (type_bad (se_received st) ty) as [c |] eqn:Tb.
    { apply (Stop True). right. exists c. exact (control_bad_type st ty a l1 c A Tb). }
    destruct (num l1) as [n |] eqn:N2.
    2:{ apply (Stop True). left. apply (control_tail_length st ty); [exact A | exact Tb | apply num_start; assumption]. }
    destruct (num_inv _ _ O1 N2) as (b & l2 & -> & B). apply ok_app in O1. destruct O1 as [Ob O2].
    assert (R4 : ty = 4 -> se_received st = false).
    { intros ->. unfold type_bad in Tb. cbn [N.eqb Pos.eqb] in Tb. destruct (se_received st); [discriminate | reflexivity]. }
    destruct ((ty =? 4) && (65536 <? n)) eqn:Long.
    { apply andb_true_iff in Long. destruct Long as [T4 N6]. assert (ty = 4) by lia. subst ty.
      apply (Stop True). right. exists 258. apply (control_bad_length st n a b l2); [exact A | exact B | apply R4; reflexivity | lia]. }
    assert (L6 : ty = 4 -> n <= 65536) by (intros ->; cbn in Long; lia).
    destruct (blen l2 <? n) eqn:Short.
    { apply (Stop True). left. apply (control_tail_content st ty n); try assumption. lia. }
    destruct (cut_at n l2 ltac:(lia)) as (x & l3 & -> & Lx). apply ok_app in O2. destruct O2 as [Ox O3].
    assert (Fb : frame_bytes (ty, x) (a ++ b ++ x)).
    { exists a, b. cbn [fst snd]. rewrite Lx. repeat split; assumption. }
    assert (Lk3 : (length l3 <= k)%nat).
    { rewrite !app_length in Lk. pose proof (varint_pos _ _ A). lia. }
    assert (El : a ++ b ++ x ++ l3 = (a ++ b ++ x) ++ l3) by (rewrite <- !app_assoc; reflexivity).
    assert (Go : forall st1, (forall fs st2, control st1 fs st2 -> control st ((ty, x) :: fs) st2) ->
      exists fs lf p st', a ++ b ++ x ++ l3 = lf ++ p /\ frames fs lf /\ control st fs st' /\ (control_tail st' p \/ exists c, control_bad st' p c)).
    { intros st1 H. destruct (IH l3 st1 Lk3 O3) as (fs & lf & p & st' & -> & F & C & E).
      exists ((ty, x) :: fs), ((a ++ b ++ x) ++ lf), p, st'. split; [rewrite El, app_assoc; reflexivity |].
      split; [constructor; assumption |]. split; [apply H; exact C | exact E]. }
    destruct (ty =? 4) eqn:T4.
    + assert (ty = 4) by lia. subst ty. specialize (R4 eq_refl). specialize (L6 eq_refl).
      destruct x as [| c w] eqn:Ex.
      { apply (Stop True). right. exists 265. rewrite El. apply (control_bad_settings st []); [exact Fb | exact R4 | rewrite blen_nil; lia | left; reflexivity]. }
      rewrite <- Ex in *. destruct (components_some (S (length x)) x st Ox ltac:(lia)) as (ok & st1 & Co & Rc & P).
      destruct ok.
      * destruct (P eq_refl) as (ps & Ps). apply (Go (told_by ps st true)). intros fs st2 C.
        apply (control_settings st ps); try assumption; [rewrite Ex; discriminate | lia].
      * apply (Stop True). right. exists 265. rewrite El. apply (control_bad_settings st x); [exact Fb | exact R4 | lia |].
        right. intros ps Ps. rewrite (components_pairs ps x Ps) in Co by lia. discriminate.
    + apply (Go st). intros fs st2 C. apply control_other; [lia | exact Tb | exact C].
Qed.

(** ** Streams *)

Lemma stream_ok : forall cs l, stream cs l -> bytes_ok l.
Proof. intros cs l (_ & O & _). exact O. Qed.

Lemma ctl_cut : forall cs1 cs2 l st, stream cs1 l -> stream cs2 l ->
  uresult_of (remote_pieces false known cs1 ustate0 st) = uresult_of (remote_pieces false known cs2 ustate0 st).
Proof. intros cs1 cs2 l st S1 S2. rewrite (unidir_result known cs1 l st S1), (unidir_result known cs2 l st S2). reflexivity. Qed.

Lemma ctl_defined : forall cs l st, stream cs l ->
  match uresult_of (remote_pieces false known cs ustate0 st) with UBroken | UStuck => False | _ => True end.
Proof.
  intros cs l st S. rewrite (unidir_result known cs l st S).
  pose proof (run_defined known l st (US []) (stream_ok _ _ S) I) as D.
  destruct (urun known l st (US [])); [exact I | exact I | congruence].
Qed.

Lemma run_type : forall t a r st, is_varint t a ->
  urun known (a ++ r) st (US []) = urun known r st (if t =? 0 then UT [] else if t =? 84 then UI [] else UX).
Proof. intros t a r st A. rewrite urun_app, (run_number _ _ (pos_start known) a t st A). reflexivity. Qed.

Lemma ctl_read : forall cs a fs lf p st st', is_varint 0 a -> frames fs lf -> control st fs st' -> control_tail st' p ->
  stream cs (a ++ lf ++ p) -> uresult_of (remote_pieces false known cs ustate0 st) = Going [] None st'.
Proof.
  intros cs a fs lf p st st' A F C T S. rewrite (unidir_result known cs _ st S), (run_type 0 a _ st A). cbn [N.eqb].
  rewrite urun_app, (run_control fs lf F st st' C). cbn [uthen].
  assert (O : bytes_ok p) by (apply stream_ok in S; apply ok_app in S; destruct S as [_ S]; apply ok_app in S; tauto).
  destruct (run_tail st' p O T) as (q & -> & U). destruct q; try discriminate U; reflexivity.
Qed.

Lemma ctl_refused : forall cs a fs lf p st st1 c, is_varint 0 a -> frames fs lf -> control st fs st1 -> control_bad st1 p c ->
  stream cs (a ++ lf ++ p) ->
  exists st', uresult_of (remote_pieces false known cs ustate0 st) = Stopped [c] st' /\ se_received st' = se_received st1.
Proof.
  intros cs a fs lf p st st' c A F C T S. rewrite (unidir_result known cs _ st S), (run_type 0 a _ st A). cbn [N.eqb].
  rewrite urun_app, (run_control fs lf F st st' C). cbn [uthen].
  assert (O : bytes_ok p) by (apply stream_ok in S; apply ok_app in S; destruct S as [_ S]; apply ok_app in S; tauto).
  destruct (run_bad st' p c O T) as (st2 & -> & U). exists st2. split; [reflexivity | exact U].
Qed.

Lemma ctl_accepted : forall cs a r st d id st', is_varint 0 a -> stream cs (a ++ r) ->
  uresult_of (remote_pieces false known cs ustate0 st) = Going d id st' ->
  d = [] /\ id = None /\ exists fs lf p, r = lf ++ p /\ frames fs lf /\ control st fs st' /\ control_tail st' p.
Proof.
  intros cs a r st d id st' A S H.
  assert (O : bytes_ok r) by (apply stream_ok in S; apply ok_app in S; tauto).
  destruct (control_cases (length r) r st ltac:(lia) O) as (fs & lf & p & st1 & -> & F & C & [T | (c & T)]).
  - rewrite (ctl_read cs a fs lf p st st1 A F C T S) in H. injection H as <- <- <-.
    split; [reflexivity |]. split; [reflexivity |]. exists fs, lf, p. repeat split; assumption.
  - destruct (ctl_refused cs a fs lf p st st1 c A F C T S) as (st2 & E & _). rewrite E in H. discriminate.
Qed.

Lemma ctl_stopped : forall cs a r st cc st', is_varint 0 a -> stream cs (a ++ r) ->
  uresult_of (remote_pieces false known cs ustate0 st) = Stopped cc st' ->
  exists c fs lf p st1, cc = [c] /\ r = lf ++ p /\ frames fs lf /\ control st fs st1 /\ control_bad st1 p c.
Proof.
  intros cs a r st cc st' A S H.
  assert (O : bytes_ok r) by (apply stream_ok in S; apply ok_app in S; tauto).
  destruct (control_cases (length r) r st ltac:(lia) O) as (fs & lf & p & st1 & -> & F & C & [T | (c & T)]).
  - rewrite (ctl_read cs a fs lf p st st1 A F C T S) in H. discriminate.
  - destruct (ctl_refused cs a fs lf p st st1 c A F C T S) as (st2 & E & _). rewrite E in H. injection H as <- _.
    exists c, fs, lf, p, st1. repeat split; assumption.
Qed.

Lemma run_session : forall l st r, bytes_ok l -> session_result known st l r -> ures_of (urun known l st (UI [])) = r.
Proof.
  intros l st r O H. destruct H as [p P | id b d B K | id b d B K].
  - rewrite (run_start _ _ (pos_session known) p st O P). reflexivity.
  - rewrite urun_app, (run_number _ _ (pos_session known) b id st B). unfold session_done. rewrite K. cbn [uthen].
    rewrite (run_data known d st id []). reflexivity.
  - rewrite urun_app, (run_number _ _ (pos_session known) b id st B). unfold session_done. rewrite K. reflexivity.
Qed.

Lemma ctl_session : forall cs a l st r, is_varint 84 a -> session_result known st l r -> stream cs (a ++ l) ->
  uresult_of (remote_pieces false known cs ustate0 st) = r.
Proof.
  intros cs a l st r A H S. rewrite (unidir_result known cs _ st S), (run_type 84 a _ st A). cbn [N.eqb Pos.eqb].
  apply run_session; [apply stream_ok in S; apply ok_app in S; tauto | exact H].
Qed.

Lemma ctl_ignored : forall cs t a l st, is_varint t a -> t <> 0 -> t <> 84 -> stream cs (a ++ l) ->
  uresult_of (remote_pieces false known cs ustate0 st) = Going [] None st.
Proof.
  intros cs t a l st A T0 T84 S. rewrite (unidir_result known cs _ st S), (run_type t a _ st A).
  replace (t =? 0) with false by lia. replace (t =? 84) with false by lia. rewrite run_ignored. reflexivity.
Qed.

(** ** Bidirectional streams *)

Lemma read_whole : forall v a r res, is_varint v a -> bytes_ok r ->
  exists h n, from_stream (a ++ r) res (u_hdr ustate0) (u_hread ustate0) = Ret (r, v, h, n) /\
    (forall t k1 k2 k3 f k i, buffer (mk_u t k1 k2 k3 f k h n i) []).
Proof.
  intros v a r res A O.
  assert (B0 : buffer ustate0 []) by (destruct (start_rel settings0) as (_ & _ & _ & _ & B); exact B).
  assert (NE : a ++ r <> []).
  { pose proof (varint_pos _ _ A) as P. destruct a; [cbn [length] in P; lia | discriminate]. }
  destruct (buffer_read known ustate0 [] (a ++ r) res B0 NE) as (x & y & h & n & E & NEx & Ox & Fs & H).
  { apply ok_app. split; [exact (varint_ok _ _ A) | exact O]. }
  cbn [app] in *. destruct (num x) as [w |] eqn:Nx.
  - destruct H as [V B'].
    pose proof (is_varint_decode v a r A O) as D1.
    assert (Oy : bytes_ok y).
    { assert (Oxy : bytes_ok (x ++ y)) by (rewrite <- E; apply ok_app; split; [exact (varint_ok _ _ A) | exact O]). apply ok_app in Oxy. tauto. }
    pose proof (is_varint_decode w x y V Oy) as D2. rewrite <- E, D1 in D2. injection D2 as <- <-.
    exists h, n. split; [exact Fs | exact B'].
  - destruct H as [-> _]. rewrite app_nil_r in E. rewrite <- E in Nx. rewrite (num_of v a r A O) in Nx. discriminate.
Qed.

Lemma bidir_piece : forall l s st q, srel 65 s q -> pos_ok q -> bytes_ok l -> blen l < two62 ->
  piece_ok known (fun s' _ q' => srel 65 s' q') l st q (if true then parse_bidir known l s st else parse_unidir known l s st).
Proof.
  intros l s st q R _ O _. unfold parse_bidir. pose proof R as (T & _). cbv zeta. rewrite T. unfold max64, frame_webtransport. cbn [N.eqb Pos.eqb].
  apply session_ok; assumption.
Qed.

Lemma srel_session : forall s q, srel 65 s q -> (if u_control s =? 2 ^ 64 - 1 then None else Some (u_control s)) = qsession q.
Proof.
  intros s q (_ & _ & R). change (2 ^ 64 - 1) with max64. destruct q; try contradiction; destruct R as [C B]; rewrite C.
  - rewrite N.eqb_refl. reflexivity.
  - rewrite (not_max known) by exact B. reflexivity.
Qed.

Lemma bidir_result : forall a c cs l st r, is_varint 65 a -> session_result known st l r -> stream ((a ++ c) :: cs) (a ++ l) ->
  uresult_of (remote_pieces true known ((a ++ c) :: cs) ustate0 st) = r.
Proof.
  intros a c cs l st r A H (E & O & B). cbn [concat] in E. rewrite <- app_assoc in E. apply app_inv_head in E. subst l.
  apply ok_app in O. destruct O as [Oa O]. pose proof O as Occ. apply ok_app in Occ. destruct Occ as [Oc _].
  destruct (read_whole 65 a c max64 A Oc) as (h & n & F & Bu).
  (* as if the type had been read before *)
  set (s1 := set_stream (set_buf ustate0 h n) 65).
  assert (R1 : srel 65 s1 (UI [])).
  { split; [reflexivity |]. split; [reflexivity |]. split; [reflexivity | apply Bu]. }
  assert (E1 : remote_pieces true known ((a ++ c) :: cs) ustate0 st = remote_pieces true known (c :: cs) s1 st).
  { cbn [remote_pieces]. f_equal. unfold remote_data. f_equal. unfold parse_bidir.
    change (u_stream ustate0) with max64. rewrite N.eqb_refl. rewrite F. cbn [bind]. reflexivity. }
  rewrite E1. rewrite blen_app in B.
  pose proof (pieces_ok known true (fun s' _ q' => srel 65 s' q') bidir_piece (c :: cs) s1 st (UI []) R1 I O) as P.
  cbn [concat] in P. assert (B2 : blen (c ++ concat cs) < two62) by (unfold two62; change (2 ^ 62) with 4611686018427387904 in B; lia).
  specialize (P B2). rewrite <- (run_session _ st r O H).
  destruct (urun known (c ++ concat cs) st (UI [])) as [st' q' | k st' |]; [| | contradiction].
  - destruct P as (e & s' & -> & S & R & D). cbn [uresult_of ures_of]. rewrite S, (srel_session s' q' R), D. reflexivity.
  - destruct P as (e & s' & -> & S & R). cbn [uresult_of ures_of]. rewrite S, R. reflexivity.
Qed.

End Streams.
