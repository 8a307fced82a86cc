(** Stream scheduling: the choice of the stream to serve. *)
From Coq Require Import Sorting.Sorted.
From Verif Require Import Base Tac Varint_model Stream_model Send_model Send_spec Sched_spec
  Send_proofs Send2_proofs Send3_proofs Send4_proofs Send5_proofs Send7_proofs Sched_proofs Sched2_proofs.

Lemma control_urgent s : control s <-> urgent s = true.
Proof.
  unfold control, urgent. rewrite orb_true_iff, !andb_true_iff, !negb_true_iff. tauto.
Qed.
Lemma queued_ready s : queued s <-> queue_ready s = true.
Proof.
  unfold queued, queue_ready. destruct (w_queue s) as [| [d o] r].
  - split; [intros (d & o & r & H & _); discriminate | discriminate].
  - rewrite N.ltb_lt. split; [intros (d' & o' & r' & H & L); injection H as -> -> ->; exact L | eauto 6].
Qed.
Lemma data_bool s : data s <-> w_active s || queue_ready s || (w_fin_req s && negb (w_fin_sent s)) = true.
Proof.
  unfold data. rewrite !orb_true_iff, andb_true_iff, negb_true_iff, queued_ready. tauto.
Qed.
Lemma above_permitted c id : above_limit c id = false <-> permitted c id.
Proof.
  unfold above_limit, permitted. rewrite andb_false_iff, N.ltb_ge, bidi_bidir.
  assert (E : Bool.eqb (is_client_id id) (n_client c) = mine (n_client c) id).
  { rewrite <- mine_local. unfold is_client_id, is_local_id. destruct (id mod 2 =? 0), (n_client c); reflexivity. }
  rewrite E. destruct (mine (n_client c) id); intuition congruence.
Qed.

Definition eligible (c : snd_cnx) (s : wstream) : bool :=
  urgent s || (has_data c s && negb ((w_sent s =? 0) && above_limit c (w_id s))).

Lemma eligible_iff c s : eligible c s = true <-> sendable c s.
Proof.
  unfold eligible, sendable, has_data.
  rewrite orb_true_iff, <- control_urgent, !andb_true_iff, negb_true_iff, !N.ltb_lt, <- data_bool.
  assert (E : (w_sent s =? 0) && above_limit c (w_id s) = false <-> (w_sent s = 0 -> permitted c (w_id s))).
  { rewrite <- above_permitted. rewrite andb_false_iff, N.eqb_neq.
    destruct (N.eq_dec (w_sent s) 0); [| tauto]. tauto. }
  rewrite E. tauto.
Qed.

Definition lexle (s t : wstream) : Prop := w_last s < w_last t \/ (w_last s = w_last t /\ w_id s <= w_id t).

Definition walk_inv (c : snd_cnx) (pre : list N) (found : option wstream) : Prop :=
  match found with
  | None => forall i t, In i pre -> w_lookup c i = Some t -> eligible c t = false
  | Some f => In (w_id f) pre /\ w_lookup c (w_id f) = Some f /\ eligible c f = true /\ urgent f = false /\
      N.odd (w_prio f) = false /\
      forall i t, In i pre -> w_lookup c i = Some t -> eligible c t = true ->
        w_prio t = w_prio f /\ urgent t = false /\ lexle f t
  end.

Definition best (c : snd_cnx) (l : list N) (o : option wstream) : Prop :=
  match o with
  | None => forall i t, In i l -> w_lookup c i = Some t -> eligible c t = false
  | Some s => In (w_id s) l /\ w_lookup c (w_id s) = Some s /\ eligible c s = true /\
      forall i t, In i l -> w_lookup c i = Some t -> eligible c t = true -> ahead s t
  end.

Lemma sorted_prio c pre i l s : StronglySorted (olt c) (pre ++ i :: l) -> w_lookup c i = Some s ->
  (forall j t, In j pre -> w_lookup c j = Some t -> w_prio t <= w_prio s) /\
  (forall j t, In j l -> w_lookup c j = Some t -> w_prio s < w_prio t \/ (w_prio s = w_prio t /\ i < j)).
Proof.
  intros S L. apply ss_app in S. destruct S as (_ & S2 & S3). inversion S2 as [| ? ? _ S4]; subst.
  rewrite Forall_forall in S4. split.
  - intros j t Hj Lt. specialize (S3 j i Hj (or_introl eq_refl)). unfold olt, prio_of in S3. rewrite L, Lt, prio_lt_iff in S3. lia.
  - intros j t Hj Lt. specialize (S4 j Hj). unfold olt, prio_of in S4. rewrite L, Lt, prio_lt_iff in S4. exact S4.
Qed.

Lemma ahead_refl s : ahead s s.
Proof.
  right. split; [reflexivity |]. split; [lia |]. intros _.
  destruct (urgent s) eqn:E.
  - left. split; [apply control_urgent, E | lia].
  - right. rewrite control_urgent, E. split; [discriminate |]. split; [discriminate |]. right. lia.
Qed.

Lemma walk_best c l : forall pre found gone o g,
  walk_inv c pre found -> StronglySorted (olt c) (pre ++ l) -> find_walk c l found gone = (o, g) ->
  best c (pre ++ l) o.
Proof.
  induction l as [| i l IH]; intros pre found gone o g W S; cbn [find_walk].
  - intro H. apply pair_inj in H. destruct H as [<- _]. rewrite app_nil_r. destruct found as [f |]; cbn in *; [| exact W].
    destruct W as (W1 & W2 & W3 & W4 & W5 & W6). split; [exact W1 |]. split; [exact W2 |]. split; [exact W3 |].
    intros j t Hj Lt Et. destruct (W6 j t Hj Lt Et) as (T1 & T2 & T3). right. split; [auto |]. split; [congruence |].
    intros _. right. rewrite !control_urgent, W4, T2. split; [discriminate |]. split; [discriminate | exact T3].
  - assert (Next : forall found' gone', walk_inv c (pre ++ [i]) found' ->
       find_walk c l found' gone' = (o, g) -> best c (pre ++ i :: l) o).
    { intros found' gone' W' H. replace (pre ++ i :: l) with ((pre ++ [i]) ++ l) in S |- * by (rewrite <- app_assoc; reflexivity).
      eapply IH; eassumption. }
    destruct (w_lookup c i) as [s |] eqn:L.
    2: { apply Next. destruct found as [f |]; cbn in *.
         - destruct W as (W1 & W2 & W3 & W4 & W5 & W6). split; [apply in_app_iff; auto |]. repeat (split; [assumption |]).
           intros j t Hj. apply in_app_iff in Hj. destruct Hj as [Hj | [<- | []]]; [apply W6, Hj | congruence].
         - intros j t Hj. apply in_app_iff in Hj. destruct Hj as [Hj | [<- | []]]; [apply W, Hj | congruence]. }
    assert (Hi := lookup_id _ _ _ L). destruct (sorted_prio _ _ _ _ _ S L) as [P1 P2].
    destruct (match found with Some f => w_prio f <? w_prio s | None => false end) eqn:Ep.
    { intro H. apply pair_inj in H. destruct H as [<- _]. destruct found as [f |]; [| discriminate].
      apply N.ltb_lt in Ep. cbn in W |- *. destruct W as (W1 & W2 & W3 & W4 & W5 & W6).
      split; [apply in_app_iff; auto |]. split; [exact W2 |]. split; [exact W3 |].
      intros j t Hj Lt Et. apply in_app_iff in Hj. destruct Hj as [Hj | [<- | Hj]].
      - destruct (W6 j t Hj Lt Et) as (T1 & T2 & T3). right. split; [auto |]. split; [congruence |].
        intros _. right. rewrite !control_urgent, W4, T2. split; [discriminate |]. split; [discriminate | exact T3].
      - left. congruence.
      - left. specialize (P2 j t Hj Lt). lia. }
    assert (Pf : forall f, found = Some f -> w_prio f = w_prio s).
    { intros f ->. apply N.ltb_ge in Ep. cbn in W. destruct W as (W1 & W2 & _). specialize (P1 _ _ W1 W2). lia. }
    (* [s] is returned: what precedes it *)
    assert (Ret : eligible c s = true ->
       (forall j t, In j pre -> w_lookup c j = Some t -> eligible c t = true -> ahead s t) ->
       (N.odd (w_prio s) = false -> urgent s = true) -> best c (pre ++ i :: l) (Some s)).
    { intros Es Hp Ho. cbn. split; [rewrite Hi; apply in_app_iff; right; left; reflexivity |].
      split; [congruence |]. split; [exact Es |]. intros j t Hj Lt Et. apply in_app_iff in Hj.
      destruct Hj as [Hj | [<- | Hj]]; [eauto | |].
      - rewrite L in Lt. apply some_inj in Lt. subst t. apply ahead_refl.
      - assert (Hid := lookup_id _ _ _ Lt). destruct (P2 j t Hj Lt) as [Q | [Q Q2]]; [left; exact Q |].
        right. split; [exact Q |]. split; [lia |]. intros O. left. split; [apply control_urgent; auto | lia]. }
    destruct (urgent s) eqn:Eu.
    { intro H. apply pair_inj in H. destruct H as [<- _]. apply Ret; [unfold eligible; rewrite Eu; reflexivity | | auto].
      intros j t Hj Lt Et. destruct found as [f |].
      - specialize (Pf f eq_refl). cbn in W. destruct W as (W1 & W2 & W3 & W4 & W5 & W6).
        destruct (W6 j t Hj Lt Et) as (T1 & T2 & T3). right. split; [congruence |]. split; [congruence |].
        intros _. left. rewrite !control_urgent, Eu, T2. split; [reflexivity | discriminate].
      - cbn in W. rewrite (W j t Hj Lt) in Et. discriminate. }
    (* [s] is skipped *)
    assert (Skip : eligible c s = false -> walk_inv c (pre ++ [i]) found).
    { intro Es. destruct found as [f |]; cbn in *.
      - destruct W as (W1 & W2 & W3 & W4 & W5 & W6). split; [apply in_app_iff; auto |]. repeat (split; [assumption |]).
        intros j t Hj Lt Et. apply in_app_iff in Hj. destruct Hj as [Hj | [<- | []]]; [eauto |]. congruence.
      - intros j t Hj Lt. apply in_app_iff in Hj. destruct Hj as [Hj | [<- | []]]; [eauto |]. congruence. }
    destruct (has_data c s) eqn:Eh.
    + destruct ((w_sent s =? 0) && above_limit c (w_id s)) eqn:Ea.
      { apply Next, Skip. unfold eligible. rewrite Eu, Eh, Ea. reflexivity. }
      assert (Es : eligible c s = true) by (unfold eligible; rewrite Eu, Eh, Ea; reflexivity).
      destruct (N.odd (w_prio s)) eqn:Eo.
      { intro H. apply pair_inj in H. destruct H as [<- _]. apply Ret; [exact Es | | congruence].
        intros j t Hj Lt Et. destruct found as [f |].
        - specialize (Pf f eq_refl). cbn in W. destruct W as (W1 & W2 & W3 & W4 & W5 & W6). congruence.
        - cbn in W. rewrite (W j t Hj Lt) in Et. discriminate. }
      assert (Take : (forall j t, In j pre -> w_lookup c j = Some t -> eligible c t = true ->
          w_prio t = w_prio s /\ urgent t = false /\ lexle s t) -> walk_inv c (pre ++ [i]) (Some s)).
      { intro Hp. cbn. split; [rewrite Hi; apply in_app_iff; right; left; reflexivity |]. split; [congruence |].
        split; [exact Es |]. split; [exact Eu |]. split; [exact Eo |]. intros j t Hj Lt Et. apply in_app_iff in Hj.
        destruct Hj as [Hj | [<- | []]]; [eauto |]. rewrite L in Lt. apply some_inj in Lt. subst t.
        split; [reflexivity |]. split; [exact Eu |]. right. lia. }
      destruct found as [f |].
      * specialize (Pf f eq_refl). pose proof W as W'. cbn in W. destruct W as (W1 & W2 & W3 & W4 & W5 & W6).
        destruct (N.ltb_spec (w_last s) (w_last f)) as [Q | Q]; apply Next.
        -- apply Take. intros j t Hj Lt Et. destruct (W6 j t Hj Lt Et) as (T1 & T2 & T3).
           split; [congruence |]. split; [exact T2 |]. unfold lexle in *. lia.
        -- cbn. split; [apply in_app_iff; auto |]. repeat (split; [assumption |]).
           intros j t Hj Lt Et. apply in_app_iff in Hj. destruct Hj as [Hj | [<- | []]]; [eauto |].
           rewrite L in Lt. apply some_inj in Lt. subst t. split; [auto |]. split; [exact Eu |].
           unfold lexle. assert (w_id f <= w_id s); [| lia]. rewrite Hi.
           apply ss_app in S. destruct S as (_ & _ & S3). specialize (S3 _ i W1 (or_introl eq_refl)).
           unfold olt, prio_of in S3. rewrite W2, L, prio_lt_iff in S3. lia.
      * apply Next, Take. cbn in W. intros j t Hj Lt Et. rewrite (W j t Hj Lt) in Et. discriminate.
    + assert (Es : eligible c s = false) by (unfold eligible; rewrite Eu, Eh; reflexivity).
      destruct (exhausted s); apply Next, Skip, Es.
Qed.

Lemma find_ready_best c c' o : srt c -> find_ready c = (c', o) -> best c (n_out c) o.
Proof.
  intros [S _]. unfold find_ready. destruct (find_walk c (n_out c) None []) as [f gone] eqn:E. intro H.
  apply pair_inj in H. destruct H as [_ <-]. apply (walk_best c (n_out c) [] None [] f gone); [| exact S | exact E].
  intros i t [].
Qed.

Lemma choice cl p evs c log c' s : snd_run (snd0 cl p) evs = Some (c, log) -> find_ready c = (c', Some s) ->
  In (w_id s) (n_out c) /\ w_lookup c (w_id s) = Some s /\ sendable c s /\
  forall i t, In i (n_out c) -> w_lookup c i = Some t -> sendable c t -> ahead s t.
Proof.
  intros R F. destruct (reach_good _ _ _ _ _ R) as [_ S]. apply find_ready_best in F; [| exact S].
  destruct F as (F1 & F2 & F3 & F4). split; [exact F1 |]. split; [exact F2 |]. split; [apply eligible_iff, F3 |].
  intros i t Hi Lt St. apply (F4 i); [exact Hi | exact Lt | apply eligible_iff, St].
Qed.
Lemma no_choice cl p evs c log c' : snd_run (snd0 cl p) evs = Some (c, log) -> find_ready c = (c', None) ->
  forall i t, In i (n_out c) -> w_lookup c i = Some t -> ~ sendable c t.
Proof.
  intros R F. destruct (reach_good _ _ _ _ _ R) as [_ S]. apply find_ready_best in F; [| exact S].
  intros i t Hi Lt St. apply eligible_iff in St. cbn in F. rewrite (F i t Hi Lt) in St. discriminate.
Qed.

(** ** A packet *)
(** What the formatting of one stream changes. *)
Definition about (id : N) (x : item) : Prop :=
  match x with IStream i _ _ _ => i | IReset i _ _ => i | IStop i _ => i | IWrote i _ => i | IFin i => i end = id.
Record effect (c : snd_cnx) (s : wstream) (now : N) (c' : snd_cnx) (its : list item) : Prop := mk_eff {
  ef_client : n_client c' = n_client c;
  ef_bidi : n_max_bidi c' = n_max_bidi c;
  ef_uni : n_max_uni c' = n_max_uni c;
  ef_max : n_max c' = n_max c;
  ef_sent : n_data_sent c <= n_data_sent c';
  ef_out : incl (n_out c') (n_out c);
  ef_next : n_next c' = n_next c;
  ef_other : forall i, i <> w_id s -> w_lookup c' i = w_lookup c i;
  ef_self : exists s', w_lookup c' (w_id s) = Some s' /\ w_prio s' = w_prio s /\
     (w_fin_sent s' = false -> w_fin_sent s = false /\ w_last s' = if carries (w_id s) its then now else w_last s);
  ef_items : Forall (about (w_id s)) its }.

Lemma format_effect c s room now r c' b its asked :
  w_lookup c (w_id s) = Some s -> format_stream c s room now r = FOk c' b its asked -> effect c s now c' its.
Proof.
  intros L. unfold format_stream.
  destruct (above_limit c (w_id s)) eqn:Ea; [discriminate |].
  assert (Same : effect c s now c []).
  { constructor; try reflexivity; try apply incl_refl; [| constructor]. exists s. cbn. auto. }
  assert (Put : forall s' n its, w_id s' = w_id s -> w_prio s' = w_prio s ->
    (w_fin_sent s' = false -> w_fin_sent s = false /\ w_last s' = (if carries (w_id s) its then now else w_last s)) ->
    Forall (about (w_id s)) its ->
    forall c', n_client c' = n_client c -> n_max_bidi c' = n_max_bidi c -> n_max_uni c' = n_max_uni c ->
      n_max c' = n_max c -> n_data_sent c' = n_data_sent c + n -> n_next c' = n_next c -> incl (n_out c') (n_out c) ->
      n_streams c' = n_streams (w_put c s') -> effect c s now c' its).
  { intros s' n its' E1 E2 E3 E5 c1 C1 C2 C3 C4 C5 C6 C7 C8.
    assert (LL : forall i, w_lookup c1 i = w_lookup (w_put c s') i) by (intro i; unfold w_lookup; rewrite C8; reflexivity).
    assert (Ls : w_lookup c1 (w_id s) = Some s') by (rewrite LL, lookup_put, E1, N.eqb_refl, L; reflexivity).
    constructor; try assumption; [lia | | eauto].
    intros i Hi. rewrite LL, lookup_put, E1. destruct (N.eqb_spec (w_id s) i); [congruence | reflexivity]. }
  assert (Put0 : forall s' its, w_id s' = w_id s -> w_prio s' = w_prio s ->
    (w_fin_sent s' = false -> w_fin_sent s = false /\ w_last s' = (if carries (w_id s) its then now else w_last s)) ->
    Forall (about (w_id s)) its -> effect c s now (w_put c s') its).
  { intros s' its' E1 E2 E3 E4. apply (Put s' 0); try assumption; try reflexivity; [| apply incl_refl]. cbn. lia. }
  destruct (w_rst_sent s) eqn:Er; [intro H; injection H as <- <- <- <-; exact Same |].
  destruct (w_rst_req s) eqn:Eq.
  { destruct (reset_writer _ _ _ _) as [bb |]; [| intro H; injection H as <- <- <- <-; exact Same].
    cbv zeta. intro H. injection H as <- <- <- <-. apply Put0; try reflexivity; [discriminate | repeat constructor]. }
  destruct (w_stop_req s && negb (w_stop_sent s)) eqn:Es.
  { destruct (w_rcv_end s).
    { intro H. injection H as <- <- <- <-. apply Put0; try reflexivity; [cbn; auto | constructor]. }
    destruct (stop_writer _ _ _); intro H; injection H as <- <- <- <-; [| exact Same].
    apply Put0; try reflexivity; [cbn; auto | repeat constructor]. }
  destruct (negb (w_active s) && negb (queue_ready s) && (negb (w_fin_req s) || w_fin_sent s)).
  { intro H. injection H as <- <- <- <-. exact Same. }
  destruct (stream_frame_header _ _ _) as [hdr |]; [| intro H; injection H as <- <- <- <-; exact Same].
  destruct (w_active s && match w_queue s with [] => true | _ :: _ => false end && negb (w_fin_req s)) eqn:Eact.
  - unfold format_active. cbv zeta. destruct r as [| | d fin still]; [discriminate | |].
    { intro H. injection H as <- <- <- <-. apply Put0; try reflexivity; [cbn; auto | constructor]. }
    destruct (_ <? _).
    { intro H. injection H as <- <- <- <-. apply Put0; try reflexivity; [cbn; auto | constructor]. }
    destruct ((blen d =? 0) && negb fin) eqn:Ez.
    { intro H. injection H as <- <- <- <-. apply Put0; try reflexivity; [cbn; auto | constructor]. }
    destruct (_ <? _); [discriminate |].
    destruct fin; intro H; injection H as <- <- <- <-.
    + set (s2 := w_set_fin (w_set_data s (w_sent s + blen d) (w_queue s) now) false true true).
      apply (Put s2 (blen d)); try reflexivity; [discriminate | repeat constructor |]. apply incl_filter.
    + set (s2 := w_set_fin (w_set_data s (w_sent s + blen d) (w_queue s) now) still (w_fin_req s) (w_fin_sent s)).
      apply (Put s2 (blen d)); try reflexivity; [| repeat constructor | apply incl_refl].
      rewrite andb_true_r in Ez. apply N.eqb_neq in Ez. intro F. split; [exact F |]. cbn [carries existsb app w_last s2 w_set_fin w_set_data].
      rewrite N.eqb_refl. assert (Q : (0 <? blen d) = true) by (apply N.ltb_lt; lia). rewrite Q. reflexivity.
  - unfold format_queued. cbv zeta. destruct (_ <? _); [discriminate |].
    set (len := if allowed_space c s (room - blen hdr) <=? _ then _ else _).
    set (d := match w_queue s with [] => [] | (b, o) :: _ => firstn (N.to_nat len) (skipn (N.to_nat o) b) end).
    assert (Ld : blen d = len).
    { unfold d, len. destruct (w_queue s) as [| [d0 o0] q0].
      - destruct (N.leb_spec (allowed_space c s (room - blen hdr)) 0); cbn; [lia | reflexivity].
      - set (al := allowed_space c s (room - blen hdr)). clearbody al. unfold blen.
        rewrite firstn_length, skipn_length. destruct (N.leb_spec al (N.of_nat (length d0) - o0)); lia. }
    set (q := if 0 <? len then _ else _). set (fin := match q with [] => w_fin_req s | _ :: _ => false end).
    set (s2 := w_set_fin _ _ _ _).
    assert (Q : forall fin its, its = [IStream (w_id s) (w_sent s) fin d] \/ (its = [] /\ len = 0) ->
       effect c s now (n_add_sent (w_put c s2) len) its).
    { intros fn its' Hits. apply (Put s2 len); try reflexivity; try apply incl_refl.
      - unfold s2. destruct (0 <? len); reflexivity.
      - unfold s2. destruct (0 <? len); reflexivity.
      - intro F. assert (F' : w_fin_sent s = false).
        { unfold s2 in F. destruct (0 <? len); cbn [w_fin_sent w_set_fin w_set_data] in F; apply orb_false_iff in F; tauto. }
        split; [exact F' |]. unfold s2. cbn [w_last w_set_fin].
        destruct Hits as [-> | [-> Z]].
        + cbn [carries existsb]. rewrite N.eqb_refl, Ld. destruct (0 <? len); reflexivity.
        + rewrite Z. reflexivity.
      - destruct Hits as [-> | [-> _]]; repeat constructor. }
    destruct q as [| n0 q'].
    + intro H. injection H as <- <- <- <-. eapply Q. left. reflexivity.
    + destruct (N.eqb_spec len 0) as [Z | Z]; intro H; injection H as <- <- <- <-;
        [apply (Q false); right; auto | eapply Q; left; reflexivity].
Qed.

Lemma eligible_mono c c' t : n_client c' = n_client c -> n_max_bidi c' = n_max_bidi c -> n_max_uni c' = n_max_uni c ->
  n_max c' = n_max c -> n_data_sent c <= n_data_sent c' -> eligible c' t = true -> eligible c t = true.
Proof.
  intros E1 E2 E3 E4 E5. unfold eligible, has_data, above_limit. rewrite E1, E2, E3, E4.
  destruct (urgent t); [auto |]. cbn [orb]. rewrite !andb_true_iff. rewrite !N.ltb_lt. intuition lia.
Qed.

Definition done_above (c : snd_cnx) (its : list item) : Prop :=
  forall x i s, In x its -> about i x -> w_lookup c i = Some s ->
  forall j t, In j (n_out c) -> w_lookup c j = Some t -> w_prio t < w_prio s -> eligible c t = false.

Lemma ahead_prio s t : ahead s t -> w_prio s <= w_prio t.
Proof. intros [H | [H _]]; lia. Qed.

Definition best_of (c : snd_cnx) (st : option wstream) : Prop :=
  forall s, st = Some s -> w_lookup c (w_id s) = Some s /\ eligible c s = true /\
    forall i t, In i (n_out c) -> w_lookup c i = Some t -> eligible c t = true -> ahead s t.

Lemma done_format c s room now r c' b its0 its asked :
  w_lookup c (w_id s) = Some s -> eligible c s = true ->
  (forall i t, In i (n_out c) -> w_lookup c i = Some t -> eligible c t = true -> ahead s t) ->
  format_stream c s room now r = FOk c' b its asked -> done_above c its0 -> done_above c' (its0 ++ its).
Proof.
  intros L Es Best F D. destruct (format_effect _ _ _ _ _ _ _ _ _ L F) as [C1 C2 C3 C4 C5 C6 C7 C8 C9 C10].
  destruct C9 as (s' & Ls' & Ps' & _).
  assert (Mono : forall t, eligible c' t = true -> eligible c t = true) by (intro t; apply eligible_mono; assumption).
  intros x i y Hx Ha Ly j t Hj Lt Hp. destruct (eligible c' t) eqn:Et; [| reflexivity]. exfalso.
  apply in_app_iff in Hx.
  assert (Old : forall t0, w_lookup c j = Some t0 -> w_prio t0 = w_prio t -> eligible c t0 = true -> False).
  { intros t0 L0 P0 E0.
    assert (Hi : exists y0, w_lookup c i = Some y0 /\ w_prio y0 = w_prio y).
    { destruct (N.eq_dec i (w_id s)) as [-> | Q].
      - exists s. split; [exact L |]. congruence.
      - exists y. rewrite <- C8 by exact Q. auto. }
    destruct Hi as (y0 & Ly0 & Py0). destruct Hx as [Hx | Hx].
    - assert (E := D x i y0 Hx Ha Ly0 j t0 (C6 j Hj) L0). rewrite E in E0; [discriminate | lia].
    - rewrite Forall_forall in C10. specialize (C10 x Hx).
      assert (i = w_id s) by (unfold about in *; congruence). subst i. rewrite L in Ly0. apply some_inj in Ly0. subst y0.
      assert (A := ahead_prio _ _ (Best j t0 (C6 j Hj) L0 E0)). lia. }
  destruct (N.eq_dec j (w_id s)) as [-> | Q].
  - rewrite Ls' in Lt. apply some_inj in Lt. subst t. apply (Old s); [exact L | auto | exact Es].
  - apply (Old t); [rewrite <- C8 by exact Q; exact Lt | reflexivity | apply Mono, Et].
Qed.

Lemma same_out_done c c' its : same_but_out c c' -> incl (n_out c') (n_out c) -> done_above c its -> done_above c' its.
Proof.
  intros [out ->] I D x i s Hx Ha L j t Hj Lt Hp.
  change (eligible c t = false). exact (D x i s Hx Ha L j t (I j Hj) Lt Hp).
Qed.

Lemma find_ready_best_of c c' o : srt c -> find_ready c = (c', o) -> best_of c' o.
Proof.
  intros S F. assert (I := find_ready_out _ _ _ F). destruct (find_ready_spec _ _ _ F) as [[out E] _].
  apply find_ready_best in F; [| exact S]. intros s ->. destruct F as (F1 & F2 & F3 & F4). subst c'.
  split; [exact F2 |]. split; [exact F3 |]. intros i t Hi. apply F4, I, Hi.
Qed.

Lemma fill_loop_done now prio app fuel : forall c st pos bytes its asks c' bytes' its' ok,
  base c -> srt c -> best_of c st -> done_above c its ->
  fill_loop fuel c st pos bytes its asks now prio app = LDone c' bytes' its' ok -> done_above c' its'.
Proof.
  induction fuel as [| fuel IH]; intros c st pos bytes its asks c' bytes' its' ok B S Hc D; [discriminate |].
  destruct pos as [room |]; [| intro H; apply none_not_done in H; destruct H].
  cbn [fill_loop]. cbv zeta.
  assert (Fin : LDone c bytes its true = LDone c' bytes' its' ok -> done_above c' its').
  { intro H. injection H as <- _ <- _. exact D. }
  destruct st as [s |]; [| exact Fin].
  destruct (_ && _); [| exact Fin].
  destruct (Hc s eq_refl) as (L & Es & Best).
  destruct (format_stream c s room now (app asks)) as [| c1 b its1 asked | c1 asked |] eqn:Ef.
  - destruct (find_ready c). intro H. apply none_not_done in H. destruct H.
  - assert (D1 := done_format _ _ _ _ _ _ _ _ _ _ L Es Best Ef D).
    destruct (good_prims _ _ _ _ (ps_format false _ _ _ _ _ _ _ _ _ L Ef) (conj B S)) as [B1 S1].
    destruct (find_ready c1) as [c2 st2] eqn:Er. destruct (find_ready_spec _ _ _ Er) as [F1 _].
    destruct (good_prims _ _ _ _ (ps_find_ready false false _ _ _ Er) (conj B1 S1)) as [B2 S2].
    assert (D2 : done_above c2 (its ++ its1)) by (eapply same_out_done; [exact F1 | eapply find_ready_out, Er | exact D1]).
    assert (Hb := find_ready_best_of _ _ _ S1 Er).
    destruct st2 as [s2 |].
    + destruct (_ <=? 17).
      { intro H. injection H as <- _ <- _. exact D2. }
      apply IH; assumption.
    + apply IH; assumption.
  - intro H. injection H as <- _ <- _. apply format_err_same in Ef. subst c1. exact D.
  - discriminate.
Qed.

Lemma item_about x i : item_id x = Some i -> about i x.
Proof. unfold about. destruct x; cbn; congruence. Qed.

Lemma packet_priority cl p evs c log fuel room now prio app c' its x i s j t :
  snd_run (snd0 cl p) evs = Some (c, log) -> snd_step c (SFill fuel room now prio app) = Some (c', its) ->
  In x its -> item_id x = Some i -> w_lookup c' i = Some s -> In j (n_out c') -> w_lookup c' j = Some t ->
  w_prio t < w_prio s -> ~ sendable c' t.
Proof.
  intros R E Hx Hi Ls Hj Lt Hp St. apply eligible_iff in St. cbn [snd_step] in E.
  destruct (fill fuel c room now prio app) as [c1 b1 i1 ok1 | | |] eqn:Ef; try discriminate. inv_pair E.
  destruct (reach_good _ _ _ _ _ R) as [B S]. unfold fill in Ef. destruct (find_ready c) as [c2 st] eqn:Er.
  destruct (good_prims _ _ _ _ (ps_find_ready false false _ _ _ Er) (conj B S)) as [B2 S2].
  assert (D : done_above c' its).
  { eapply (fill_loop_done _ _ _ _ c2); [exact B2 | exact S2 | exact (find_ready_best_of _ _ _ S Er) | | exact Ef].
    intros y ? ? []. }
  assert (Q := D x i s Hx (item_about _ _ Hi) Ls j t Hj Lt Hp). congruence.
Qed.
