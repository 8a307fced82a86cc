(** The streams of the peer: any cut into pieces. *)
From Verif Require Import Base Tac Mem Mem_proofs Varint_spec Varint_model Varint_proofs Qpack_model H3_model H3_spec
  H3_proofs H3b_proofs H3c_proofs Ctl_model Ctl_spec Ctl_proofs.

(** ** Settings *)

Lemma told_nil : forall st, told_by [] st (se_received st) = st.
Proof. intros []; reflexivity. Qed.

Lemma told_cons : forall k v ps st r, told_by ((k, v) :: ps) st r = told_by ps (set_one st k v) r.
Proof.
  intros k v ps st r. unfold told_by, set_one. cbn [map fst snd last_of].
  destruct (k =? 1) eqn:K1.
  { replace (k =? 3329323114) with false by lia. replace (k =? 7) with false by lia.
    replace (k =? 8) with false by lia. replace (k =? 51) with false by lia. reflexivity. }
  destruct (k =? 7) eqn:K7.
  { replace (k =? 3329323114) with false by lia.
    replace (k =? 8) with false by lia. replace (k =? 51) with false by lia. reflexivity. }
  destruct (k =? 8) eqn:K8.
  { replace (k =? 3329323114) with false by lia. replace (k =? 51) with false by lia. reflexivity. }
  destruct (k =? 51) eqn:K51.
  { replace (k =? 3329323114) with false by lia. reflexivity. }
  destruct (k =? 3329323114) eqn:K6; reflexivity.
Qed.

Lemma set_one_received : forall st k v, se_received (set_one st k v) = se_received st.
Proof. intros st k v. unfold set_one. repeat match goal with |- context [if ?c then _ else _] => destruct c end; reflexivity. Qed.

Lemma decode_o : forall l, match frames_varint_decode l with
  | Some x => frames_varint_decode_o l = Ok x
  | None => frames_varint_decode_o l = Fail
  end.
Proof.
  intro l. pose proof (frames_varint_decode_o_not_UB l) as U. unfold frames_varint_decode.
  destruct (frames_varint_decode_o l); [reflexivity | reflexivity | congruence].
Qed.

Lemma varint_ok : forall v a, is_varint v a -> bytes_ok a.
Proof. intros v a (? & _ & _ & _ & _ & O). exact O. Qed.

Lemma varint_pos : forall v a, is_varint v a -> (0 < length a)%nat.
Proof. intros v a V. destruct (varint_first v a V) as (b & q & -> & _). cbn [length]. lia. Qed.

Lemma pairs_ok : forall ps l, pairs ps l -> bytes_ok l.
Proof.
  intros ps l H. induction H as [| k v a b ps l A B P IH]; [constructor |].
  apply ok_app. split; [exact (varint_ok _ _ A) |]. apply ok_app. split; [exact (varint_ok _ _ B) | exact IH].
Qed.

Lemma components_pairs : forall ps l, pairs ps l -> forall fuel st, (length l < fuel)%nat ->
  components fuel l st = Ret (true, told_by ps st (se_received st)).
Proof.
  intros ps l H. induction H as [| k v a b ps l A B P IH]; intros fuel st F; destruct fuel as [| f]; try (cbn [length] in F; lia).
  - cbn [components]. rewrite told_nil. reflexivity.
  - pose proof (varint_pos _ _ A) as Pa. rewrite !app_length in F.
    cbn [components]. destruct (a ++ b ++ l) as [| c w] eqn:E.
    { apply (f_equal (@length N)) in E. rewrite app_length in E. cbn [length] in E. lia. }
    rewrite <- E. clear E c w.
    pose proof (decode_o (a ++ b ++ l)) as D. rewrite (is_varint_decode k a (b ++ l) A) in D.
    2:{ apply ok_app. split; [exact (varint_ok _ _ B) | exact (pairs_ok _ _ P)]. }
    rewrite D. pose proof (decode_o (b ++ l)) as D2. rewrite (is_varint_decode v b l B (pairs_ok _ _ P)) in D2. rewrite D2.
    rewrite IH by lia. rewrite told_cons, set_one_received. reflexivity.
Qed.

Lemma components_some : forall fuel l st, bytes_ok l -> (length l < fuel)%nat ->
  exists ok st', components fuel l st = Ret (ok, st') /\ se_received st' = se_received st /\ (ok = true -> exists ps, pairs ps l).
Proof.
  induction fuel as [| f IH]; intros l st O F; [lia |]. cbn [components]. destruct l as [| c w] eqn:E.
  { exists true, st. split; [reflexivity |]. split; [reflexivity |]. intros _. exists []. constructor. }
  rewrite <- E in *. clear E c w.
  pose proof (decode_o l) as D. destruct (frames_varint_decode l) as [[k l1] |] eqn:E1; rewrite D;
    [| exists false, st; split; [reflexivity | split; [reflexivity | discriminate]]].
  apply varint_decode_iff in E1; [| exact O]. destruct E1 as (a & -> & A). apply ok_app in O. destruct O as [_ O].
  pose proof (decode_o l1) as D2. destruct (frames_varint_decode l1) as [[v l2] |] eqn:E2; rewrite D2;
    [| exists false, st; split; [reflexivity | split; [reflexivity | discriminate]]].
  apply varint_decode_iff in E2; [| exact O]. destruct E2 as (b & -> & B). apply ok_app in O. destruct O as [_ O].
  rewrite !app_length in F. pose proof (varint_pos _ _ A).
  destruct (IH l2 (set_one st k v) O ltac:(lia)) as (ok & st' & C & R & P). exists ok, st'.
  split; [exact C |]. split; [rewrite R; apply set_one_received |]. intro K. destruct (P K) as (ps & Ps). exists ((k, v) :: ps). constructor; assumption.
Qed.

Lemma finish_pairs : forall ps x st, pairs ps x -> x <> [] -> ufinish st 4 x = MRun (told_by ps st true) (UT []).
Proof.
  intros ps x st P NE. unfold ufinish. cbn [N.eqb Pos.eqb]. destruct x as [| c w] eqn:E; [congruence |]. rewrite <- E in *.
  rewrite (components_pairs ps x P) by lia. reflexivity.
Qed.

Lemma finish_bad : forall x st, bytes_ok x -> (x = [] \/ forall ps, ~ pairs ps x) ->
  exists st', ufinish st 4 x = MFail 265 st' /\ se_received st' = se_received st.
Proof.
  intros x st O H. unfold ufinish. cbn [N.eqb Pos.eqb]. destruct x as [| c w] eqn:E.
  - exists st. split; reflexivity.
  - rewrite <- E in *. destruct (components_some (S (length x)) x st O ltac:(lia)) as (ok & st' & C & R & P).
    rewrite C. destruct ok.
    + exfalso. destruct (P eq_refl) as (ps & Ps). destruct H as [-> | H]; [discriminate | exact (H ps Ps)].
    + exists st'. split; [reflexivity | exact R].
Qed.

Lemma finish_defined : forall st ty x, bytes_ok x -> ufinish st ty x <> MUndef.
Proof.
  intros st ty x O. unfold ufinish. destruct (ty =? 4); [| discriminate]. destruct x as [| c w] eqn:E; [discriminate |]. rewrite <- E in *.
  destruct (components_some (S (length x)) x st O ltac:(lia)) as (ok & st' & -> & _). destruct ok; discriminate.
Qed.

(** ** The machine is defined *)
Section Pieces.
Variable known : N -> bool.

Definition pos_ok (q : upos) : Prop := match q with UB _ _ x => bytes_ok x | _ => True end.

Lemma step_ok : forall b st q, is_byte b -> pos_ok q ->
  match ustep known b st q with MRun _ q' => pos_ok q' | MFail _ _ => True | MUndef => False end.
Proof.
  intros b st q B P.
  assert (Fin : forall ty x, bytes_ok x -> match ufinish st ty x with MRun _ q' => pos_ok q' | MFail _ _ => True | MUndef => False end).
  { intros ty x O. pose proof (finish_defined st ty x O) as D. unfold ufinish in *. destruct (ty =? 4); [| exact I].
    destruct x as [| c w]; [exact I |]. destruct (components _ _ _) as [| | [[|] st']]; try exact I; congruence. }
  destruct q as [p | p | ty p | ty n z | p | id z |]; cbn [ustep].
  - destruct (num (p ++ [b])) as [v |]; [| exact I]. unfold start_done. destruct (v =? 0); [exact I |]. destruct (v =? 84); exact I.
  - destruct (num (p ++ [b])) as [v |]; [| exact I]. unfold type_done. destruct (type_bad (se_received st) v); exact I.
  - destruct (num (p ++ [b])) as [v |]; [| exact I]. unfold length_done. destruct ((ty =? 4) && (65536 <? v)); [exact I |].
    destruct (v =? 0); [apply Fin; constructor | constructor].
  - assert (O : bytes_ok (z ++ [b])) by (apply ok_app; split; [exact P | constructor; [exact B | constructor]]).
    destruct (n <=? blen (z ++ [b])); [apply Fin; exact O | exact O].
  - destruct (num (p ++ [b])) as [v |]; [| exact I]. unfold session_done. destruct (known v); exact I.
  - exact I.
  - exact I.
Qed.

Lemma run_defined : forall l st q, bytes_ok l -> pos_ok q -> urun known l st q <> MUndef.
Proof.
  induction l as [| b l IH]; intros st q O P; cbn [urun]; [discriminate |]. inversion O; subst.
  pose proof (step_ok b st q ltac:(assumption) P) as H.
  destruct (ustep known b st q) as [st' q' | c st' |]; [apply IH; assumption | discriminate | exact (False_ind _ H)].
Qed.

(** ** Pieces *)

Definition qdata (q : upos) : list N := match q with UW _ x => x | _ => [] end.
Definition qsession (q : upos) : option N := match q with UW id _ => Some id | _ => None end.

(** The state of a web transport stream, [t] being its type. *)
Definition srel (t : N) (s : ustate) (q : upos) : Prop :=
  u_stream s = t /\ u_ignored s = false /\
  match q with
  | UI p => u_control s = max64 /\ buffer s p
  | UW id _ => u_control s = id /\ id < two62
  | _ => False
  end.

Definition events (l : option (list N)) (e : N) : list uev :=
  match l with None => [UStop e] | Some [] => [] | Some l' => [UData l'] end.

(** What a piece does. *)
Definition piece_ok (rel : ustate -> settings -> upos -> Prop) (l : list N) (st : settings) (q : upos) (o : outcome cres) : Prop :=
  match urun known l st q with
  | MRun st' q' => exists y s' e, o = Ret (mk_c (Some y) s' st' e) /\ rel s' st' q' /\ qdata q' = qdata q ++ y
  | MFail c st' => exists s', o = Ret (mk_c None s' st' c)
  | MUndef => False
  end.

Lemma piece_app : forall rel x y st q st' q' o, urun known x st q = MRun st' q' -> qdata q' = qdata q -> piece_ok rel y st' q' o ->
  piece_ok rel (x ++ y) st q o.
Proof.
  intros rel x y st q st' q' o H D A. unfold piece_ok in *. rewrite urun_app, H. cbn [uthen].
  destruct (urun known y st' q'); [| exact A | exact A]. rewrite <- D. exact A.
Qed.

Lemma piece_fail : forall rel x y st q c st' s, urun known x st q = MFail c st' -> piece_ok rel (x ++ y) st q (Ret (mk_c None s st' c)).
Proof. intros rel x y st q c st' s H. unfold piece_ok. rewrite urun_app, H. cbn [uthen]. exists s. reflexivity. Qed.

Lemma run_data : forall l st id x, urun known l st (UW id x) = MRun st (UW id (x ++ l)).
Proof.
  induction l as [| b l IH]; intros st id x; cbn [urun ustep]; [rewrite app_nil_r; reflexivity |].
  rewrite IH, <- app_assoc. reflexivity.
Qed.

Lemma run_ignored : forall l st, urun known l st UX = MRun st UX.
Proof. induction l as [| b l IH]; intro st; cbn [urun ustep]; [reflexivity | apply IH]. Qed.

Lemma session_ok : forall t l s st q, srel t s q -> bytes_ok l ->
  piece_ok (fun s' _ q' => srel t s' q') l st q (parse_session known l s st).
Proof.
  intros t l s st q (T & Ig & R) Ol. destruct q as [p | p | ty p | ty n z | p | id z |]; try contradiction.
  - destruct R as [C Bu]. unfold parse_session. replace (u_control s =? max64) with true by (rewrite C; reflexivity).
    destruct l as [| b0 l0] eqn:El0.
    + cbn [from_stream bind]. cbv zeta. rewrite C, N.eqb_refl. unfold piece_ok. cbn [urun]. eexists [], _, 0. split; [reflexivity |].
      split; [| reflexivity]. split; [exact T |]. split; [exact Ig |]. split; [reflexivity | exact Bu].
    + rewrite <- El0 in *. assert (NE : l <> []) by (rewrite El0; discriminate). clear El0 b0 l0.
      destruct (buffer_read known s p l (u_control s) Bu NE Ol) as (x & y & h & n0 & El & NEx & Opx & Fs & H).
      rewrite Fs. cbn [bind]. cbv zeta.
      pose proof (urun_number known UI _ (pos_session known) x p st Opx NEx) as Un.
      destruct (num (p ++ x)) as [id |] eqn:Nn.
      * destruct H as [V B']. specialize (Un V). pose proof (varint_bound id _ V) as Bt. rewrite (not_max known) by exact Bt.
        unfold session_done in Un. rewrite El. destruct (known id) eqn:K.
        -- apply (piece_app _ x y st _ st (UW id []) _ Un); [reflexivity |].
           unfold piece_ok. rewrite run_data. eexists y, _, 0. split; [reflexivity |]. split; [| reflexivity].
           split; [exact T |]. split; [exact Ig |]. split; [reflexivity | exact Bt].
        -- apply piece_fail. exact Un.
      * destruct H as [-> B']. rewrite C, N.eqb_refl. rewrite El, app_nil_r. unfold piece_ok. rewrite Un.
        eexists [], _, 0. split; [reflexivity |]. split; [| reflexivity].
        split; [exact T |]. split; [exact Ig |]. split; [reflexivity | apply B'].
  - destruct R as [C Bt]. unfold parse_session. rewrite C, (not_max known) by exact Bt.
    unfold piece_ok. rewrite run_data. exists l, s, 0. split; [reflexivity |]. split; [| reflexivity].
    split; [exact T |]. split; [exact Ig |]. split; [exact C | exact Bt].
Qed.

Lemma srel_urel : forall s st q, srel 84 s q <-> urel s st q /\ match q with UI _ | UW _ _ => True | _ => False end.
Proof.
  intros s st q. destruct q as [p | p | ty p | ty n z | p | id z |]; cbn [urel]; unfold srel; try tauto.
  - split.
    + intros (T & Ig & C & B). repeat split; try assumption. congruence.
    + intros ((_ & T & C & Ig & B) & _). repeat split; assumption.
  - split.
    + intros (T & Ig & C & B). repeat split; try assumption. congruence.
    + intros ((_ & T & C & B & Ig) & _). repeat split; assumption.
Qed.

Definition after (l : list N) (s : ustate) (st : settings) : outcome cres :=
  if u_stream s =? 0 then parse_control (S (List.length l)) l s st
  else if u_stream s =? 84 then parse_session known l s st
  else Ret (mk_c (Some []) s st 0).

Lemma qdata_ctl : forall q, uctl q = true -> qdata q = [].
Proof. intros [] H; try reflexivity; discriminate. Qed.

Lemma session_rel_ok : forall l s st q, srel 84 s q -> bytes_ok l -> piece_ok urel l st q (parse_session known l s st).
Proof.
  intros l s st q R Ol. pose proof (session_ok 84 l s st q R Ol) as H. unfold piece_ok in *.
  destruct (urun known l st q) as [st' q' | c st' |]; [| exact H | exact H].
  destruct H as (y & s' & e & E & Sr & D). exists y, s', e. split; [exact E |]. split; [| exact D].
  apply (srel_urel s' st' q') in Sr. tauto.
Qed.

Lemma after_ok : forall l s st q, urel s st q -> (forall p, q <> US p) -> pos_ok q -> bytes_ok l -> blen l < two62 ->
  piece_ok urel l st q (after l s st).
Proof.
  intros l s st q R NS P Ol Bl. unfold after.
  assert (Ctl : uctl q = true -> u_stream s = 0 -> piece_ok urel l st q (parse_control (S (length l)) l s st)).
  { intros U _. pose proof (all_go known (S (length l)) l s st q U R Ol Bl ltac:(lia)) as H.
    pose proof (run_defined l st q Ol P) as D. unfold piece_ok, agrees in *.
    destruct (urun known l st q) as [st' q' | c st' |]; [| exact H | congruence].
    destruct H as (s' & e & E & Rl & U'). exists [], s', e. split; [exact E |]. split; [exact Rl |].
    rewrite (qdata_ctl q U), (qdata_ctl q' U'). reflexivity. }
  destruct q as [p | p | ty p | ty n z | p | id z |].
  - exfalso. exact (NS p eq_refl).
  - pose proof R as (_ & T & _). rewrite T. exact (Ctl eq_refl T).
  - pose proof R as (_ & T & _). rewrite T. exact (Ctl eq_refl T).
  - pose proof R as (_ & T & _). rewrite T. exact (Ctl eq_refl T).
  - pose proof R as (_ & T & _). rewrite T. apply session_rel_ok; [apply (srel_urel s st); split; [exact R | exact I] | exact Ol].
  - pose proof R as (_ & T & _). rewrite T. apply session_rel_ok; [apply (srel_urel s st); split; [exact R | exact I] | exact Ol].
  - pose proof R as (_ & _ & T0 & T84 & _). replace (u_stream s =? 0) with false by lia. replace (u_stream s =? 84) with false by lia.
    unfold piece_ok. rewrite run_ignored. exists [], s, 0. split; [reflexivity |]. split; [exact R | reflexivity].
Qed.

Lemma unidir_ok : forall l s st q, urel s st q -> pos_ok q -> bytes_ok l -> blen l < two62 ->
  piece_ok urel l st q (parse_unidir known l s st).
Proof.
  intros l s st q R P Ol Bl.
  change (parse_unidir known l s st) with
    (if u_stream s =? max64 then
       let! (l, v, h, n) := from_stream l (u_stream s) (u_hdr s) (u_hread s) in
       let s := set_stream (set_buf s h n) v in
       if v =? max64 then Ret (mk_c (Some l) s st 0)
       else after l (if v =? 0 then reset_control s else s) st
     else after l s st).
  assert (Other : u_stream s <> max64 -> (forall p, q <> US p) -> piece_ok urel l st q (if u_stream s =? max64 then
       let! (l, v, h, n) := from_stream l (u_stream s) (u_hdr s) (u_hread s) in
       let s := set_stream (set_buf s h n) v in
       if v =? max64 then Ret (mk_c (Some l) s st 0)
       else after l (if v =? 0 then reset_control s else s) st
     else after l s st)).
  { intros U NS. replace (u_stream s =? max64) with false by lia. apply after_ok; assumption. }
  destruct q as [p | p | ty p | ty n z | p | id z |];
    try (apply Other; [pose proof R as (_ & T & _); unfold max64; rewrite ?T; try lia; exact T | discriminate]).
  clear Other. destruct R as (Ig0 & T & C & Ig & Bu).
  replace (u_stream s =? max64) with true by (rewrite T; reflexivity).
  destruct l as [| b0 l0] eqn:El0.
  - cbn [from_stream bind]. cbv zeta. rewrite T, N.eqb_refl. unfold piece_ok. cbn [urun]. eexists [], _, 0. split; [reflexivity |].
    split; [| reflexivity]. split; [exact Ig0 |]. split; [reflexivity |]. split; [exact C |]. split; [exact Ig | exact Bu].
  - rewrite <- El0 in *. assert (NE : l <> []) by (rewrite El0; discriminate). clear El0 b0 l0.
    destruct (buffer_read known s p l (u_stream s) Bu NE Ol) as (x & y & h & n0 & El & NEx & Opx & Fs & H).
    rewrite Fs. cbn [bind]. cbv zeta.
    pose proof (urun_number known US _ (pos_start known) x p st Opx NEx) as Un.
    assert (Oy : bytes_ok y) by (rewrite El in Ol; apply ok_app in Ol; tauto).
    assert (By : blen y < two62) by (apply (blen_le x y l); [symmetry; exact El | exact Bl]).
    destruct (num (p ++ x)) as [t |] eqn:Nn.
    + destruct H as [V B']. specialize (Un V). pose proof (varint_bound t _ V) as Bt. rewrite (not_max known) by exact Bt.
      unfold start_done in Un. rewrite El.
      apply (piece_app _ x y st _ st _ _ Un); [destruct (t =? 0); [reflexivity |]; destruct (t =? 84); reflexivity |].
      destruct (t =? 0) eqn:T0.
      * apply after_ok; [| discriminate | exact I | exact Oy | exact By]. apply reset_rel; [cbn; lia | exact C | apply B' | exact Ig0].
      * destruct (t =? 84) eqn:T84.
        -- apply after_ok; [| discriminate | exact I | exact Oy | exact By].
           split; [exact Ig0 |]. split; [cbn; lia |]. split; [exact C |]. split; [exact Ig | apply B'].
        -- apply after_ok; [| discriminate | exact I | exact Oy | exact By].
           split; [exact Ig0 |]. split; [cbn; unfold max64, two62 in *; lia |]. split; [cbn; lia |]. split; [cbn; lia |]. split; [exact C | exact Ig].
    + destruct H as [-> B']. rewrite T, N.eqb_refl. rewrite El, app_nil_r. unfold piece_ok. rewrite Un.
      eexists [], _, 0. split; [reflexivity |]. split; [| reflexivity].
      split; [exact Ig0 |]. split; [reflexivity |]. split; [exact C |]. split; [exact Ig | apply B'].
Qed.

Lemma events_data : forall y e, udata (events (Some y) e) = y /\ stopped (events (Some y) e) = false /\ ustops (events (Some y) e) = [].
Proof. intros [| b y] e; cbn; rewrite ?app_nil_r; repeat split; reflexivity. Qed.

Lemma remote_events : forall bidir l s st,
  remote_data bidir known l s st =
  (let! r := (if bidir then parse_bidir known l s st else parse_unidir known l s st) in
   Ret (events (k_rest r) (k_error r), k_state r, k_set r)).
Proof.
  intros bidir l s st. unfold remote_data. destruct (if bidir then _ else _) as [| | [rest s' st' e]]; cbn [bind k_rest k_state k_set k_error]; try reflexivity.
  destruct rest as [[| b y] |]; reflexivity.
Qed.

Lemma run_pos : forall l st q st' q', bytes_ok l -> pos_ok q -> urun known l st q = MRun st' q' -> pos_ok q'.
Proof.
  induction l as [| b l IH]; intros st q st' q' O P H; cbn [urun] in H; [injection H as <- <-; exact P |]. inversion O; subst.
  pose proof (step_ok b st q ltac:(assumption) P) as H1.
  destruct (ustep known b st q) as [st1 q1 | c st1 |]; [| discriminate | discriminate]. exact (IH st1 q1 st' q' ltac:(assumption) H1 H).
Qed.

(** Pieces, for a relation that a parser preserves. *)
Lemma pieces_ok : forall (bidir : bool) (rel : ustate -> settings -> upos -> Prop),
  (forall l s st q, rel s st q -> pos_ok q -> bytes_ok l -> blen l < two62 ->
    piece_ok rel l st q (if bidir then parse_bidir known l s st else parse_unidir known l s st)) ->
  forall cs s st q, rel s st q -> pos_ok q -> bytes_ok (concat cs) -> blen (concat cs) < two62 ->
  match urun known (concat cs) st q with
  | MRun st' q' => exists e s', remote_pieces bidir known cs s st = Ret (e, s', st') /\ stopped e = false /\ rel s' st' q' /\ qdata q' = qdata q ++ udata e
  | MFail c st' => exists e s', remote_pieces bidir known cs s st = Ret (e, s', st') /\ stopped e = true /\ ustops e = [c]
  | MUndef => False
  end.
Proof.
  intros bidir rel Hp cs. induction cs as [| c cs IH]; intros s st q R P O B; cbn [concat].
  - cbn [urun remote_pieces]. exists [], s. split; [reflexivity |]. split; [reflexivity |]. split; [exact R | rewrite app_nil_r; reflexivity].
  - cbn [concat] in O, B. apply ok_app in O. destruct O as [Oc Ocs]. rewrite blen_app in B.
    pose proof (Hp c s st q R P Oc ltac:(lia)) as H. rewrite urun_app. cbn [remote_pieces]. rewrite remote_events.
    unfold piece_ok in H. destruct (urun known c st q) as [st' q' | k st' |] eqn:E; cbn [uthen].
    + destruct H as (y & s' & e & -> & R' & D). cbn [bind k_rest k_error k_state k_set].
      destruct (events_data y e) as (E1 & E2 & E3). rewrite E2.
      specialize (IH s' st' q' R' (run_pos _ _ _ _ _ Oc P E) Ocs ltac:(lia)).
      destruct (urun known (concat cs) st' q') as [st2 q2 | k st2 |].
      * destruct IH as (e2 & s2 & -> & S2 & R2 & D2). cbn [bind]. exists (events (Some y) e ++ e2), s2.
        split; [reflexivity |]. split; [unfold stopped in *; rewrite existsb_app, E2, S2; reflexivity |]. split; [exact R2 |].
        unfold udata in *. rewrite flat_map_app, E1, D2, D, app_assoc. reflexivity.
      * destruct IH as (e2 & s2 & -> & S2 & R2). cbn [bind]. exists (events (Some y) e ++ e2), s2.
        split; [reflexivity |]. split; [unfold stopped in *; rewrite existsb_app, S2; apply orb_true_r |].
        unfold ustops in *. rewrite flat_map_app, E3, R2. reflexivity.
      * exact IH.
    + destruct H as (s' & ->). cbn [bind k_rest k_error k_state k_set events stopped existsb orb].
      exists [UStop k], s'. repeat split; reflexivity.
    + exact H.
Qed.

Definition ures_of (r : mres) : uresult :=
  match r with
  | MRun st q => Going (qdata q) (qsession q) st
  | MFail c st => Stopped [c] st
  | MUndef => UBroken
  end.

Lemma urel_session : forall s st q, urel s st q ->
  (if u_control s =? 2 ^ 64 - 1 then None else Some (u_control s)) = qsession q.
Proof.
  intros s st q R. change (2 ^ 64 - 1) with max64.
  destruct q as [p | p | ty p | ty n z | p | id z |]; cbn [qsession];
    try (match type of R with urel _ _ (UX) => idtac | urel _ _ (UW _ _) => fail | _ => idtac end;
         assert (C : u_control s = max64) by (destruct R as (_ & R); tauto); rewrite C, N.eqb_refl; reflexivity).
  destruct R as (_ & _ & C & B & _). rewrite C, (not_max known) by exact B. reflexivity.
Qed.

Lemma start_rel : forall st, urel ustate0 st (US []).
Proof.
  intro st. split; [discriminate |]. split; [reflexivity |]. split; [reflexivity |]. split; [reflexivity |].
  exists (mem_fill 0 hdr_size). repeat split; try reflexivity. apply Forall_forall. intros x X. apply repeat_spec in X. subst x. reflexivity.
Qed.

Lemma unidir_result : forall cs l st, stream cs l ->
  uresult_of (remote_pieces false known cs ustate0 st) = ures_of (urun known l st (US [])).
Proof.
  intros cs l st (<- & O & B).
  pose proof (pieces_ok false urel unidir_ok cs ustate0 st (US []) (start_rel st) I O B) as H.
  destruct (urun known (concat cs) st (US [])) as [st' q' | k st' |]; [| | contradiction].
  - destruct H as (e & s' & -> & S & R & D). cbn [uresult_of ures_of]. rewrite S, (urel_session s' st' q' R), D. reflexivity.
  - destruct H as (e & s' & -> & S & R). cbn [uresult_of ures_of]. rewrite S, R. reflexivity.
Qed.

End Pieces.
