(** Stream scheduling: the output list is always in order. *)
From Coq Require Import Sorting.Sorted.
From Verif Require Import Base Tac Varint_model Stream_model Send_model Send_spec Sched_spec
  Send_proofs Send2_proofs Send3_proofs Send4_proofs Send5_proofs Send7_proofs Sched_proofs.

Definition base (c : snd_cnx) : Prop :=
  NoDup (map w_id (n_streams c)) /\ (forall t, t < 4 -> n_next c t mod 4 = t) /\
  (forall id, n_next c (id mod 4) <= id -> ~ In id (map w_id (n_streams c))).

Definition olt (c : snd_cnx) (i j : N) : Prop := prio_lt (prio_of c i) i (prio_of c j) j = true.
Definition exst (c : snd_cnx) (i : N) : Prop := exists s, w_lookup c i = Some s.
Definition srt (c : snd_cnx) : Prop := StronglySorted (olt c) (n_out c) /\ Forall (exst c) (n_out c).

Lemma prio_lt_iff p i q j : prio_lt p i q j = true <-> p < q \/ (p = q /\ i < j).
Proof. unfold prio_lt. rewrite orb_true_iff, andb_true_iff, !N.ltb_lt, N.eqb_eq. tauto. Qed.
Lemma olt_trans c i j k : olt c i j -> olt c j k -> olt c i k.
Proof. unfold olt. rewrite !prio_lt_iff. lia. Qed.
Lemma olt_irr c i : ~ olt c i i.
Proof. unfold olt. rewrite prio_lt_iff. lia. Qed.
Lemma olt_total c i j : i <> j -> ~ olt c i j -> olt c j i.
Proof. unfold olt. rewrite !prio_lt_iff. lia. Qed.

Section Lists.
  Context {A : Type} (R : A -> A -> Prop).
  Lemma ss_app l1 l2 : StronglySorted R (l1 ++ l2) <->
    StronglySorted R l1 /\ StronglySorted R l2 /\ (forall x y, In x l1 -> In y l2 -> R x y).
  Proof.
    induction l1 as [| a l1 IH]; cbn [app].
    - split; [intro H; split; [constructor |]; split; [exact H | intros x y []] | tauto].
    - split.
      + intro H. inversion H as [| ? ? H1 H2]; subst. apply IH in H1. destruct H1 as (B1 & B2 & B3).
        rewrite Forall_app in H2. destruct H2 as [F1 F2]. split; [constructor; assumption |]. split; [exact B2 |].
        intros x y [<- | Hx] Hy; [rewrite Forall_forall in F2; auto | auto].
      + intros (B1 & B2 & B3). inversion B1 as [| ? ? H1 H2]; subst. constructor.
        * apply IH. split; [exact H1 |]. split; [exact B2 |]. intros x y Hx Hy. apply B3; [right; exact Hx | exact Hy].
        * apply Forall_app. split; [exact H2 |]. apply Forall_forall. intros y Hy. apply B3; [left; reflexivity | exact Hy].
  Qed.
  Lemma ss_one x : StronglySorted R [x].
  Proof. constructor; constructor. Qed.
  Lemma ss_filter (P : A -> bool) l : StronglySorted R l -> StronglySorted R (filter P l).
  Proof.
    induction 1 as [| a l H IH F]; cbn [filter]; [constructor |].
    destruct (P a); [| exact IH]. constructor; [exact IH |]. apply Forall_forall. intros x Hx.
    apply filter_In in Hx. rewrite Forall_forall in F. apply F. tauto.
  Qed.
End Lists.
Lemma ss_ext {A} (R R' : A -> A -> Prop) l : (forall x y, In x l -> In y l -> R x y -> R' x y) ->
  StronglySorted R l -> StronglySorted R' l.
Proof.
  intros H S. induction S as [| a l S IH F]; [constructor |]. constructor.
  - apply IH. intros x y Hx Hy. apply H; right; assumption.
  - rewrite Forall_forall in F |- *. intros x Hx. apply H; [left; reflexivity | right; exact Hx | auto].
Qed.
Lemma ss_nodup c l : StronglySorted (olt c) l -> NoDup l.
Proof.
  induction 1 as [| a l S IH F]; constructor; [| exact IH]. intro H. rewrite Forall_forall in F.
  apply (olt_irr c a), F, H.
Qed.

Lemma in_out_insert_inv c p i l x : In x (out_insert c p i l) -> x = i \/ In x l.
Proof.
  induction l as [| y l IH]; cbn [out_insert]; [intros [<- | []]; auto |].
  destruct (prio_lt _ _ _ _); intros [<- | H]; cbn; auto. destruct (IH H); auto.
Qed.
Lemma in_out_place_inv c p i l x : In x (out_place c p i l) -> x = i \/ In x l.
Proof.
  unfold out_place. destruct (rev l) as [| y r] eqn:E.
  - intros [<- | []]; auto.
  - destruct (prio_lt _ _ _ _); [apply in_out_insert_inv |]. rewrite in_app_iff. cbn. intuition congruence.
Qed.

Lemma ss_insert c i l : ~ In i l -> StronglySorted (olt c) l -> StronglySorted (olt c) (out_insert c (prio_of c i) i l).
Proof.
  intros Hn S. induction S as [| a l S IH F]; cbn [out_insert]; [apply ss_one |].
  destruct (prio_lt (prio_of c i) i (prio_of c a) a) eqn:E.
  - constructor; [constructor; assumption |]. constructor; [exact E |].
    rewrite Forall_forall in F |- *. intros x Hx. eapply olt_trans; [exact E | auto].
  - constructor; [apply IH; intro; apply Hn; right; assumption |].
    rewrite Forall_forall in F |- *. intros x Hx. apply in_out_insert_inv in Hx. destruct Hx as [-> | Hx]; [| auto].
    apply olt_total; [intro; subst; apply Hn; left; reflexivity |]. unfold olt. rewrite E. discriminate.
Qed.
Lemma ss_place c i l : ~ In i l -> StronglySorted (olt c) l -> StronglySorted (olt c) (out_place c (prio_of c i) i l).
Proof.
  intros Hn S. unfold out_place. destruct (rev l) as [| y r] eqn:E; [apply ss_one |].
  assert (El : l = rev r ++ [y]) by (rewrite <- (rev_involutive l), E; reflexivity).
  destruct (prio_lt (prio_of c i) i (prio_of c y) y) eqn:Ep; [apply ss_insert; assumption |].
  assert (Hy : olt c y i).
  { apply olt_total; [| unfold olt; rewrite Ep; discriminate]. intro. subst. apply Hn. rewrite in_app_iff. right. left. reflexivity. }
  apply ss_app. split; [exact S |]. split; [apply ss_one |]. intros a b Ha [<- | []].
  rewrite El in Ha, S. apply in_app_iff in Ha. destruct Ha as [Ha | [<- | []]]; [| exact Hy].
  apply ss_app in S. destruct S as (_ & _ & S). eapply olt_trans; [apply S; [exact Ha | left; reflexivity] | exact Hy].
Qed.

Lemma lookup_some_iff c id : (exists s, w_lookup c id = Some s) <-> In id (map w_id (n_streams c)).
Proof.
  split.
  - intros [s H]. apply lookup_in in H. destruct H as [H <-]. apply in_map, H.
  - intro H. apply in_map_iff in H. destruct H as (s & <- & H). unfold w_lookup.
    destruct (find (fun x => w_id x =? w_id s) (n_streams c)) eqn:E; [eauto |].
    apply (find_none _ _ E) in H. rewrite N.eqb_refl in H. discriminate.
Qed.

(** Same priorities, same streams. *)
Lemma srt_ext c c' : n_out c' = n_out c ->
  (forall i, In i (n_out c) -> exst c i -> exst c' i /\ prio_of c' i = prio_of c i) -> srt c -> srt c'.
Proof.
  intros Eo H [S F]. unfold srt. rewrite Eo. rewrite Forall_forall in F. split.
  - eapply ss_ext; [| exact S]. intros x y Hx Hy. unfold olt.
    destruct (H x Hx (F x Hx)) as [_ ->]. destruct (H y Hy (F y Hy)) as [_ ->]. auto.
  - apply Forall_forall. intros x Hx. apply H; auto.
Qed.

Lemma prio_put c s s' i : w_lookup c (w_id s) = Some s -> w_id s' = w_id s -> w_prio s' = w_prio s ->
  prio_of (w_put c s') i = prio_of c i.
Proof.
  intros L E1 E2. unfold prio_of. rewrite lookup_put, E1. destruct (N.eqb_spec (w_id s) i) as [<- | E]; [| reflexivity].
  rewrite L. exact E2.
Qed.
Lemma exst_put c s i : exst c i -> exst (w_put c s) i.
Proof.
  intros [x H]. unfold exst. rewrite lookup_put. destruct (_ =? _); [rewrite H |]; eauto.
Qed.

Lemma srt_insert c s : w_lookup c (w_id s) = Some s -> srt c -> srt (insert_output c s).
Proof.
  intros L S. unfold insert_output. destruct (is_out c (w_id s)) eqn:Eo; [exact S |].
  destruct (above_limit c (w_id s)); [exact S |].
  assert (Hn : ~ In (w_id s) (n_out c)) by (rewrite <- is_out_in, Eo; discriminate).
  destruct S as [S F]. assert (w_prio s = prio_of c (w_id s)) as -> by (unfold prio_of; rewrite L; reflexivity).
  split; cbn [n_out n_set_streams].
  - exact (ss_place c (w_id s) (n_out c) Hn S).
  - rewrite Forall_forall in F |- *. intros x Hx. apply in_out_place_inv in Hx.
    destruct Hx as [-> | Hx]; [exists s; exact L | exact (F x Hx)].
Qed.

Lemma srt_remove c i : srt c -> srt (remove_output c i).
Proof.
  intros [S F]. split; cbn [remove_output n_out n_set_streams].
  - exact (ss_filter (olt c) _ _ S).
  - rewrite Forall_forall in F |- *. intros x Hx. apply filter_In in Hx. exact (F x (proj1 Hx)).
Qed.

(** A change of priority. *)
Lemma out_prev_split l1 i l2 : ~ In i l1 -> forall prev,
  out_prev (l1 ++ i :: l2) i prev = match rev l1 with [] => prev | y :: _ => Some y end.
Proof.
  induction l1 as [| a l1 IH]; intros Hn prev; cbn [app out_prev].
  - rewrite N.eqb_refl. reflexivity.
  - destruct (N.eqb_spec a i) as [-> | E]; [destruct Hn; left; reflexivity |].
    rewrite IH by (intro; apply Hn; right; assumption). cbn [rev]. destruct (rev l1); reflexivity.
Qed.

Lemma srt_prio c s p : w_lookup c (w_id s) = Some s -> srt c ->
  srt (reorder_output (w_put c (w_set_prio s p)) (w_set_prio s p)).
Proof.
  intros L S. set (s' := w_set_prio s p). set (c1 := w_put c s').
  assert (L1 : w_lookup c1 (w_id s') = Some s').
  { unfold c1. rewrite lookup_put, N.eqb_refl. change (w_id s') with (w_id s). rewrite L. reflexivity. }
  assert (Eo : n_out c1 = n_out c) by reflexivity.
  assert (P1 : forall i, i <> w_id s -> prio_of c1 i = prio_of c i).
  { intros i Hi. unfold c1, prio_of. rewrite lookup_put. change (w_id s') with (w_id s).
    destruct (N.eqb_spec (w_id s) i); [congruence | reflexivity]. }
  assert (X1 : forall i, exst c i -> exst c1 i) by (intros; apply exst_put; assumption).
  assert (R1 : forall x y, x <> w_id s -> y <> w_id s -> olt c x y -> olt c1 x y).
  { intros x y Hx Hy. unfold olt. rewrite !P1 by assumption. auto. }
  unfold reorder_output. change (w_id s') with (w_id s) in *.
  destruct (is_out c1 (w_id s)) eqn:Ei.
  2: { eapply srt_ext; [exact Eo | | exact S]. intros i Hi Hx. split; [auto |]. apply P1. intros ->.
       apply is_out_in in Hi. change (is_out c1 (w_id s) = true) in Hi. congruence. }
  apply is_out_in in Ei. rewrite Eo in Ei.
  destruct S as [S F]. pose proof (ss_nodup _ _ S) as ND.
  match goal with |- srt (if ?b then _ else _) => destruct b eqn:Eb end.
  - change (w_id s) with (w_id s'). apply srt_insert.
    { exact L1. }
    split; cbn [remove_output n_out n_set_streams]; rewrite Eo.
    + change (StronglySorted (olt c1) (filter (fun x => negb (x =? w_id s)) (n_out c))).
      eapply ss_ext; [| apply (ss_filter (olt c)), S]. intros x y Hx Hy. apply filter_In in Hx, Hy.
      destruct Hx as [_ Hx], Hy as [_ Hy]. apply negb_true_iff, N.eqb_neq in Hx. apply negb_true_iff, N.eqb_neq in Hy.
      apply R1; assumption.
    + rewrite Forall_forall in F |- *. intros x Hx. apply filter_In in Hx. exact (X1 x (F x (proj1 Hx))).
  - split; rewrite Eo; [| rewrite Forall_forall in F |- *; auto].
    apply in_split in Ei. destruct Ei as (l1 & l2 & El). rewrite El in S, ND |- *.
    apply NoDup_remove_2 in ND. rewrite in_app_iff in ND.
    assert (N1 : ~ In (w_id s) l1) by tauto. assert (N2 : ~ In (w_id s) l2) by tauto. clear ND.
    rewrite Eo, El in Eb.
    apply orb_false_iff in Eb. destruct Eb as [B1 B2]. rewrite out_prev_split in B1 by exact N1.
    unfold out_next in B2. rewrite rev_app_distr in B2. cbn [rev] in B2. rewrite <- app_assoc in B2. cbn [app] in B2.
    rewrite out_prev_split, rev_involutive in B2 by (rewrite <- in_rev; exact N2).
    assert (Ps : prio_of c1 (w_id s) = w_prio s') by (unfold prio_of; rewrite L1; reflexivity).
    apply ss_app in S. destruct S as (S1 & S2 & S3). inversion S2 as [| ? ? S4 S5]; subst.
    rewrite Forall_forall in S5.
    apply ss_app. split; [| split].
    + eapply ss_ext; [| exact S1]. intros x y Hx Hy. apply R1; intros ->; contradiction.
    + constructor.
      * eapply ss_ext; [| exact S4]. intros x y Hx Hy. apply R1; intros ->; contradiction.
      * destruct l2 as [| b l2]; [constructor |].
        assert (Hb : olt c1 (w_id s) b).
        { apply olt_total; [intros ->; apply N2; left; reflexivity |]. unfold olt. rewrite Ps, B2. discriminate. }
        constructor; [exact Hb |]. inversion S4 as [| ? ? _ S6]; subst. rewrite Forall_forall in S6 |- *.
        intros x Hx. eapply olt_trans; [exact Hb |]. apply R1; [intros -> .. | auto].
        { apply N2. left. reflexivity. }
        { apply N2. right. exact Hx. }
    + assert (Ha : forall x, In x l1 -> olt c1 x (w_id s)).
      { destruct (rev l1) as [| a r] eqn:Er.
        { intros x Hx. rewrite in_rev, Er in Hx. destruct Hx. }
        assert (Ela : l1 = rev r ++ [a]) by (rewrite <- (rev_involutive l1), Er; reflexivity).
        assert (Ha : olt c1 a (w_id s)).
        { apply olt_total; [intro Q; apply N1; rewrite Ela, Q; apply in_app_iff; right; left; reflexivity |].
          unfold olt. rewrite Ps, B1. discriminate. }
        intros x Hx. rewrite Ela in Hx. apply in_app_iff in Hx. destruct Hx as [Hx | [<- | []]]; [| exact Ha].
        eapply olt_trans; [| exact Ha]. apply R1.
        - intros ->. apply N1. rewrite Ela. apply in_app_iff. left. exact Hx.
        - intros ->. apply N1. rewrite Ela. apply in_app_iff. right. left. reflexivity.
        - rewrite Ela in S1. apply ss_app in S1. destruct S1 as (_ & _ & S1). apply S1; [exact Hx | left; reflexivity]. }
      intros x y Hx [<- | Hy]; [apply Ha, Hx |]. apply R1; [intros ->; contradiction .. |].
      apply S3; [exact Hx | right; exact Hy].
Qed.

Lemma lookup_new c s i : ~ In (w_id s) (map w_id (n_streams c)) ->
  w_lookup (n_set_streams c (n_streams c ++ [s]) (n_out c)) i
  = if w_id s =? i then Some s else w_lookup c i.
Proof.
  intro H. unfold w_lookup. cbn [n_streams n_set_streams]. induction (n_streams c) as [| x l IH]; cbn [app find].
  - destruct (w_id s =? i); reflexivity.
  - cbn [map] in H. destruct (N.eqb_spec (w_id x) i) as [<- | E].
    + destruct (N.eqb_spec (w_id s) (w_id x)) as [Q | Q]; [destruct H; left; auto | reflexivity].
    + apply IH. intro. apply H. right. assumption.
Qed.

Lemma fresh_next c t : base c -> t < 4 -> ~ In (n_next c t) (map w_id (n_streams c)).
Proof. intros (_ & H2 & H3) Ht. apply H3. rewrite H2 by exact Ht. lia. Qed.

Lemma create_streams c id : n_streams (w_create c id) = n_streams c ++ [new_wstream c id] /\
  n_next (w_create c id) = (fun x => if x =? stream_type id then id + 4 else n_next c x) /\ lims (w_create c id) = lims c.
Proof.
  unfold w_create, insert_output. cbv zeta. destruct (new_output c id); [| repeat split].
  destruct (is_out _ _); [repeat split |]. destruct (above_limit _ _); repeat split.
Qed.

Lemma base_create c t : t < 4 -> base c -> base (w_create c (n_next c t)).
Proof.
  intros Ht B. pose proof (fresh_next c t B Ht) as Hf. destruct B as (B1 & B2 & B3).
  destruct (create_streams c (n_next c t)) as (E1 & E2 & _). unfold base. rewrite E1, E2.
  unfold stream_type. rewrite B2 by exact Ht. split; [| split].
  - rewrite map_app. cbn [map].
    rewrite <- (rev_involutive (map w_id (n_streams c) ++ _)). apply NoDup_rev. rewrite rev_app_distr. cbn.
    constructor; [rewrite <- in_rev; exact Hf | apply NoDup_rev, B1].
  - intros x Hx. destruct (N.eqb_spec x t) as [-> | E]; [| auto]. specialize (B2 t Ht). lia.
  - intros id. rewrite map_app, in_app_iff. cbn [map In w_id new_wstream].
    destruct (N.eqb_spec (id mod 4) t) as [E | E].
    + intros H [X | [X | []]]; [| lia]. apply (B3 id); [rewrite E; lia | exact X].
    + intros H [X | [X | []]]; [exact (B3 id H X) |]. subst id. rewrite B2 in E by exact Ht. congruence.
Qed.

Lemma srt_create c t : t < 4 -> base c -> srt c -> srt (w_create c (n_next c t)).
Proof.
  intros Ht B S. pose proof (fresh_next c t B Ht) as Hf. unfold w_create. cbv zeta.
  set (s := new_wstream c (n_next c t)). set (c1 := n_set_streams c (n_streams c ++ [s]) (n_out c)).
  assert (L : forall i, w_lookup c1 i = if w_id s =? i then Some s else w_lookup c i) by (intro; apply lookup_new; exact Hf).
  assert (S1 : srt c1).
  { eapply (srt_ext c); [reflexivity | | exact S]. intros i _ [x Hx]. unfold exst, prio_of. rewrite L, Hx.
    destruct (N.eqb_spec (w_id s) i) as [E | E]; [| eauto]. destruct Hf. change (n_next c t) with (w_id s). rewrite E.
    apply lookup_some_iff. eauto. }
  destruct (new_output c (n_next c t)).
  - eapply (srt_ext (insert_output c1 s)); [reflexivity | | apply srt_insert; [| exact S1]].
    + intros i _ H. split; [exact H | reflexivity].
    + rewrite L, N.eqb_refl. reflexivity.
  - eapply (srt_ext c1); [reflexivity | | exact S1]. intros i _ H. split; [exact H | reflexivity].
Qed.

Lemma base_ids c c' : map w_id (n_streams c') = map w_id (n_streams c) -> (forall t, n_next c' t = n_next c t) ->
  base c -> base c'.
Proof.
  intros E1 E2 (B1 & B2 & B3). unfold base. rewrite E1. split; [exact B1 |]. split.
  - intros t. rewrite E2. apply B2.
  - intro id. rewrite E2. apply B3.
Qed.
Lemma insert_same c s : n_streams (insert_output c s) = n_streams c /\ n_next (insert_output c s) = n_next c /\
  lims (insert_output c s) = lims c.
Proof. unfold insert_output. destruct (is_out _ _); [auto |]. destruct (above_limit _ _); auto. Qed.
Lemma reorder_same c s : n_streams (reorder_output c s) = n_streams c /\ n_next (reorder_output c s) = n_next c /\
  lims (reorder_output c s) = lims c.
Proof.
  unfold reorder_output. destruct (is_out _ _); [| auto].
  match goal with |- context [if ?b then _ else _] => destruct b end; [| auto].
  destruct (insert_same (remove_output c (w_id s)) s) as (-> & -> & ->). auto.
Qed.
Lemma raise_lookup c i : w_lookup (raise_initial c) i = match w_lookup c i with
  | Some s => Some (if is_local_id (w_id s) (n_client c) || is_bidir_id (w_id s) then
         if w_max s <? initial_max c (w_id s) then w_set_max s (initial_max c (w_id s)) else s
       else s) | None => None end.
Proof.
  unfold w_lookup, raise_initial. cbn [n_streams n_set_streams]. induction (n_streams c) as [| x l IH]; [reflexivity |].
  cbn [map find].
  assert (E : w_id (if is_local_id (w_id x) (n_client c) || is_bidir_id (w_id x) then
         if w_max x <? initial_max c (w_id x) then w_set_max x (initial_max c (w_id x)) else x
       else x) = w_id x) by (destruct (_ || _); [destruct (_ <? _) |]; reflexivity).
  rewrite E. destruct (w_id x =? i); [reflexivity | exact IH].
Qed.
Lemma raise_ids c : map w_id (n_streams (raise_initial c)) = map w_id (n_streams c).
Proof.
  unfold raise_initial. cbn [n_streams n_set_streams]. rewrite map_map. apply map_ext. intro x.
  destruct (_ || _); [destruct (_ <? _) |]; reflexivity.
Qed.
Lemma put_ids c s : map w_id (n_streams (w_put c s)) = map w_id (n_streams c).
Proof. apply map_put_ids. Qed.

Lemma delete_lookup c id i : i <> id ->
  find (fun s => w_id s =? i) (filter (fun x => negb (w_id x =? id)) (n_streams c)) = w_lookup c i.
Proof.
  intro H. unfold w_lookup. induction (n_streams c) as [| x l IH]; [reflexivity |]. cbn [filter find].
  destruct (N.eqb_spec (w_id x) id) as [E | E]; cbn [negb].
  - rewrite IH. destruct (N.eqb_spec (w_id x) i); [congruence | reflexivity].
  - cbn [find]. destruct (w_id x =? i); [reflexivity | exact IH].
Qed.

Lemma base_prim a f c c' : prim a f c c' -> base c -> base c'.
Proof.
  intros P B. destruct P as [c s s' L E1 E2 _ _ _ | c s p L | c s err L | c s L | c s L X | c t Ht | c s _ L X |
    c c' M1 M2 M3 M4 M5 M6 | c | c m b u _].
  - eapply base_ids; [apply put_ids | reflexivity | exact B].
  - destruct (reorder_same (w_put c (w_set_prio s p)) (w_set_prio s p)) as (R1 & R2 & _).
    eapply base_ids; [rewrite R1; apply put_ids | rewrite R2; reflexivity | exact B].
  - destruct (insert_same (w_put c (w_set_stop s true (w_stop_sent s) err)) (w_set_stop s true (w_stop_sent s) err)) as (R1 & R2 & _).
    eapply base_ids; [rewrite R1; apply put_ids | rewrite R2; reflexivity | exact B].
  - destruct (insert_same c s) as (R1 & R2 & _). eapply base_ids; [rewrite R1; reflexivity | rewrite R2; reflexivity | exact B].
  - eapply base_ids; [reflexivity | reflexivity | exact B].
  - apply base_create; assumption.
  - destruct B as (B1 & B2 & B3).
    assert (I : forall i, In i (map w_id (filter (fun x => negb (w_id x =? w_id s)) (n_streams c))) -> In i (map w_id (n_streams c))).
    { intros i Hi. apply in_map_iff in Hi. destruct Hi as (x & <- & Hx). apply filter_In in Hx. apply in_map. tauto. }
    split; [| split].
    + cbn [n_streams n_set_streams]. clear - B1. induction (n_streams c) as [| x l IH]; [constructor |].
      cbn [map filter] in *. inversion B1; subst. destruct (negb _); [| auto]. cbn [map]. constructor; [| auto].
      intro Hx. apply in_map_iff in Hx. destruct Hx as (y & Ey & Hy). apply filter_In in Hy. apply H1.
      rewrite <- Ey. apply in_map. tauto.
    + exact B2.
    + intros id H Hx. apply (B3 id H). exact (I _ Hx).
  - eapply base_ids; [rewrite M2; reflexivity | exact M4 | exact B].
  - eapply base_ids; [apply raise_ids | reflexivity | exact B].
  - exact B.
Qed.

Lemma srt_prim a f c c' : prim a f c c' -> base c -> srt c -> srt c'.
Proof.
  intros P B S. destruct P as [c s s' L E1 E2 _ _ _ | c s p L | c s err L | c s L | c s L X | c t Ht | c s _ L X |
    c c' M1 M2 M3 M4 M5 M6 | c | c m b u _].
  - eapply (srt_ext c); [reflexivity | | exact S]. intros i _ H. split; [apply exst_put, H |].
    eapply prio_put; eassumption.
  - apply srt_prio; assumption.
  - set (s' := w_set_stop s true (w_stop_sent s) err). apply srt_insert.
    + rewrite lookup_put, N.eqb_refl. change (w_id s') with (w_id s). rewrite L. reflexivity.
    + eapply (srt_ext c); [reflexivity | | exact S]. intros i _ H. split; [apply exst_put, H |].
      eapply prio_put; [exact L | reflexivity | reflexivity].
  - apply srt_insert; assumption.
  - apply srt_remove, S.
  - apply srt_create; assumption.
  - destruct S as [S F]. rewrite Forall_forall in F.
    assert (I : forall x, In x (filter (fun x => negb (x =? w_id s)) (n_out c)) -> In x (n_out c) /\ x <> w_id s).
    { intros x Hx. apply filter_In in Hx. destruct Hx as [H1 H2]. apply negb_true_iff, N.eqb_neq in H2. auto. }
    split; cbn [n_out n_set_streams].
    + eapply ss_ext; [| apply (ss_filter (olt c)), S]. intros x y Hx Hy. apply I in Hx, Hy. unfold olt, prio_of, w_lookup at 3 4.
      cbn [n_streams n_set_streams]. rewrite !delete_lookup by tauto. auto.
    + apply Forall_forall. intros x Hx. apply I in Hx. destruct (F x (proj1 Hx)) as [y Hy].
      exists y. unfold w_lookup. cbn [n_streams n_set_streams]. rewrite delete_lookup by tauto. exact Hy.
  - eapply (srt_ext c); [exact M3 | | exact S]. intros i _ H. unfold exst, prio_of, w_lookup in *. rewrite M2. auto.
  - eapply (srt_ext c); [reflexivity | | exact S]. intros i _ [x Hx]. unfold exst, prio_of. rewrite raise_lookup, Hx.
    split; [eauto |]. destruct (_ || _); [destruct (_ <? _) |]; reflexivity.
  - exact S.
Qed.

Lemma good_prims a f c c' : prims a f c c' -> base c /\ srt c -> base c' /\ srt c'.
Proof.
  apply (prims_ind2 (fun c => base c /\ srt c)). intros x y P [B S].
  split; [eapply base_prim; eassumption | eapply srt_prim; eassumption].
Qed.

Lemma good_init cl p : base (snd0 cl p) /\ srt (snd0 cl p).
Proof.
  split; split; try constructor.
  - intros t Ht. cbn. apply N.mod_small, Ht.
  - intros id _ [].
Qed.

Lemma run_prims (P : snd_cnx -> Prop) : (forall a f c c', prims a f c c' -> P c -> P c') ->
  forall evs c c' log, P c -> snd_run c evs = Some (c', log) -> P c'.
Proof.
  intros H evs. induction evs as [| e evs IH]; intros c c' log Pc; cbn [snd_run].
  - intro E. inv_pair E. exact Pc.
  - destruct (snd_step c e) as [[c1 i1] |] eqn:Es; [| discriminate].
    destruct (snd_run c1 evs) as [[c2 i2] |] eqn:Er; [| discriminate]. intro E. inv_pair E.
    eapply IH; [| exact Er]. eapply H; [eapply ps_step, Es | exact Pc].
Qed.

Lemma reach_good cl p evs c log : snd_run (snd0 cl p) evs = Some (c, log) -> base c /\ srt c.
Proof.
  intro H. eapply (run_prims (fun c => base c /\ srt c)); [| apply good_init | exact H].
  intros a f x y. apply good_prims.
Qed.

Lemma output_sorted cl p evs c log : snd_run (snd0 cl p) evs = Some (c, log) ->
  StronglySorted (before c) (n_out c) /\ NoDup (n_out c) /\
  forall i, In i (n_out c) -> exists s, w_lookup c i = Some s.
Proof.
  intro H. destruct (reach_good _ _ _ _ _ H) as [_ [S F]]. rewrite Forall_forall in F. split; [| split].
  - eapply ss_ext; [| exact S]. intros x y Hx Hy. destruct (F x Hx) as [s Ls], (F y Hy) as [t Lt].
    unfold olt, prio_of. rewrite Ls, Lt, prio_lt_iff. intro Q. exists s, t. auto.
  - eapply ss_nodup, S.
  - exact F.
Qed.
