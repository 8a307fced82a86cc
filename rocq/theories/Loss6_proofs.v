(** Nothing is left to do after a poll, and the wake time is exact. *)
From Verif Require Import Base Tac Rtt_model Ack_model Ack_spec Ack_proofs Ack2_proofs Loss_model Loss_spec Loss_proofs Loss2_proofs Loss3_proofs Loss4_proofs Loss5_proofs.
From Coq Require Import Sorting.Sorted.

(** A packet that is due makes the earlier ones due. *)
Lemma due_earlier : forall cf sp last p q now, pk_seq p <= pk_seq q -> pk_time p <= pk_time q ->
  due_at cf sp last q now -> due_at cf sp last p now.
Proof.
  intros cf sp last p q now Hs Ht [[[D1 D2] D3]|[[[D1 D2] D3]|[D|(D1 & D2 & D3)]]].
  - left. split; [split; [exact D1|]|]; lia.
  - right. left. split; [split; [exact D1|lia]|]. destruct D3; [left|right]; lia.
  - right. right. left. exact D.
  - right. right. right. split; [exact D1|]. split; lia.
Qed.

Lemma due_set : forall cf sp l p now, due cf (set_pending sp (sp_path sp) l) p now <-> due_at cf sp (last_time l p) p now.
Proof. intros. reflexivity. Qed.

Section Poll.
Variables (cf : config) (pa : path) (first start : N) (es : list event) (sp : space) (hist : list action).
Variables (same : bool) (rep : N -> bool * bool) (wake now : N).
Hypothesis Hpos : possible cf pa first start (es ++ [EPoll same rep wake now]).
Hypothesis Hrun : run cf (space_start pa first start) [] es = Some (Some sp, hist).
Let r := needed_loop cf sp same rep now wake (sp_pending sp).
Let sp' := set_pending sp (r_path r) (r_kept r).

Lemma poll_inv : inv cf first (clock start es) (N.of_nat (length es)) hist sp.
Proof. destruct (possible_prefix _ _ _ _ _ _ Hpos) as (Hp1 & _). apply (reach _ _ _ _ _ _ _ Hp1 Hrun). Qed.

Lemma poll_sane : forall p, In p (sp_pending sp) -> sane cf sp (last_time (sp_pending sp) p) p now.
Proof.
  intros p Hp. destruct (possible_prefix _ _ _ _ _ _ Hpos) as (Hp1 & He & Ht & Hb). cbn [event_time] in *.
  destruct Hpos as (P1 & P2 & P3 & P4 & P5 & P6 & P7). rewrite app_length in P5. cbn [length] in P5.
  apply small_lit in P5, P3. apply (inv_sane cf first _ _ _ sp p now poll_inv); try assumption; try apply He; lia.
Qed.

(** What a poll that ends without a packet to repeat leaves. *)
Lemma quiet_facts : r_stop r = SQuiet -> exists p l2 k t, r_kept r = k ++ p :: l2 /\ r_path r = sp_path sp /\
  Forall (fun q => pk_zero q = true) k /\ regular_packet p /\
  (forall q, In q (r_kept r) -> regular_packet q -> q = p \/ (In q l2 /\ pk_seq p <= pk_seq q /\ pk_time p <= pk_time q)) /\
  (forall q d, In q (r_kept r) -> last_time (r_kept r) d = last_time (sp_pending sp) q) /\
  last_time (r_kept r) p = last_time l2 p /\
  now < t /\ r_wake r = N.min t wake /\ (forall u, now <= u -> (t <= u <-> due_at cf sp (last_time (r_kept r) p) p u)).
Proof.
  intros Hst. pose proof (loop_ok cf sp same rep now wake (sp_pending sp)) as (F1 & F2 & F3 & F4). fold r in F1, F2, F3, F4.
  unfold stopped in F4. rewrite Hst in F4. destruct F4 as (F4 & l1 & k & p & l2 & t & G1 & G2 & G3 & G4 & G5 & G6 & G7).
  exists p, l2, k, t.
  assert (Hp : In p (sp_pending sp)) by (rewrite G1; apply in_or_app; right; left; reflexivity).
  pose proof (poll_sane p Hp) as S.
  assert (L1 : last_time (sp_pending sp) p = last_time l2 p) by (rewrite G1; apply last_time_suffix).
  assert (L2 : forall d, last_time (r_kept r) d = last_time l2 p) by (intros d; rewrite G2; apply last_time_suffix).
  assert (Hz2 : pk_zero p && negb (cf_zero cf) = false) by (rewrite G4; reflexivity).
  rewrite <- L1, (probably_plain _ _ _ _ _ S) in G6.
  apply (plain_time _ _ _ _ _ _ Hz2 (sa_last _ _ _ _ _ S) (sa_rtt _ _ _ _ _ S)) in G6. destruct G6 as (T1 & T2 & T3).
  split; [exact G2|]. split; [exact F4|].
  split; [rewrite Forall_forall in *; intros q Hq; apply G3 in Hq; tauto|].
  split; [split; assumption|]. split; [|split; [|split; [|split; [|split]]]].
  - intros q Hq [Q1 Q2]. rewrite G2 in Hq. apply in_app_or in Hq. destruct Hq as [Hq|[Hq|Hq]].
    + rewrite Forall_forall in G3. apply G3 in Hq. destruct Hq. congruence.
    + left. symmetry. exact Hq.
    + right. split; [exact Hq|]. pose proof (i_sorted _ _ _ _ _ _ poll_inv) as So. rewrite G1 in So. apply sorted_suffix in So.
      apply StronglySorted_inv in So. destruct So as [_ So]. rewrite Forall_forall in So. apply So in Hq.
      destruct Hq as [X Y]. split; [lia|exact Y].
  - intros q d Hq. rewrite L2, <- L1. apply (thin_kept _ _ _ F1) in Hq. apply last_time_any. exact Hq.
  - apply L2.
  - exact T1.
  - exact G7.
  - intros u Hu. rewrite L2, <- L1. apply T3. exact Hu.
Qed.

Lemma poll_complete : r_stop r = SEnd \/ r_stop r = SQuiet ->
  forall p, In p (r_kept r) -> regular_packet p -> ~ due cf sp' p now.
Proof.
  intros [Hst|Hst] p Hp Hreg.
  - pose proof (loop_ok cf sp same rep now wake (sp_pending sp)) as (F1 & F2 & F3 & F4). fold r in F1, F2, F3, F4.
    unfold stopped in F4. rewrite Hst in F4. destruct F4 as (_ & _ & F4). rewrite Forall_forall in F4.
    apply F4 in Hp. destruct Hreg, Hp. congruence.
  - destruct (quiet_facts Hst) as (p0 & l2 & k & t & G1 & G2 & G3 & G4 & G5 & G6 & G7 & G8 & G9 & G10).
    unfold sp'. rewrite G2, due_set. intros D.
    assert (D0 : due_at cf sp (last_time (r_kept r) p0) p0 now).
    { assert (Hp0 : In p0 (r_kept r)) by (rewrite G1; apply in_or_app; right; left; reflexivity).
      rewrite (last_time_any _ p0 p Hp0) in D.
      destruct (G5 p Hp Hreg) as [-> |(_ & X & Y)]; [exact D|]. apply (due_earlier _ _ _ _ _ _ X Y D). }
    apply G10 in D0; lia.
Qed.

Lemma poll_wake : r_stop r = SQuiet -> exists t, now < t /\ r_wake r = N.min t wake /\
  forall u, now <= u -> (t <= u <-> exists p, In p (r_kept r) /\ regular_packet p /\ due cf sp' p u).
Proof.
  intros Hst. destruct (quiet_facts Hst) as (p0 & l2 & k & t & G1 & G2 & G3 & G4 & G5 & G6 & G7 & G8 & G9 & G10).
  assert (Hp0 : In p0 (r_kept r)) by (rewrite G1; apply in_or_app; right; left; reflexivity).
  exists t. split; [exact G8|]. split; [exact G9|]. intros u Hu. rewrite (G10 u Hu). split.
  - intros D. exists p0. split; [exact Hp0|]. split; [exact G4|]. unfold sp'. rewrite G2. exact D.
  - intros (p & Hp & Hreg & D). unfold sp' in D. rewrite G2 in D. rewrite due_set in D.
    rewrite (last_time_any _ p0 p Hp0) in D.
    destruct (G5 p Hp Hreg) as [-> |(_ & X & Y)]; [exact D|]. apply (due_earlier _ _ _ _ _ _ X Y D).
Qed.

Lemma poll_progress : forall p, In p (sp_pending sp) -> regular_packet p -> due cf sp p now ->
  pa_pto (sp_path sp) && same = false -> r_gone r <> [].
Proof.
  intros p Hp Hreg D Hpto.
  pose proof (loop_ok cf sp same rep now wake (sp_pending sp)) as (F1 & F2 & F3 & F4). fold r in F1, F2, F3, F4.
  assert (Hgone : ~ In p (r_kept r) -> r_gone r <> []).
  { intros Hk E. apply (thin_in _ _ _ F1) in Hp. rewrite E in Hp. destruct Hp as [[]|Hp]. apply Hk. exact Hp. }
  destruct (r_stop r) eqn:Hst; unfold stopped in F4; rewrite Hst in F4.
  - apply Hgone. destruct F4 as (_ & _ & F4). rewrite Forall_forall in F4. intros X. apply F4 in X. destruct Hreg, X. congruence.
  - apply Hgone. intros X. apply (poll_complete (or_intror Hst) p X Hreg).
    destruct (quiet_facts Hst) as (p0 & l2 & k & t & G1 & G2 & G3 & G4 & G5 & G6 & G7 & G8 & G9 & G10).
    unfold sp'. rewrite G2, due_set. rewrite (G6 p p X). exact D.
  - destruct F4. congruence.
  - apply F4.
  - exact F4.
Qed.
End Poll.

(** Every number is either pending, acknowledged or gone, and once. *)
Lemma one_fate : forall cf pa first start es sp hist m,
  possible cf pa first start es -> run cf (space_start pa first start) [] es = Some (Some sp, hist) ->
  numbered hist m = (released hist m + gone hist m + pending sp m)%nat /\ (numbered hist m <= 1)%nat /\
  ((0 < numbered hist m)%nat <-> first <= m < sp_next sp).
Proof.
  intros cf pa first start es sp hist m Hpos Hrun. pose proof (reach _ _ _ _ _ _ _ Hpos Hrun) as I.
  destruct (i_once _ _ _ _ _ _ I m) as [O1 O2]. split; [exact O1|]. split; [exact O2|]. split; [apply (i_numbered _ _ _ _ _ _ I)|].
  intros H. rewrite O1. destruct (i_cover _ _ _ _ _ _ I m H) as [(p & X & Y)|[X|(d & w & X & Y)]].
  - assert (0 < pending sp m)%nat; [|lia]. unfold pending.
    assert (In p (filter (fun p => pk_seq p =? m) (sp_pending sp))) by (apply filter_In; split; [exact X|lia]).
    destruct (filter _ _); [contradiction|cbn [length]; lia].
  - assert (0 < released hist m)%nat; [|lia]. unfold released.
    match goal with |- (0 < length ?l)%nat => assert (In (ARelease m) l) by (apply filter_In; split; [exact X|apply N.eqb_refl]); destruct l; [contradiction|cbn [length]; lia] end.
  - assert (0 < gone hist m)%nat; [|lia]. unfold gone.
    match goal with |- (0 < length ?l)%nat => assert (In (AGone d w) l) by (apply filter_In; split; [exact X|lia]); destruct l; [contradiction|cbn [length]; lia] end.
Qed.

(** Without skipped numbers no NULL path is used. *)

Lemma hist_no_trap : forall cf es sp hist spo hist', Forall no_hole es -> (forall p, ~ In (AHole p) hist) ->
  run cf sp hist es = Some (spo, hist') -> forall p, ~ In (AHole p) hist'.
Proof.
  intros cf. induction es as [|e es IH]; intros sp hist spo hist' Hn Hh H; cbn [run] in H.
  - inversion H; subst. exact Hh.
  - inversion Hn; subst. destruct (step cf sp e) as [[sp1 acts|]|] eqn:E; [|inversion H; subst; exact Hh|discriminate].
    refine (IH _ _ _ _ H3 _ H). intros p Hp. apply in_app_or in Hp. destruct Hp as [Hp|Hp]; [exact (Hh p Hp)|].
    destruct e as [zero elicit pure now|now|ranges ce r now|same rep wake now|now]; cbn [step] in E.
    + inversion E; subst. destruct Hp as [X|[]]. discriminate.
    + exact H2.
    + unfold receive_ack in E. destruct ranges as [|[low largest] rs]; [discriminate|].
      destruct (sp_next sp <=? largest); [discriminate|].
      destruct (find_acked_packet _ _ _) as [[ds newer] nw]. cbv zeta in E.
      destruct (process_ranges _ _ _) as [[q acked] err]. destruct err; [discriminate|]. destruct (ce && _); [discriminate|].
      destruct acked as [|a acked]; [inversion E; subst; destruct Hp as [X|[]]; discriminate|].
      destruct (on_ack _ _ _ _) as [g k]. inversion E; subst.
      destruct Hp as [X|[X|Hp]]; [discriminate|discriminate|]. apply in_app_or in Hp. destruct Hp as [Hp|Hp];
        apply in_map_iff in Hp; destruct Hp as (m & X & _); discriminate.
    + inversion E; subst. apply in_map_iff in Hp; destruct Hp as (m & X & _); discriminate.
    + inversion E; subst. destruct Hp.
Qed.

Lemma step_safe : forall cf pa first start es sp hist e,
  possible cf pa first start es -> Forall no_hole es ->
  run cf (space_start pa first start) [] es = Some (Some sp, hist) -> step cf sp e <> None.
Proof.
  intros cf pa first start es sp hist e Hpos Hn Hrun.
  pose proof (reach _ _ _ _ _ _ _ Hpos Hrun) as I.
  assert (Hh : forall p, ~ In (AHole p) hist) by (refine (hist_no_trap _ _ _ _ _ _ Hn _ Hrun); intros p []).
  destruct e as [zero elicit pure now|now|ranges ce r now|same rep wake now|now]; cbn [step]; try discriminate.
  - destruct (rev (sp_pending sp)) as [|x l]; [discriminate|]. destruct (pk_trap x); discriminate.
  - unfold receive_ack. destruct ranges as [|[low largest] rs]; [discriminate|].
    destruct (sp_next sp <=? largest); [discriminate|].
    destruct (find_acked_packet _ _ _) as [[ds newer] nw]. cbv zeta.
    destruct (process_ranges _ _ _) as [[q acked] err]. destruct err; [discriminate|].
    assert (X : match (if nw then top_packet largest (sp_pending sp) else None) with Some t => pk_trap t | None => false end = false).
    { destruct nw; [|reflexivity]. destruct (top_packet largest (sp_pending sp)) as [t|] eqn:E; [|reflexivity].
      apply top_in in E. apply (i_hist _ _ _ _ _ _ I) in E. destruct (pk_trap t); [exfalso; exact (Hh _ E)|reflexivity]. }
    rewrite X, andb_false_r. destruct acked; [discriminate|]. destruct (on_ack _ _ _ _). discriminate.
Qed.

Lemma never_stuck : forall cf pa first start es,
  possible cf pa first start es -> Forall no_hole es -> run cf (space_start pa first start) [] es <> None.
Proof.
  intros cf pa first start es. induction es as [|e es IH] using rev_ind; intros Hpos Hn; [discriminate|].
  destruct (possible_prefix _ _ _ _ _ _ Hpos) as (Hp1 & _).
  apply Forall_app in Hn. destruct Hn as [Hn _]. specialize (IH Hp1 Hn).
  assert (R : forall es1 es2 sp hist, run cf sp hist (es1 ++ es2) =
    match run cf sp hist es1 with Some (Some sp', hist') => run cf sp' hist' es2 | x => x end).
  { induction es1 as [|e1 es1 IH1]; intros es2 sp hist; [reflexivity|]. cbn [app run].
    destruct (step cf sp e1) as [[sp1 acts|]|]; [apply IH1|reflexivity|reflexivity]. }
  rewrite R. destruct (run cf (space_start pa first start) [] es) as [[[sp|] hist]|] eqn:E; [|discriminate|contradiction].
  cbn [run]. pose proof (step_safe _ _ _ _ _ _ _ e Hp1 Hn E) as S. destruct (step cf sp e) as [[sp1 acts|]|]; [discriminate|discriminate|contradiction].
Qed.

(** A pending number that was skipped is not acknowledged by a frame with a new
    largest number. *)
Lemma trap_closes : forall cf pa first start es sp hist low largest rs ce r now p,
  possible cf pa first start es -> run cf (space_start pa first start) [] es = Some (Some sp, hist) ->
  ranges_below two62 ((low, largest) :: rs) -> sp_high sp = max64 \/ sp_high sp < largest ->
  In p (sp_pending sp) -> pk_trap p = true -> in_ranges ((low, largest) :: rs) (pk_seq p) ->
  step cf sp (EAck ((low, largest) :: rs) ce r now) = Some OClose.
Proof.
  intros cf pa first start es sp hist low largest rs ce r now p Hpos Hrun Hr Hnew Hp Htrap Hin.
  pose proof (reach _ _ _ _ _ _ _ Hpos Hrun) as I. cbn [step]. unfold receive_ack.
  destruct (sp_next sp <=? largest); [reflexivity|].
  assert (Hin2 : is_new (sp_high sp) largest) by (unfold is_new; tauto).
  destruct (find_acked_new (map as_sent (sp_pending sp)) (sp_high sp) largest (as_sent_sorted _ (i_sorted _ _ _ _ _ _ I)) Hin2)
    as (o & nn & F1 & F2 & F3 & F4).
  rewrite F1. cbv zeta.
  assert (Hle : pk_seq p <= largest).
  { destruct Hin as (a & b & Hab & Hc). apply below_desc in Hr. destruct Hab as [X|Hab]; [inversion X; subst; lia|].
    cbn [rs_desc] in Hr. destruct Hr as (R1 & R2 & R3). apply (rs_desc_below _ _ _ _ R3) in Hab. lia. }
  assert (Hds : In (as_sent p) o).
  { assert (X : In (as_sent p) (map as_sent (sp_pending sp))) by (apply in_map; exact Hp). rewrite <- F2 in X. apply in_app_or in X.
    destruct X as [X|X]; [apply in_rev; exact X|]. apply F4 in X. cbn [as_sent p_seq] in X. lia. }
  pose proof (process_ranges_trap ((low, largest) :: rs) o nn two62 F3 (below_desc _ _ Hr)) as T.
  destruct (process_ranges o nn ((low, largest) :: rs)) as [[q acked] err]. cbn [snd] in T. rewrite T; [reflexivity|].
  exists (as_sent p). split; [exact Hds|]. split; [|exact Htrap]. cbn [as_sent p_seq].
  unfold in_rangesb. apply existsb_exists. destruct Hin as (a & b & Hab & Hc). exists (a, b). split; [exact Hab|].
  cbn [fst snd]. apply andb_true_iff. split; lia.
Qed.
