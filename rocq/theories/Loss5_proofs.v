(** Runs of a number space: why packets leave. *)
From Verif Require Import Base Tac Rtt_model Ack_model Ack_spec Loss_model Loss_spec Loss_proofs Loss2_proofs Loss3_proofs Loss4_proofs.
From Coq Require Import Sorting.Sorted.

Lemma loop_path : forall cf sp same rep now wake l,
  pa_rtt (r_path (needed_loop cf sp same rep now wake l)) = pa_rtt (sp_path sp).
Proof.
  intros cf sp same rep now wake. induction l as [|p l IH]; [reflexivity|]. cbn [needed_loop]. cbv zeta.
  destruct (rep (pk_seq p)) as [pure copied]. destruct (pk_trap p); [exact IH|].
  destruct (probably_lost cf sp (last_time l p) p now) as [[lost expired] time].
  destruct lost; [destruct (pure || negb copied); [exact IH|reflexivity]|].
  destruct expired; cbn [negb].
  - destruct (pk_elicit p); cbn [negb]; [|exact IH]. destruct (pa_pto (sp_path sp) && same); [reflexivity|].
    destruct pure; [exact IH|reflexivity].
  - destruct (pk_zero p); [exact IH|reflexivity].
Qed.

(** The state in which the packets that leave in a step are examined. *)
Inductive examined (cf : config) (first n : N) (hist : list action) (e : event) : space -> space -> list action -> Prop :=
| examined_not : forall sp' acts, (forall d w, ~ In (AGone d w) acts) -> examined cf first n hist e sp' sp' acts
| examined_in : forall sp1 sp' acts acts1 g,
    inv cf first (event_time e) n (hist ++ acts1) sp1 -> acts = acts1 ++ gone_acts g ->
    (forall d w, ~ In (AGone d w) acts1) ->
    Forall (gone_for cf sp1 (event_time e) (sp_pending sp1)) g ->
    pa_rtt (sp_path sp') = pa_rtt (sp_path sp1) ->
    examined cf first n hist e sp1 sp' acts.

Lemma step_ok : forall cf first t n hist sp e sp' acts,
  inv cf first t n hist sp -> event_ok e -> t <= event_time e -> first + n + 1 < two62 ->
  step cf sp e = Some (OGo sp' acts) ->
  inv cf first (event_time e) (n + 1) (hist ++ acts) sp' /\
  exists sp1, (sp_path sp1 = sp_path sp \/ sp_path sp1 = sp_path sp') /\ examined cf first n hist e sp1 sp' acts.
Proof.
  intros cf first t n hist sp e sp' acts I He Ht Hn H.
  pose proof (time_inv _ _ _ (event_time e) _ _ _ I Ht) as J. clear I.
  assert (Hsm : forall hist sp, inv cf first (event_time e) n hist sp -> inv cf first (event_time e) (n + 1) hist sp).
  { intros. apply count_inv with (n := n); [assumption|lia]. }
  destruct e as [zero elicit pure now|now|ranges ce r now|same rep wake now|now]; cbn [step event_time] in *.
  - inversion H; subst; clear H. split.
    + apply push_inv; try reflexivity; [exact J|cbn [pa_rtt]; apply (i_rtt _ _ _ _ _ _ J)|].
      pose proof (i_next _ _ _ _ _ _ J). unfold two62, two64 in *. lia.
    + eexists. split; [right; reflexivity|]. apply examined_not. intros d w [X|[]]. discriminate.
  - destruct (rev (sp_pending sp)) as [|x l].
    { inversion H; subst; clear H. rewrite app_nil_r. split; [apply Hsm; exact J|].
      exists sp'. split; [left; reflexivity|]. apply examined_not. intros d w []. }
    destruct (pk_trap x).
    { inversion H; subst; clear H. rewrite app_nil_r. split; [apply Hsm; exact J|].
      exists sp'. split; [left; reflexivity|]. apply examined_not. intros d w []. }
    inversion H; subst; clear H. split.
    + apply push_inv; try reflexivity; [exact J|apply (i_rtt _ _ _ _ _ _ J)|].
      pose proof (i_next _ _ _ _ _ _ J). unfold two62, two64 in *. lia.
    + eexists. split; [right; reflexivity|]. apply examined_not. intros d w [X|[]]. discriminate.
  - destruct He as [_ [Hr Hrtt]]. unfold receive_ack in H. destruct ranges as [|[low largest] rs]; [discriminate|].
    destruct (sp_next sp <=? largest) eqn:El; [discriminate|].
    destruct (find_acked_packet (map as_sent (sp_pending sp)) (sp_high sp) largest) as [[ds newer] nw] eqn:Ef.
    cbv zeta in H.
    destruct (process_ranges ds newer ((low, largest) :: rs)) as [[q acked] err] eqn:Ep.
    destruct err; [discriminate|].
    destruct (ce && _); [discriminate|].
    assert (Hst : forall pa, rtt_small (pa_rtt pa) ->
      inv cf first now n (hist ++ AAck largest now :: rel_acts acked)
        (mk_space pa (filter (not_in acked) (sp_pending sp)) (new_high nw largest sp) (new_time nw now sp)
        (new_latest nw largest sp) (sp_next sp))).
    { intros pa Hpa. apply (ack_stage cf first now n hist sp low largest rs ds newer nw q acked pa); try assumption; [lia|lia]. }
    destruct acked as [|a acked].
    + specialize (Hst (sp_path sp) (i_rtt _ _ _ _ _ _ J)).
      change (filter (not_in []) (sp_pending sp)) with
        (filter (fun p : packet => negb (existsb (N.eqb (pk_seq p)) [])) (sp_pending sp)) in Hst.
      inversion H; subst; clear H. split.
      * apply Hsm. exact Hst.
      * eexists. split; [right; reflexivity|]. apply examined_not. intros d w [X|[]]. discriminate.
    + revert H. set (nb := if existsb _ _ then 0 else _). clearbody nb.
      specialize (Hst (mk_path r nb (pa_demoted (sp_path sp)) (pa_pto (sp_path sp))) Hrtt).
      set (ak := a :: acked) in *.
      change (filter (not_in ak) (sp_pending sp)) with
        (filter (fun p : packet => negb (existsb (N.eqb (pk_seq p)) ak)) (sp_pending sp)) in Hst.
      set (left := filter _ _) in *.
      fold (new_high nw largest sp). fold (new_time nw now sp). fold (new_latest nw largest sp).
      set (sp1 := mk_space (mk_path r nb (pa_demoted (sp_path sp)) (pa_pto (sp_path sp))) left (new_high nw largest sp)
                    (new_time nw now sp) (new_latest nw largest sp) (sp_next sp)) in *.
      destruct (on_ack cf sp1 now left) as [g k] eqn:Eo. intros H. inversion H; subst; clear H.
      destruct (on_ack_ok _ _ _ _ _ _ Eo) as ((l1 & L1 & L2) & G1 & G2).
      split.
      * apply Hsm.
        match goal with |- inv _ _ _ _ (hist ++ ?a) _ => change a with ((AAck largest now :: rel_acts ak) ++ gone_acts g) end.
        rewrite app_assoc. apply drop_inv; [exact Hst| | |exact Hrtt].
        -- change (sp_pending sp1) with left. rewrite L1, L2. apply thin_prefix.
        -- intros d p Hd Hp Hz. pose proof (i_sorted _ _ _ _ _ _ Hst) as S. change (sp_pending sp1) with left in S.
           rewrite L1 in S. rewrite L2 in S. clear -S Hd Hp.
           induction (map fst g) as [|x m IH]; [destruct Hd|]. cbn [app] in S. apply StronglySorted_inv in S.
           destruct S as [S1 S2]. destruct Hd as [-> |Hd]; [|apply IH; assumption].
           rewrite Forall_forall in S2. destruct (S2 p) as [X _]; [apply in_or_app; right; exact Hp|]. exact X.
      * exists sp1. split; [right; reflexivity|].
        apply (examined_in cf first n hist _ sp1 _ _ (AAck largest now :: rel_acts ak) g); cbn [event_time].
        -- exact Hst.
        -- reflexivity.
        -- intros d w [X|X]; [discriminate|]. apply in_rel in X. destruct X as (m & X & _). discriminate.
        -- exact G2.
        -- reflexivity.
  - inversion H; subst; clear H.
    pose proof (loop_ok cf sp same rep now wake (sp_pending sp)) as (F1 & F2 & F3 & F4).
    pose proof (loop_path cf sp same rep now wake (sp_pending sp)) as F5.
    set (r := needed_loop cf sp same rep now wake (sp_pending sp)) in *. clearbody r.
    split.
    + apply Hsm. change (map (fun g : packet * why => AGone (fst g) (snd g)) (r_gone r)) with (gone_acts (r_gone r)).
      apply drop_inv; [exact J|exact F1|exact (F2 (i_sorted _ _ _ _ _ _ J))|].
      rewrite F5. apply (i_rtt _ _ _ _ _ _ J).
    + exists sp. split; [left; reflexivity|].
      apply (examined_in cf first n hist _ sp _ _ [] (r_gone r)); cbn [event_time].
      * rewrite app_nil_r. exact J.
      * reflexivity.
      * intros d w [].
      * exact F3.
      * exact F5.
  - inversion H; subst; clear H. rewrite app_nil_r. split.
    + apply Hsm. destruct J. constructor; assumption.
    + eexists. split; [right; reflexivity|]. apply examined_not. intros d w [].
Qed.

Lemma clock_snoc : forall es t e, clock t (es ++ [e]) = event_time e.
Proof. intros. unfold clock. rewrite fold_left_app. reflexivity. Qed.

Lemma in_time_app : forall es1 es2 t, in_time t (es1 ++ es2) <-> in_time t es1 /\ in_time (clock t es1) es2.
Proof.
  induction es1 as [|e es1 IH]; intros es2 t; cbn [app in_time]; [unfold clock; cbn; tauto|].
  rewrite IH. change (clock t (e :: es1)) with (clock (event_time e) es1). tauto.
Qed.

Lemma run_ok : forall cf first es t n hist sp spo hist',
  inv cf first t n hist sp -> Forall event_ok es -> in_time t es ->
  first + n + N.of_nat (length es) < two62 ->
  run cf sp hist es = Some (Some spo, hist') ->
  inv cf first (clock t es) (n + N.of_nat (length es)) hist' spo.
Proof.
  intros cf first. induction es as [|e es IH]; intros t n hist sp spo hist' I He Hti Hb H; cbn [run] in H.
  - inversion H; subst. cbn [length clock fold_left]. rewrite N.add_0_r. exact I.
  - destruct (step cf sp e) as [[sp1 acts|]|] eqn:E; [|discriminate|discriminate].
    inversion He; subst. cbn [in_time] in Hti. destruct Hti as [T1 T2]. cbn [length] in *.
    destruct (step_ok _ _ _ _ _ _ _ _ _ I H2 T1 ltac:(lia) E) as [I2 _].
    apply IH with (t := event_time e) (n := n + 1) in H; try assumption; [|lia].
    change (clock t (e :: es)) with (clock (event_time e) es).
    replace (n + N.of_nat (S (length es))) with (n + 1 + N.of_nat (length es)) by lia. exact H.
Qed.

Lemma reach : forall cf pa first start es sp hist, possible cf pa first start es ->
  run cf (space_start pa first start) [] es = Some (Some sp, hist) ->
  inv cf first (clock start es) (N.of_nat (length es)) hist sp.
Proof.
  intros cf pa first start es sp hist (P1 & P2 & P3 & P4 & P5 & P6 & P7) H.
  apply run_ok with (t := start) (n := 0) (first := first) in H; try assumption.
  - apply start_inv; assumption.
  - apply small_lit in P3, P5. unfold two62. lia.
Qed.

Lemma possible_prefix : forall cf pa first start es e, possible cf pa first start (es ++ [e]) ->
  possible cf pa first start es /\ event_ok e /\ clock start es <= event_time e /\
  first + N.of_nat (length es) + 1 < two62.
Proof.
  intros cf pa first start es e (P1 & P2 & P3 & P4 & P5 & P6 & P7).
  apply Forall_app in P6. destruct P6 as [P6 P6']. apply in_time_app in P7. destruct P7 as [P7 P7'].
  rewrite app_length in P5. cbn [length] in P5. apply small_lit in P5. pose proof (small_lit _ P3).
  split; [|split; [|split]].
  - repeat split; try assumption; [apply P2|apply P2|]. apply lit_small. lia.
  - inversion P6'; assumption.
  - cbn [in_time] in P7'. tauto.
  - unfold two62. lia.
Qed.

Lemma inv_sane : forall cf first t n hist sp p now, inv cf first t n hist sp -> config_small cf -> small now ->
  t <= now -> first + n + 1 < two62 -> first + n < 2305843009213693952 -> In p (sp_pending sp) ->
  sane cf sp (last_time (sp_pending sp) p) p now.
Proof.
  intros cf first t n hist sp p now I Hc Hnow Ht Hb Hb2 Hp. apply small_lit in Hnow. destruct I.
  pose proof (i_range p Hp) as R. constructor; try assumption.
  - lia.
  - destruct i_high as [[X _]|X]; [left; exact X|right; lia].
  - apply lit_small. lia.
  - apply lit_small. assert (X : In (last (sp_pending sp) p) (sp_pending sp)).
    { destruct (last_in (sp_pending sp) p) as [E|E]; [rewrite <- E; exact Hp|exact E]. }
    apply i_range in X. unfold last_time. lia.
  - apply lit_small. lia.
  - lia.
Qed.

(** Why a packet is declared lost. *)
Lemma lost_reason : forall cf pa first start es e sp hist sp' acts p,
  possible cf pa first start (es ++ [e]) ->
  run cf (space_start pa first start) [] es = Some (Some sp, hist) ->
  step cf sp e = Some (OGo sp' acts) -> In (AGone p WLost) acts -> pk_zero p = false ->
  overtaken_by cf (pa_rtt (sp_path sp')) (hist ++ acts) p (event_time e) \/
  exists pb, (pb = sp_path sp \/ pb = sp_path sp') /\
    (pa_demoted pb = true /\ pk_time p + path_timer cf pb <= event_time e \/
     pk_elicit p = false /\ pk_time p + 2 * path_timer cf pb <= event_time e).
Proof.
  intros cf pa first start es e sp hist sp' acts p Hpos Hrun Hstep Hin Hz.
  destruct (possible_prefix _ _ _ _ _ _ Hpos) as (Hp1 & He & Ht & Hb).
  pose proof (reach _ _ _ _ _ _ _ Hp1 Hrun) as I.
  destruct Hpos as (P1 & P2 & P3 & P4 & P5 & P6 & P7).
  destruct (step_ok _ _ _ _ _ _ _ _ _ I He Ht Hb Hstep) as (_ & sp1 & Hpath & Hex).
  destruct Hex as [sp2 acts Hno|sp1 sp2 acts acts1 g J Hacts Hno Hg Hrtt].
  { exfalso. apply (Hno _ _ Hin). }
  subst acts. apply in_app_or in Hin. destruct Hin as [Hin|Hin]; [exfalso; apply (Hno _ _ Hin)|].
  apply in_gone_acts in Hin. destruct Hin as (d & w & X & Hin). inversion X; subst d w. clear X.
  rewrite Forall_forall in Hg. apply Hg in Hin. destruct Hin as (l1 & l2 & Hl & Htrap & t0 & e0 & Hpl).
  cbn [fst snd] in *.
  assert (Hpin : In p (sp_pending sp1)) by (rewrite Hl; apply in_or_app; right; left; reflexivity).
  rewrite app_length in P5. cbn [length] in P5. pose proof (small_lit _ P5) as P5'. pose proof (small_lit _ P3) as P3'.
  assert (Hs : sane cf sp1 (last_time (sp_pending sp1) p) p (event_time e)).
  { apply (inv_sane cf first (event_time e) _ _ sp1 p (event_time e) J); try assumption; try apply He; try lia. }
  assert (Hlast : last_time (sp_pending sp1) p = last_time l2 p) by (rewrite Hl; apply last_time_suffix).
  rewrite <- Hlast in Hpl. rewrite (probably_plain _ _ _ _ _ Hs) in Hpl.
  assert (Hz2 : pk_zero p && negb (cf_zero cf) = false) by (rewrite Hz; reflexivity).
  apply (plain_reason _ _ _ _ _ _ _ Hz2) in Hpl.
  pose proof (last_after _ _ (i_sorted _ _ _ _ _ _ J) Hpin) as Hla.
  assert (Hov : forall H : overtaken sp1 p,
    (pk_seq p + 3 <= sp_high sp1 \/
     pk_time p + rt_timer (pa_rtt (sp_path sp1)) <= event_time e \/
     pk_time p + (sp_high_time sp1 - sp_latest sp1) + allowance (pa_rtt (sp_path sp1)) + cf_delay cf <= event_time e) ->
    overtaken_by cf (pa_rtt (sp_path sp2)) (hist ++ acts1 ++ gone_acts g) p (event_time e)).
  { intros H Hc. destruct (i_over _ _ _ _ _ _ J p Hpin Hz H) as (q & Q1 & Q2 & Q3 & Q4 & Q5).
    pose proof (i_times _ _ _ _ _ _ J) as T. rewrite Hrtt.
    exists q, (sp_high_time sp1). rewrite app_assoc.
    split; [apply in_or_app; left; exact Q1|]. split; [rewrite Q2; apply in_or_app; left; exact Q5|].
    destruct H as [_ H]. rewrite Q2, Q3. rewrite Q3 in Q4. split; [exact H|]. split; [exact Q4|]. split; [apply T|].
    split; [apply T|exact Hc]. }
  destruct Hpl as [[H1 H2]|[[H1 H2]|[[H1 H2]|(H1 & H2 & H3 & H4)]]].
  - left. apply Hov; [exact H1|left; exact H2].
  - left. apply Hov; [exact H1|]. right. exact H2.
  - right. exists (sp_path sp1). split; [destruct Hpath as [<- | <-]; [left|right]; reflexivity|]. left. split; [exact H1|lia].
  - right. exists (sp_path sp1). split; [destruct Hpath as [<- | <-]; [left|right]; reflexivity|]. right. split; [exact H1|exact H3].
Qed.

(** Why a packet leaves by a timeout. *)
Lemma timer_reason : forall cf pa first start es e sp hist sp' acts p w,
  possible cf pa first start (es ++ [e]) ->
  run cf (space_start pa first start) [] es = Some (Some sp, hist) ->
  step cf sp e = Some (OGo sp' acts) -> In (AGone p w) acts -> w = WTimer \/ w = WNoAck -> pk_zero p && negb (cf_zero cf) = false ->
  pk_time p + path_timer cf (sp_path sp) <= event_time e /\ (w = WTimer <-> pk_elicit p = true).
Proof.
  intros cf pa first start es e sp hist sp' acts p w Hpos Hrun Hstep Hin Hw Hz2.
  destruct (possible_prefix _ _ _ _ _ _ Hpos) as (Hp1 & He & Ht & Hb).
  pose proof (reach _ _ _ _ _ _ _ Hp1 Hrun) as I.
  destruct Hpos as (P1 & P2 & P3 & P4 & P5 & P6 & P7).
  rewrite app_length in P5. cbn [length] in P5. pose proof (small_lit _ P5) as P5'. pose proof (small_lit _ P3) as P3'.
  assert (Hpoll : exists l1 l2 t0, sp_pending sp = l1 ++ p :: l2 /\
    (w = WTimer <-> pk_elicit p = true) /\
    probably_lost cf sp (last_time l2 p) p (event_time e) = (false, true, t0)).
  { assert (Hg : forall g, In (AGone p w) (gone_acts g) -> Forall (gone_for cf sp (event_time e) (sp_pending sp)) g ->
      exists l1 l2 t0, sp_pending sp = l1 ++ p :: l2 /\ (w = WTimer <-> pk_elicit p = true) /\
      probably_lost cf sp (last_time l2 p) p (event_time e) = (false, true, t0)).
    { intros g Hg F. apply in_gone_acts in Hg. destruct Hg as (d & w' & X & Hg). inversion X; subst d w'.
      rewrite Forall_forall in F. apply F in Hg. destruct Hg as (l1 & l2 & Hl & Hg). cbn [fst snd] in *.
      exists l1, l2. destruct Hw; subst w; destruct Hg as (G1 & G2 & t0 & G3); exists t0;
        (split; [exact Hl|]; split; [|exact G3]); rewrite G2; split; congruence. }
    destruct e as [zero elicit pure now|now|ranges ce r now|same rep wake now|now]; cbn [step event_time] in *.
    - inversion Hstep; subst. destruct Hin as [X|[]]. discriminate.
    - destruct (rev (sp_pending sp)) as [|x l]; [inversion Hstep; subst; destruct Hin|].
      destruct (pk_trap x); inversion Hstep; subst; [destruct Hin|]. destruct Hin as [X|[]]. discriminate.
    - exfalso. unfold receive_ack in Hstep. destruct ranges as [|[low largest] rs]; [discriminate|].
      destruct (sp_next sp <=? largest); [discriminate|].
      destruct (find_acked_packet _ _ _) as [[ds newer] nw]. cbv zeta in Hstep.
      destruct (process_ranges _ _ _) as [[q acked] err]. destruct err; [discriminate|]. destruct (ce && _); [discriminate|].
      destruct acked as [|a acked]; [inversion Hstep; subst; destruct Hin as [X|[]]; discriminate|].
      destruct (on_ack _ _ _ _) as [g k] eqn:Eo. inversion Hstep; subst.
      destruct (on_ack_ok _ _ _ _ _ _ Eo) as (_ & G1 & _).
      destruct Hin as [X|[X|Hin]]; [discriminate|discriminate|]. apply in_app_or in Hin. destruct Hin as [Hin|Hin].
      + apply in_map_iff in Hin. destruct Hin as (m & X & _). discriminate.
      + apply in_gone_acts in Hin. destruct Hin as (d & w' & X & Hin). inversion X; subst d w'.
        rewrite Forall_forall in G1. apply G1 in Hin. cbn [snd] in Hin. destruct Hw, Hin; congruence.
    - inversion Hstep; subst. apply Hg in Hin; [exact Hin|].
      pose proof (loop_ok cf sp same rep now wake (sp_pending sp)) as (F1 & F2 & F3 & F4). exact F3.
    - inversion Hstep; subst. destruct Hin. }
  destruct Hpoll as (l1 & l2 & t0 & Hl & Hwe & Hpl). split; [|exact Hwe].
  assert (Hpin : In p (sp_pending sp)) by (rewrite Hl; apply in_or_app; right; left; reflexivity).
  assert (Hs : sane cf sp (last_time (sp_pending sp) p) p (event_time e)).
  { apply (inv_sane cf first _ _ _ sp p (event_time e) I); try assumption; try apply He; try lia. }
  assert (Hlast : last_time (sp_pending sp) p = last_time l2 p) by (rewrite Hl; apply last_time_suffix).
  rewrite <- Hlast in Hpl. rewrite (probably_plain _ _ _ _ _ Hs) in Hpl.
  pose proof (last_after _ _ (i_sorted _ _ _ _ _ _ I) Hpin) as Hla.
  pose proof Hpl as Hpl2. apply (plain_due _ _ _ _ _ _ _ _ Hz2) in Hpl. destruct Hpl as [Hdue _].
  specialize (Hdue eq_refl). destruct Hdue as [D|[D|[D|D]]]; [| |lia|lia].
  - exfalso. unfold plain_lost in Hpl2. cbv zeta in Hpl2. rewrite Hz2 in Hpl2. destruct D as [D1 D2].
    apply overtakenb_iff in D1. rewrite D1 in Hpl2. replace (pk_seq p + 3 <=? sp_high sp) with true in Hpl2 by lia.
    discriminate.
  - exfalso. unfold plain_lost in Hpl2. cbv zeta in Hpl2. rewrite Hz2 in Hpl2. pose proof D as D0. destruct D as [D1 D2].
    apply overtakenb_iff in D1. apply (early_iff _ _ _ _ D1) in D0. rewrite D1 in Hpl2. cbn [andb] in Hpl2.
    set (early := N.min (_ + _ + _ + _) _) in *. clearbody early.
    destruct (pk_seq p + 3 <=? sp_high sp); [discriminate|]. replace (early <=? event_time e) with true in Hpl2 by lia.
    discriminate.
Qed.
