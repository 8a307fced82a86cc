(** Lemmas about the times of acknowledgements: the invariant. *)
From Verif Require Import Base Tac Varint_model Varint_spec Varint_proofs
  Sack_model Sack_spec Sack_proofs Ack_model Ack_spec Ack_proofs Ack2_proofs Delay_model Delay_spec Delay_proofs.

(** ** The stored ranges *)
Lemma absorb_items : forall hi p c ret mx now p2 hi2 c2 ret2,
  absorb p hi c ret mx now = (p2, hi2, c2, ret2) ->
  (p2 = p \/ nb0 p2 = 0) /\ incl hi2 hi.
Proof.
  induction hi as [|n hi IH]; intros p c ret mx now p2 hi2 c2 ret2 H; cbn [absorb] in H;
    destruct (se p <? mx).
  - inversion H; subst. split; [right; reflexivity|apply incl_refl].
  - inversion H; subst. split; [left; reflexivity|apply incl_refl].
  - destruct (mx <? pred64 (ss n)).
    + inversion H; subst. split; [right; reflexivity|apply incl_refl].
    + apply IH in H. destruct H as [[->|H] Hi]; (split; [right|apply incl_tl; exact Hi]); [reflexivity|exact H].
  - inversion H; subst. split; [left; reflexivity|apply incl_refl].
Qed.

Lemma update_items_items : forall l c mn mx now l2 c2 ret,
  update_items l c mn mx now = (l2, c2, ret) -> forall it, In it l2 -> In it l \/ nb0 it = 0.
Proof.
  intros l c mn mx now l2 c2 ret H it Hin. unfold update_items in H.
  destruct (split_below_spec l [] mn) as (a & b & -> & Hs & Ha & Hb).
  rewrite Hs, app_nil_r in H. clear Hs.
  set (t := match rev a with [] => true | p :: _ => u64 (se p + 1) <? mn end) in H. clearbody t.
  assert (Hra : forall x y, In it (rev_append (rev x) y) -> In it x \/ In it y).
  { intros x y Hx. rewrite rev_append_rev' in Hx. apply in_app_or in Hx. exact Hx. }
  destruct t.
  - destruct b as [|n b].
    + inversion H; subst; clear H. apply Hra in Hin. destruct Hin as [Hin|[<-|[]]]; [left|right; reflexivity].
      apply in_or_app. left. exact Hin.
    + destruct (mx <? pred64 (ss n)).
      * inversion H; subst; clear H. apply Hra in Hin. destruct Hin as [Hin|[<-|Hin]]; [left|right; reflexivity|left];
          apply in_or_app; [left|right]; exact Hin.
      * destruct (absorb _ b _ _ _ _) as [[[p hi2] c3] r3] eqn:Eb. inversion H; subst; clear H.
        apply absorb_items in Eb. destruct Eb as [Hp Hi]. apply Hra in Hin. destruct Hin as [Hin|[<-|Hin]].
        -- left. apply in_or_app. left. exact Hin.
        -- right. destruct Hp as [->|Hp]; [reflexivity|exact Hp].
        -- left. apply in_or_app. right. right. apply Hi. exact Hin.
  - destruct (rev a) as [|p rlo] eqn:Er.
    + inversion H; subst. left. exact Hin.
    + apply (f_equal (@rev _)) in Er. rewrite rev_involutive in Er. cbn [rev] in Er. subst a.
      destruct (absorb p b c 1 mx now) as [[[p2 hi2] c3] r3] eqn:Eb. inversion H; subst; clear H.
      apply absorb_items in Eb. destruct Eb as [Hp Hi].
      rewrite <- (rev_involutive rlo) in Hin. apply Hra in Hin. destruct Hin as [Hin|[<-|Hin]].
      * left. apply in_or_app. left. apply in_or_app. left. exact Hin.
      * destruct Hp as [->|Hp]; [left|right; exact Hp]. apply in_or_app. left. apply in_or_app. right. left. reflexivity.
      * left. apply in_or_app. right. apply Hi. exact Hin.
Qed.

Lemma ack_of_ack_sub : forall l c s e l2 c2, wf_from 0 l -> s <= e ->
  ack_of_ack_items l c 0 s e = (l2, c2) -> forall it2, In it2 l2 ->
  exists it, In it l /\ ss it <= ss it2 /\ se it2 <= se it /\ nb0 it2 = nb0 it.
Proof.
  intros l c s e l2 c2 Hw Hse H it2 Hin. unfold ack_of_ack_items in H.
  assert (Hid : In it2 l -> exists it, In it l /\ ss it <= ss it2 /\ se it2 <= se it /\ nb0 it2 = nb0 it).
  { intros Hi. exists it2. repeat split; try assumption; lia. }
  destruct (split_below_spec l [] s) as (a & b & -> & Hs & Ha & Hb).
  rewrite Hs, app_nil_r in H. clear Hs.
  destruct (rev a) as [|p ra] eqn:Er; [inversion H; subst; apply Hid; exact Hin|].
  apply (f_equal (@rev _)) in Er. rewrite rev_involutive in Er. cbn [rev] in Er. subst a.
  destruct (ss p =? s) eqn:E1; [|inversion H; subst; apply Hid; exact Hin].
  assert (Hp : In p ((rev ra ++ [p]) ++ b)).
  { apply in_or_app. left. apply in_or_app. right. left. reflexivity. }
  pose proof (wf_from_bounds _ _ _ Hw Hp) as (B1 & B2 & B3).
  destruct b as [|n b].
  - inversion H; subst; clear H. rewrite <- (rev_involutive ra), rev_append_rev' in Hin.
    apply in_app_or in Hin. destruct Hin as [Hin|[<-|[]]].
    + apply Hid. apply in_or_app. left. apply in_or_app. left. exact Hin.
    + exists p. split; [exact Hp|]. destruct (e <? se p) eqn:E2; cbn [ss se nb0]; repeat split; try lia.
  - destruct (se p =? e); [|inversion H; subst; apply Hid; exact Hin].
    change (0 <? 0)%Z with false in H. cbn iota in H. inversion H; subst; clear H.
    rewrite <- (rev_involutive ra), rev_append_rev' in Hin. apply Hid.
    apply in_app_or in Hin. destruct Hin as [Hin|Hin].
    + apply in_or_app. left. apply in_or_app. left. exact Hin.
    + apply in_or_app. right. exact Hin.
Qed.

Lemma last_covers : forall s, wf_from 0 (sl_items s) -> sl_items s <> [] ->
  covers (sl_items s) (sack_list_last s) /\ forall q, covers (sl_items s) q -> q <= sack_list_last s.
Proof.
  intros s Hw Hne. unfold sack_list_last. destruct (rev (sl_items s)) as [|it r] eqn:Er.
  - apply (f_equal (@rev _)) in Er. rewrite rev_involutive in Er. contradiction.
  - destruct (wf_last _ _ Hw _ _ Er) as [A B]. split; assumption.
Qed.

Lemma last_max : forall s m, wf_from 0 (sl_items s) ->
  covers (sl_items s) m -> (forall q, covers (sl_items s) q -> q <= m) -> sack_list_last s = m.
Proof.
  intros s m Hw Hc Hm. assert (Hne : sl_items s <> []).
  { intro E. rewrite E in Hc. destruct (covers_nil _ Hc). }
  destruct (last_covers s Hw Hne) as [A B]. specialize (Hm _ A). specialize (B _ Hc). lia.
Qed.

(** ** Frames of a packet *)
Definition core (s s2 : dly) : Prop :=
  d_sl s2 = d_sl s /\ d_ooo s2 = d_ooo s /\ d_high s2 = d_high s /\ d_high_time s2 = d_high_time s /\
  d_stamp s2 = d_stamp s /\ d_nb s2 = d_nb s /\ d_neg s2 = d_neg s /\ d_min s2 = d_min s /\
  d_exp s2 = d_exp s /\ d_max s2 = d_max s.

Lemma core_refl : forall s, core s s.
Proof. intro s. repeat split. Qed.

Lemma core_trans : forall a b c, core a b -> core b c -> core a c.
Proof.
  intros a b c (A1 & A2 & A3 & A4 & A5 & A6 & A7 & A8 & A9 & A10) (B1 & B2 & B3 & B4 & B5 & B6 & B7 & B8 & B9 & B10).
  repeat split; congruence.
Qed.

(** the flag is kept, and set at this time *)
Definition flagged (now : N) (s s2 : dly) : Prop :=
  (d_needed s = true -> d_needed s2 = true /\ d_oldest s2 = d_oldest s) /\
  (d_needed s = false -> d_needed s2 = true -> d_oldest s2 = now) /\
  (d_needed s2 = false -> d_oldest s2 = d_oldest s).

Lemma flagged_refl : forall now s, flagged now s s.
Proof. intros now s. split; [auto|]. split; [|auto]. intros A B. congruence. Qed.

Lemma flagged_trans : forall now a b c, flagged now a b -> flagged now b c -> flagged now a c.
Proof.
  intros now a b c (A1 & A2 & A3) (B1 & B2 & B3). split; [|split].
  - intros H. destruct (A1 H) as [X Y]. destruct (B1 X) as [Z W]. split; [exact Z|congruence].
  - intros H H2. destruct (d_needed b) eqn:E.
    + destruct (B1 eq_refl) as [_ Y]. rewrite Y. apply A2; auto.
    + apply B2; auto.
  - intros H. rewrite (B3 H). apply A3. destruct (d_needed b) eqn:E; [|reflexivity].
    destruct (B1 eq_refl) as [X _]. congruence.
Qed.

Lemma set_needed_core : forall s now imm, core s (set_ack_needed s now imm).
Proof. intros s now imm. unfold set_ack_needed. destruct (d_needed s); repeat split. Qed.

Lemma set_needed_flagged : forall s now imm, flagged now s (set_ack_needed s now imm) /\
  d_needed (set_ack_needed s now imm) = true.
Proof.
  intros s now imm. unfold set_ack_needed. destruct (d_needed s) eqn:E.
  - split; [apply flagged_refl|exact E].
  - split; [|reflexivity]. split; [congruence|]. split; [intros _ _; reflexivity|discriminate].
Qed.

Definition small (s : dly) : Prop := d_gap s < 2 ^ 62 /\ d_delay s < 2 ^ 62.

Lemma set_needed_small : forall s now imm, small s -> small (set_ack_needed s now imm).
Proof. intros s now imm [A B]. unfold set_ack_needed. destruct (d_needed s); split; assumption. Qed.

Lemma decode_frames_core : forall fs s now s2, decode_frames s fs now = Some s2 -> Forall frame_ok fs -> small s ->
  core s s2 /\ flagged now s s2 /\ small s2.
Proof.
  induction fs as [|f fs IH]; intros s now s2 H Hok Hsm; cbn [decode_frames] in H.
  - apply some_inj in H. subst s2. split; [apply core_refl|]. split; [apply flagged_refl|exact Hsm].
  - apply Forall_cons_iff in Hok. destruct Hok as [Hf Hok].
    match type of H with match ?w with _ => _ end = _ => destruct w as [s1|] eqn:E; [|discriminate] end.
    apply IH in H; [|exact Hok|].
    + destruct H as (C & F & S).
      assert (Hone : core s s1 /\ flagged now s s1).
      { destruct f; cbn [immediate_ack] in E.
        - apply some_inj in E. subst s1. split; [apply core_refl|apply flagged_refl].
        - apply some_inj in E. subst s1. split; [apply core_refl|apply flagged_refl].
        - apply some_inj in E. subst s1. split; [repeat split|]. split; [auto|]. split; [cbn; congruence|reflexivity].
        - unfold immediate_ack in E. destruct fs as [|f2 fs]; [apply some_inj in E; subst s1; split; [apply core_refl|apply flagged_refl]|].
          destruct (d_neg s); [|discriminate]. apply some_inj in E. subst s1.
          split; [apply set_needed_core|apply set_needed_flagged].
        - unfold ack_frequency in E. destruct (negb (d_neg s) || _ || _); [discriminate|].
          destruct (later seq (d_seq s)); apply some_inj in E; subst s1.
          + split; [repeat split|]. split; [auto|]. split; [cbn; congruence|reflexivity].
          + split; [apply core_refl|apply flagged_refl]. }
      destruct Hone as [C0 F0]. split; [eapply core_trans; eassumption|].
      split; [eapply flagged_trans; eassumption|exact S].
    + destruct f; cbn [immediate_ack] in E.
      * apply some_inj in E. subst s1. exact Hsm.
      * apply some_inj in E. subst s1. exact Hsm.
      * apply some_inj in E. subst s1. exact Hsm.
      * unfold immediate_ack in E. destruct fs as [|f2 fs]; [apply some_inj in E; subst s1; exact Hsm|].
        destruct (d_neg s); [|discriminate]. apply some_inj in E. subst s1. apply set_needed_small. exact Hsm.
      * unfold ack_frequency in E. destruct (negb (d_neg s) || _ || _); [discriminate|].
        destruct (later seq (d_seq s)); apply some_inj in E; subst s1; [|exact Hsm].
        cbn [frame_ok] in Hf. split; cbn [d_gap d_delay]; tauto.
Qed.

(** ** Histories *)
Lemma named_snoc : forall h o q, named h q -> named (h ++ [o]) q.
Proof.
  intros h o q (b & m & n & t & Hin & Hn). exists b, m, n, t. split; [apply in_or_app; left; exact Hin|exact Hn].
Qed.

Lemma named_recv : forall h pn fs t q, named (h ++ [ORecv pn fs t]) q -> named h q.
Proof.
  intros h pn fs t q (b & m & n & t2 & Hin & Hn). apply in_app_or in Hin. destruct Hin as [Hin|[E|[]]]; [|discriminate].
  exists b, m, n, t2. split; assumption.
Qed.

Lemma named_frame : forall h b m n t q, named (h ++ [OFrame b m n t]) q -> named h q \/ names b q.
Proof.
  intros h b m n t q (b2 & m2 & n2 & t2 & Hin & Hn). apply in_app_or in Hin. destruct Hin as [Hin|[E|[]]].
  - left. exists b2, m2, n2, t2. split; assumption.
  - inversion E; subst. right. exact Hn.
Qed.

Lemma named_this : forall h b m n t q, names b q -> named (h ++ [OFrame b m n t]) q.
Proof.
  intros h b m n t q Hn. exists b, m, n, t. split; [apply in_or_app; right; left; reflexivity|exact Hn].
Qed.

Definition any_frame (h : list obs) : Prop := exists b m n t, In (OFrame b m n t) h.

Record dinv (h : list obs) (s : dly) : Prop := {
  v_ops : exists ops, Forall op62 ops /\ d_sl s = sack_run 0 ops;
  v_small : small s;
  v_stamp : d_stamp s < 2 ^ 62;
  v_oldest : d_oldest s < 2 ^ 62;
  v_sent : forall it q, In it (sl_items (d_sl s)) -> nb0 it <> 0 -> ss it <= q <= se it -> named h q;
  v_keep : forall q fs t, In (ORecv q fs t) h -> ~ named h q -> covers (sl_items (d_sl s)) q;
  v_ne : h <> [] -> sl_items (d_sl s) <> [];
  v_high : forall q, named h q -> q <= d_high s;
  v_high0 : d_high s = 0 \/ named h (d_high s);
  v_high1 : any_frame h -> named h (d_high s);
  v_last : d_high s <= sack_list_last (d_sl s);
  v_cov : any_frame h -> d_ooo s = true \/ forall q, d_high s < q <= sack_list_last (d_sl s) -> covers (sl_items (d_sl s)) q;
  v_old : d_needed s = true -> exists o, In o h /\ d_oldest s <= otime o;
  v_need : calm h -> forall q t, waiting h q t -> d_needed s = true /\ d_oldest s <= t;
  v_ooo : calm h -> forall q t, waiting h q t -> any_frame h -> d_high s < q \/ d_ooo s = true;
  v_recv : forall q, covers (sl_items (d_sl s)) q -> received h q
}.

Lemma ops_facts : forall sl, (exists ops, Forall op62 ops /\ sl = sack_run 0 ops) ->
  sl_delay sl = 0%Z /\ wf_from 0 (sl_items sl) /\ (forall it, In it (sl_items sl) -> se it < two62) /\
  (forall j, j < 4 -> rc0 (sl_rc sl) j = cntf nb0 (sl_items sl) j).
Proof.
  intros sl (ops & Ho & ->). pose proof (op62_valid ops Ho) as Hv. destruct (run_inv_run ops Hv) as [Hd Hw _ _ _].
  split; [exact Hd|]. split; [exact Hw|]. split; [apply op62_items; exact Ho|].
  intros j Hj. destruct (counts_exact ops j Hj) as [C0 _]. exact C0.
Qed.

Lemma run_snoc : forall ops o, sack_run 0 (ops ++ [o]) = sack_step (sack_run 0 ops) o.
Proof. intros. unfold sack_run. rewrite fold_left_app. reflexivity. Qed.

Lemma start_inv : forall nb neg s, start nb neg s -> dinv [] s.
Proof.
  intros nb neg s (min & exp & max & ->). unfold dly_init.
  assert (Hn : forall q, ~ named [] q) by (intros q (b & m & n & t & [] & _)).
  constructor; cbn [d_sl d_gap d_delay d_stamp d_oldest d_high d_needed d_ooo sl_items sack_list_init].
  - exists []. split; [constructor|reflexivity].
  - split; vm_compute; reflexivity.
  - reflexivity.
  - reflexivity.
  - intros it q [].
  - intros q fs t [].
  - intros H. destruct (H eq_refl).
  - intros q H. destruct (Hn _ H).
  - left. reflexivity.
  - intros (b & m & n & t & []).
  - vm_compute. congruence.
  - intros (b & m & n & t & []).
  - discriminate.
  - intros _ q t ((fs & [] & _) & _).
  - intros _ q t ((fs & [] & _) & _).
  - intros q Hq. destruct (covers_nil _ Hq).
Qed.

(** a packet *)
Lemma record_number_inv : forall h s s1 pn fs now, dinv h s ->
  core s s1 -> flagged now s s1 -> small s1 ->
  (existsb elicits fs = true -> d_needed s1 = true) ->
  pn < 2 ^ 62 -> now < 2 ^ 62 -> recent h now ->
  is_pn_already_received (d_sl s) pn = false ->
  dinv (h ++ [ORecv pn fs now]) (record_number s1 pn now).
Proof.
  intros h s s1 pn fs now I (C1 & C2 & C3 & C4 & C5 & C6 & C7 & C8 & C9 & C10) (F1 & F2 & F3) Hsm Hel Hpn Hnow Hrec Hdup.
  destruct I as [Iops Ismall Istamp Ioldest Isent Ikeep Ine Ihigh Ihigh0 Ihigh1 Ilast Icov Iold Ineed Iooo Irecv].
  destruct (ops_facts _ Iops) as (Hd & Hw & H62 & Hcnt).
  assert (Hpm : pn < max64) by (unfold max64; change (2 ^ 62) with 4611686018427387904 in Hpn; lia).
  destruct (update_items (sl_items (d_sl s)) (sl_rc (d_sl s)) pn pn now) as [[l2 c2] ret] eqn:Eu.
  pose proof (update_items_items _ _ _ _ _ _ _ _ Eu) as Hitems.
  apply update_items_spec in Eu as Es; [|exact Hw|lia|exact Hpm].
  destruct Es as (W2 & Cov & _ & _).
  assert (Hsl : fst (record_pn_received (d_sl s1) pn now) = mk_sl l2 (sl_horizon (d_sl s)) (sl_delay (d_sl s)) c2).
  { rewrite C1. unfold record_pn_received, update_sack_list. rewrite Eu, Hd. reflexivity. }
  assert (Hops2 : exists ops, Forall op62 ops /\ fst (record_pn_received (d_sl s1) pn now) = sack_run 0 ops).
  { destruct Iops as (ops & Ho & Es). exists (ops ++ [OpUpdate pn pn now]). split.
    - apply Forall_app. split; [exact Ho|]. constructor; [|constructor]. cbn [op62]. split; [lia|exact Hpn].
    - rewrite run_snoc. cbn [sack_step]. rewrite C1, Es. reflexivity. }
  assert (Hpc : covers l2 pn) by (apply Cov; right; lia).
  assert (Hne2 : l2 <> []) by (intro E; rewrite E in Hpc; destruct (covers_nil _ Hpc)).
  assert (Hold : forall q, covers (sl_items (d_sl s)) q -> covers l2 q) by (intros q Hq; apply Cov; left; exact Hq).
  set (sl2 := mk_sl l2 (sl_horizon (d_sl s)) (sl_delay (d_sl s)) c2) in *.
  assert (Hlast2 : sack_list_last sl2 = N.max pn (sack_list_last (d_sl s))).
  { apply last_max; [exact W2| |].
    - destruct (N.le_gt_cases (sack_list_last (d_sl s)) pn) as [L|L].
      + rewrite N.max_l by lia. exact Hpc.
      + rewrite N.max_r by lia. apply Hold. apply last_covers; [exact Hw|].
        intro E. unfold sack_list_last in L. rewrite E in L. cbn in L. lia.
    - intros q Hq. apply Cov in Hq. destruct Hq as [Hq|Hq]; [|lia].
      assert (Hne : sl_items (d_sl s) <> []) by (intro E; rewrite E in Hq; destruct (covers_nil _ Hq)).
      apply (proj2 (last_covers _ Hw Hne)) in Hq. lia. }
  assert (Hnc : ~ covers (sl_items (d_sl s)) pn).
  { intro Hc. apply is_received_covers in Hc; try assumption. congruence. }
  (* the flags *)
  set (ooo := match sl_items (d_sl s) with
              | [] => d_ooo s
              | _ => if sack_list_last (d_sl s) <? pn then d_ooo s || (u64 (sack_list_last (d_sl s) + 1) <? pn)
                     else d_ooo s || (d_needed s1 && (pn <? d_high s))
              end).
  assert (Hf : exists stamp, record_number s1 pn now =
     mk_dly (d_needed s1) (d_fin s1) ooo (d_imm s1) (d_oldest s1) (d_high s1) (d_high_time s1) stamp
         sl2 (d_nb s1 + 1) (d_gap s1) (d_delay s1) (d_ignore s1) (d_seq s1) (d_neg s1) (d_min s1) (d_exp s1) (d_max s1)
     /\ stamp < 2 ^ 62).
  { unfold record_number. rewrite Hsl. fold sl2. unfold ooo. rewrite C1, C2, C3, C5.
    destruct (sl_items (d_sl s)).
    - exists now. split; [reflexivity|exact Hnow].
    - destruct (sack_list_last (d_sl s) <? pn); eexists; (split; [reflexivity|]); assumption. }
  destruct Hf as (stamp & -> & Hstamp).
  assert (Hoo : d_ooo s = true -> ooo = true).
  { intros Ho. unfold ooo. rewrite Ho. destruct (sl_items (d_sl s)); [reflexivity|]. destruct (_ <? pn); reflexivity. }
  assert (Hlt : sack_list_last (d_sl s) < 2 ^ 62).
  { assert (Hdec : sl_items (d_sl s) = [] \/ sl_items (d_sl s) <> []) by (destruct (sl_items (d_sl s)); [left; reflexivity|right; discriminate]).
    destruct Hdec as [E|E].
    - unfold sack_list_last. rewrite E. reflexivity.
    - destruct (last_covers (d_sl s) Hw E) as [(it & Hin & Hb) _].
      specialize (H62 it Hin). change (2 ^ 62) with two62. lia. }
  assert (Hw1 : forall q t, waiting (h ++ [ORecv pn fs now]) q t ->
     waiting h q t \/ (q = pn /\ t = now /\ existsb elicits fs = true /\ ~ named h pn)).
  { intros q t ((fs2 & Hin & He) & Hn). apply in_app_or in Hin. destruct Hin as [Hin|[E|[]]].
    - left. split; [exists fs2; split; assumption|]. intro X. apply Hn. apply named_snoc. exact X.
    - inversion E; subst. right. refine (conj eq_refl (conj eq_refl (conj He _))).
      intro X. apply Hn. apply named_snoc. exact X. }
  assert (Hcalm : calm (h ++ [ORecv pn fs now]) -> calm h).
  { intros Hc b m n t Hin. apply (Hc b m n t). apply in_or_app. left. exact Hin. }
  assert (Hfr : any_frame (h ++ [ORecv pn fs now]) -> any_frame h).
  { intros (b & m & n & t & Hin). apply in_app_or in Hin. destruct Hin as [Hin|[E|[]]]; [|discriminate].
    exists b, m, n, t. exact Hin. }
  constructor; cbn [d_sl d_gap d_delay d_stamp d_oldest d_high d_needed d_ooo small].
  - destruct Hops2 as (ops & Ho & E). exists ops. split; [exact Ho|]. unfold sl2 in *. rewrite <- E. symmetry. exact Hsl.
  - exact Hsm.
  - exact Hstamp.
  - destruct (d_needed s) eqn:En.
    + destruct (F1 eq_refl) as [_ ->]. exact Ioldest.
    + destruct (d_needed s1) eqn:En1.
      * rewrite (F2 eq_refl eq_refl). exact Hnow.
      * rewrite (F3 eq_refl). exact Ioldest.
  - intros it q Hin Hn0 Hq. apply named_snoc. apply Hitems in Hin. destruct Hin as [Hin|Hin]; [|congruence].
    apply (Isent it q Hin Hn0 Hq).
  - intros q fs2 t Hin Hn. apply in_app_or in Hin. destruct Hin as [Hin|[E|[]]].
    + apply Hold. apply (Ikeep q fs2 t Hin). intro X. apply Hn. apply named_snoc. exact X.
    + inversion E; subst. exact Hpc.
  - intros _. exact Hne2.
  - intros q Hq. apply named_recv in Hq. rewrite C3. apply Ihigh. exact Hq.
  - rewrite C3. destruct Ihigh0 as [E|E]; [left; exact E|right; apply named_snoc; exact E].
  - intros Hf. rewrite C3. apply named_snoc. apply Ihigh1. apply Hfr. exact Hf.
  - rewrite C3, Hlast2. lia.
  - intros Hf. apply Hfr in Hf. specialize (Icov Hf). destruct Icov as [Ho|Hc]; [left; apply Hoo; exact Ho|].
    assert (Hne : sl_items (d_sl s) <> []).
    { apply Ine. destruct Hf as (b & m & n & t & Hin). intro E. rewrite E in Hin. destruct Hin. }
    destruct (N.le_gt_cases pn (sack_list_last (d_sl s))) as [L|L].
    + right. intros q Hq. rewrite C3, Hlast2 in Hq. rewrite N.max_r in Hq by lia. apply Hold. apply Hc. exact Hq.
    + destruct (N.eq_dec pn (sack_list_last (d_sl s) + 1)) as [E|E].
      * right. intros q Hq. rewrite C3, Hlast2 in Hq.
        destruct (N.eq_dec q pn) as [->|Hx]; [exact Hpc|]. apply Hold. apply Hc. lia.
      * left. unfold ooo. destruct (sl_items (d_sl s)); [congruence|].
        replace (sack_list_last (d_sl s) <? pn) with true by (symmetry; apply N.ltb_lt; exact L).
        rewrite u64_small by (unfold two64; change (2 ^ 62) with 4611686018427387904 in Hlt; lia).
        replace (sack_list_last (d_sl s) + 1 <? pn) with true by (symmetry; apply N.ltb_lt; lia).
        apply orb_true_r.
  - intros Hn. exists (ORecv pn fs now). split; [apply in_or_app; right; left; reflexivity|]. cbn [otime].
    destruct (d_needed s) eqn:En.
    + destruct (F1 eq_refl) as [_ ->]. destruct (Iold eq_refl) as (o & Ho & Hle). specialize (Hrec o Ho). lia.
    + rewrite (F2 eq_refl Hn). lia.
  - intros Hc q t Hwt. apply Hw1 in Hwt. destruct Hwt as [Hwt|(-> & -> & He & Hn)].
    + destruct (Ineed (Hcalm Hc) q t Hwt) as [A B]. destruct (F1 A) as [X ->]. split; assumption.
    + specialize (Hel He). split; [exact Hel|]. destruct (d_needed s) eqn:En.
      * destruct (F1 eq_refl) as [_ ->]. destruct (Iold eq_refl) as (o & Ho & Hle). specialize (Hrec o Ho). lia.
      * rewrite (F2 eq_refl Hel). lia.
  - intros Hc q t Hwt Hfm. apply Hfr in Hfm. rewrite C3. apply Hw1 in Hwt. destruct Hwt as [Hwt|(-> & -> & He & Hn)].
    + destruct (Iooo (Hcalm Hc) q t Hwt Hfm) as [A|A]; [left; exact A|right; apply Hoo; exact A].
    + specialize (Hel He). destruct (N.lt_ge_cases (d_high s) pn) as [L|L]; [left; exact L|].
      assert (L2 : pn < d_high s).
      { destruct (N.eq_dec pn (d_high s)) as [E|E]; [|lia].
        specialize (Ihigh1 Hfm) as Z. rewrite <- E in Z. contradiction. }
      right. unfold ooo.
      assert (Hne : sl_items (d_sl s) <> []).
      { intro E. unfold sack_list_last in Ilast. rewrite E in Ilast. cbn in Ilast. lia. }
      destruct (sl_items (d_sl s)); [congruence|].
      replace (sack_list_last (d_sl s) <? pn) with false by (symmetry; apply N.ltb_ge; lia).
      rewrite Hel. replace (pn <? d_high s) with true by (symmetry; apply N.ltb_lt; exact L2).
      apply orb_true_r.
  - intros q Hq. apply Cov in Hq. destruct Hq as [Hq|Hq].
    + destruct (Irecv q Hq) as (fs2 & t & Hin). exists fs2, t. apply in_or_app. left. exact Hin.
    + exists fs, now. apply in_or_app. right. left. f_equal. lia.
Qed.
