(** The invariant of a number space: acknowledgements and runs. *)
From Verif Require Import Base Tac Rtt_model Ack_model Ack_spec Ack_proofs Ack2_proofs Loss_model Loss_spec Loss_proofs Loss2_proofs Loss3_proofs.
From Coq Require Import Sorting.Sorted.

Lemma below_desc : forall rs top, ranges_below top rs -> rs_desc top rs.
Proof. induction rs as [|[l h] rs IH]; intros top H; [exact I|]. cbn in *. intuition. Qed.

Lemma as_sent_sorted : forall l, queue_ok l -> ascending (map as_sent l).
Proof.
  induction l as [|x l IH]; intros H; cbn [map]; [constructor|]. apply StronglySorted_inv in H. destruct H as [H1 H2].
  constructor; [apply IH; exact H1|]. rewrite Forall_forall in *. intros y Hy. apply in_map_iff in Hy.
  destruct Hy as (z & <- & Hz). apply H2 in Hz. apply Hz.
Qed.

(** How often a number is in a list of packets, and in a list of numbers. *)
Definition cnt (m : N) (l : list sent_packet) : nat := length (filter (fun p => p_seq p =? m) l).
Definition occ (m : N) (l : list N) : nat := length (filter (fun x => x =? m) l).

Lemma cnt_app : forall m a b, cnt m (a ++ b) = (cnt m a + cnt m b)%nat.
Proof. intros. unfold cnt. rewrite filter_app, app_length. reflexivity. Qed.
Lemma cnt_rev : forall m a, cnt m (rev a) = cnt m a.
Proof.
  intros m. induction a as [|x a IH]; [reflexivity|]. cbn [rev]. rewrite cnt_app, IH. unfold cnt. cbn [filter].
  destruct (p_seq x =? m); cbn [length]; lia.
Qed.
Lemma occ_app : forall m a b, occ m (a ++ b) = (occ m a + occ m b)%nat.
Proof. intros. unfold occ. rewrite filter_app, app_length. reflexivity. Qed.
Lemma cnt_cons : forall m x l, cnt m (x :: l) = ((if (p_seq x =? m)%N then 1 else 0) + cnt m l)%nat.
Proof. intros. unfold cnt. cbn [filter]. destruct (p_seq x =? m); reflexivity. Qed.
Lemma occ_cons : forall m x l, occ m (x :: l) = ((if (x =? m)%N then 1 else 0) + occ m l)%nat.
Proof. intros. unfold occ. cbn [filter]. destruct (x =? m); reflexivity. Qed.

Lemma range_count : forall m ds highest range,
  let r := process_ack_range ds highest range in
  cnt m ds = (cnt m (rr_passed r) + cnt m (rr_left r) + occ m (rr_acked r))%nat.
Proof.
  intros m. induction ds as [|p ds IH]; intros highest range; cbn [process_ack_range]; cbv zeta; [reflexivity|].
  destruct (range =? 0); [cbn [rr_passed rr_left rr_acked]; change (cnt m []) with 0%nat; change (occ m []) with 0%nat; lia|].
  destruct (highest <? p_seq p).
  { cbn [rr_passed rr_left rr_acked]. rewrite !cnt_cons. specialize (IH highest range). cbv zeta in IH. lia. }
  destruct (range <=? highest - p_seq p); [cbn [rr_passed rr_left rr_acked]; change (cnt m []) with 0%nat; change (occ m []) with 0%nat; lia|].
  destruct (p_trap p); [cbn [rr_passed rr_left rr_acked]; change (cnt m []) with 0%nat; change (occ m []) with 0%nat; lia|].
  cbn [rr_passed rr_left rr_acked]. rewrite cnt_cons, occ_cons.
  specialize (IH (p_seq p - 1) (range - (highest - p_seq p) - 1)). cbv zeta in IH. lia.
Qed.

Lemma ranges_count : forall m rs ds passed q acked err, process_ranges ds passed rs = (q, acked, err) ->
  (cnt m ds + cnt m passed = cnt m q + occ m acked)%nat.
Proof.
  intros m. induction rs as [|[low high] rs IH]; intros ds passed q acked err H; cbn [process_ranges] in H.
  - inversion H; subst. rewrite cnt_app, cnt_rev. change (occ m []) with 0%nat. lia.
  - pose proof (range_count m ds high (high + 1 - low)) as R. cbv zeta in R.
    set (r := process_ack_range ds high (high + 1 - low)) in *.
    destruct (rr_error r).
    + inversion H; subst. rewrite !cnt_app, !cnt_rev. lia.
    + destruct (process_ranges (rr_left r) (rev (rr_passed r) ++ passed) rs) as [[q2 a2] e2] eqn:E.
      inversion H; subst. apply IH in E. rewrite cnt_app, cnt_rev in E. rewrite occ_app. lia.
Qed.

Lemma cnt_in : forall m l, (0 < cnt m l)%nat -> exists p, In p l /\ p_seq p = m.
Proof.
  intros m. induction l as [|x l IH]; intros H; [exfalso; apply Nat.lt_irrefl in H; exact H|]. rewrite cnt_cons in H.
  destruct (p_seq x =? m) eqn:E; [exists x; split; [left; reflexivity|lia]|].
  destruct IH as (p & Hp & Hq); [lia|]. exists p. split; [right; exact Hp|exact Hq].
Qed.

Lemma occ_in : forall m l, In m l -> (0 < occ m l)%nat.
Proof.
  intros m. induction l as [|x l IH]; intros H; [destruct H|]. rewrite occ_cons. destruct H as [-> |H].
  - rewrite N.eqb_refl. lia.
  - apply IH in H. lia.
Qed.

Lemma occ_not : forall m l, ~ In m l -> occ m l = 0%nat.
Proof.
  intros m. induction l as [|x l IH]; intros H; [reflexivity|]. rewrite occ_cons.
  destruct (x =? m) eqn:E; [exfalso; apply H; left; lia|]. rewrite IH; [reflexivity|]. intros X. apply H. right. exact X.
Qed.

Lemma cnt_pending : forall m l, cnt m (map as_sent l) = length (filter (fun p => pk_seq p =? m) l).
Proof.
  intros m. induction l as [|x l IH]; [reflexivity|]. cbn [map]. rewrite cnt_cons, IH. cbn [filter as_sent p_seq].
  destruct (pk_seq x =? m); reflexivity.
Qed.

(** The packets that are released. *)
Lemma acked_facts : forall l high largest low rs ds newer nw q acked,
  queue_ok l -> ranges_below two62 ((low, largest) :: rs) ->
  find_acked_packet (map as_sent l) high largest = (ds, newer, nw) ->
  process_ranges ds newer ((low, largest) :: rs) = (q, acked, false) ->
  nw = ((high <? largest) || (high =? max64)) /\
  (forall m, In m acked -> m <= largest /\ exists p, In p l /\ pk_seq p = m) /\
  (forall m, (occ m acked <= length (filter (fun p => (pk_seq p =? m)%N) l))%nat) /\
  (nw = true -> forall p, In p l -> pk_seq p = largest -> pk_trap p = false).
Proof.
  intros l high largest low rs ds newer nw q acked Hs Hr Hf Hp.
  assert (Hnew : nw = ((high <? largest) || (high =? max64))).
  { destruct (map as_sent l) as [|x m]; cbn [find_acked_packet] in Hf; [inversion Hf; reflexivity|].
    destruct ((high <? largest) || (high =? max64)); [|inversion Hf; reflexivity].
    destruct (advance [x] m largest). inversion Hf; reflexivity. }
  split; [exact Hnew|].
  pose proof (find_acked_keeps _ _ _ _ _ _ Hf) as Hk.
  assert (Hcount : forall m, (occ m acked <= length (filter (fun p => (pk_seq p =? m)%N) l))%nat).
  { intros m. pose proof (ranges_count m _ _ _ _ _ _ Hp) as C. rewrite <- cnt_pending, <- Hk, cnt_app, cnt_rev. lia. }
  split; [|split; [exact Hcount|]].
  - intros m Hm. apply below_desc in Hr. split.
    + destruct (process_ranges_safe ((low, largest) :: rs) ds newer q acked false) as (_ & _ & S3); [|exact Hp|].
      * intros a b Hab. apply (rs_desc_below _ _ _ _ Hr Hab).
      * apply S3 in Hm. destruct Hm as (a & b & Hab & Hc). destruct Hab as [X|Hab]; [inversion X; subst; lia|].
        cbn [rs_desc] in Hr. destruct Hr as (R1 & R2 & R3). apply (rs_desc_below _ _ _ _ R3) in Hab. lia.
    + pose proof (occ_in _ _ Hm) as O. specialize (Hcount m). rewrite <- cnt_pending in Hcount.
      destruct (cnt_in m (map as_sent l)) as (p & Hin & Hq); [lia|]. apply in_map_iff in Hin.
      destruct Hin as (x & <- & Hx). exists x. split; [exact Hx|exact Hq].
  - intros Hn p Hin Hq. rewrite Hn in *.
    destruct (pk_trap p) eqn:E; [exfalso|reflexivity].
    assert (Hin2 : is_new high largest).
    { unfold is_new. symmetry in Hnew. apply orb_true_iff in Hnew. rewrite N.ltb_lt, N.eqb_eq in Hnew. exact Hnew. }
    destruct (find_acked_new (map as_sent l) high largest (as_sent_sorted _ Hs) Hin2) as (o & nn & F1 & F2 & F3 & F4).
    rewrite F1 in Hf. inversion Hf; subst ds newer. clear Hf.
    assert (Hds : In (as_sent p) o).
    { assert (X : In (as_sent p) (map as_sent l)) by (apply in_map; exact Hin). rewrite <- F2 in X. apply in_app_or in X.
      destruct X as [X|X]; [apply in_rev; exact X|]. apply F4 in X. cbn [as_sent p_seq] in X. lia. }
    pose proof (process_ranges_trap ((low, largest) :: rs) o nn two62 F3 (below_desc _ _ Hr)) as T.
    rewrite Hp in T. cbn [snd] in T. discriminate T.
    exists (as_sent p). split; [exact Hds|]. split; [|exact E]. cbn [as_sent p_seq in_rangesb existsb fst snd].
    cbn [ranges_below] in Hr. rewrite Hq. replace (low <=? largest) with true by lia. rewrite N.leb_refl. reflexivity.
Qed.

(** The packet found for the largest number. *)
Lemma top_exact : forall l q, queue_ok l -> In q l -> top_packet (pk_seq q) l = Some q.
Proof.
  induction l as [|x l IH]; intros q Hs Hq; [destruct Hq|]. apply StronglySorted_inv in Hs. destruct Hs as [Hs Hx].
  cbn [top_packet]. destruct Hq as [-> |Hq]; [rewrite N.leb_refl; reflexivity|].
  rewrite Forall_forall in Hx. pose proof (Hx q Hq) as [B1 B2].
  replace (pk_seq q <=? pk_seq x) with false by lia. destruct l as [|y l]; [destruct Hq|]. apply IH; assumption.
Qed.

Lemma top_in : forall l n p, top_packet n l = Some p -> In p l.
Proof.
  induction l as [|x l IH]; intros n p H; cbn [top_packet] in H; [discriminate|].
  destruct (n <=? pk_seq x); [left; congruence|]. destruct l as [|y l]; [left; congruence|]. right. apply (IH n). exact H.
Qed.

Lemma top_first : forall l n p q, queue_ok l -> top_packet n l = Some p -> In q l -> n <= pk_seq q -> pk_time p <= pk_time q.
Proof.
  induction l as [|x l IH]; intros n p q Hs H Hq Hn; [destruct Hq|]. apply StronglySorted_inv in Hs. destruct Hs as [Hs Hx].
  rewrite Forall_forall in Hx. cbn [top_packet] in H. destruct (n <=? pk_seq x) eqn:E.
  - inversion H; subst. destruct Hq as [-> |Hq]; [apply N.le_refl|]. apply Hx in Hq. apply Hq.
  - destruct Hq as [-> |Hq]; [lia|]. destruct l as [|y l]; [destruct Hq|]. apply (IH n); assumption.
Qed.

Definition rel_acts (l : list N) : list action := map ARelease l.

Lemma numbered_rel : forall l m, numbered (rel_acts l) m = 0%nat.
Proof. induction l as [|x l IH]; intros m; [reflexivity|]. unfold numbered in *. cbn [rel_acts map filter]. apply IH. Qed.
Lemma gone_rel : forall l m, gone (rel_acts l) m = 0%nat.
Proof. induction l as [|x l IH]; intros m; [reflexivity|]. unfold gone in *. cbn [rel_acts map filter]. apply IH. Qed.
Lemma released_rel : forall l m, released (rel_acts l) m = occ m l.
Proof.
  induction l as [|x l IH]; intros m; [reflexivity|]. unfold released in *. cbn [rel_acts map filter].
  rewrite occ_cons. destruct (x =? m); cbn [length]; rewrite <- IH; reflexivity.
Qed.

Lemma in_rel : forall l a, In a (rel_acts l) <-> exists m, a = ARelease m /\ In m l.
Proof.
  intros l a. unfold rel_acts. rewrite in_map_iff. split; intros (m & H1 & H2); exists m; split; auto.
Qed.

Definition not_in (acked : list N) (p : packet) : bool := negb (existsb (N.eqb (pk_seq p)) acked).

Lemma not_in_iff : forall acked p, not_in acked p = true <-> ~ In (pk_seq p) acked.
Proof.
  intros acked p. unfold not_in. rewrite negb_true_iff. split.
  - intros H X. assert (existsb (N.eqb (pk_seq p)) acked = true); [|congruence]. apply existsb_exists.
    exists (pk_seq p). split; [exact X|apply N.eqb_refl].
  - intros H. apply not_true_iff_false. intros X. apply existsb_exists in X. destruct X as (x & X1 & X2).
    apply N.eqb_eq in X2. subst. contradiction.
Qed.

Definition new_high (nw : bool) (largest : N) (sp : space) : N := if nw then largest else sp_high sp.
Definition new_time (nw : bool) (now : N) (sp : space) : N := if nw then now else sp_high_time sp.
Definition new_latest (nw : bool) (largest : N) (sp : space) : N :=
  match (if nw then top_packet largest (sp_pending sp) else None) with
  | Some t => if sp_latest sp <? pk_time t then pk_time t else sp_latest sp
  | None => sp_latest sp end.

Lemma pending_left : forall acked l m,
  length (filter (fun p => pk_seq p =? m) (filter (not_in acked) l)) =
  if existsb (N.eqb m) acked then 0%nat else length (filter (fun p => pk_seq p =? m) l).
Proof.
  intros acked l m. induction l as [|x l IH]; [cbn; destruct (existsb _ acked); reflexivity|].
  cbn [filter]. unfold not_in at 1. destruct (pk_seq x =? m) eqn:E.
  - apply N.eqb_eq in E. rewrite E. destruct (existsb (N.eqb m) acked) eqn:E2; cbn [negb]; [exact IH|].
    cbn [filter]. rewrite E, N.eqb_refl. cbn [length]. rewrite IH. reflexivity.
  - destruct (existsb (N.eqb (pk_seq x)) acked); cbn [negb]; [exact IH|]. cbn [filter]. rewrite E. exact IH.
Qed.

(** The first part of the processing of an ACK frame. *)
Lemma ack_stage : forall cf first t n hist sp low largest rs ds newer nw q acked pa,
  inv cf first t n hist sp -> first + n < two62 -> ranges_below two62 ((low, largest) :: rs) -> largest < sp_next sp ->
  find_acked_packet (map as_sent (sp_pending sp)) (sp_high sp) largest = (ds, newer, nw) ->
  process_ranges ds newer ((low, largest) :: rs) = (q, acked, false) ->
  rtt_small (pa_rtt pa) ->
  inv cf first t n (hist ++ AAck largest t :: rel_acts acked)
    (mk_space pa (filter (not_in acked) (sp_pending sp)) (new_high nw largest sp) (new_time nw t sp)
       (new_latest nw largest sp) (sp_next sp)).
Proof.
  intros cf first t n hist sp low largest rs ds newer nw q acked pa I Hb Hr Hl Hf Hp Hpa.
  destruct (acked_facts _ _ _ _ _ _ _ _ _ _ (i_sorted _ _ _ _ _ _ I) Hr Hf Hp) as (Hnw & Hac & Hcount & Htop).
  destruct I.
  assert (Hk : forall p, In p (filter (not_in acked) (sp_pending sp)) -> In p (sp_pending sp) /\ ~ In (pk_seq p) acked).
  { intros p H. apply filter_In in H. destruct H as [H1 H2]. split; [exact H1|]. apply not_in_iff. exact H2. }
  assert (Hhigh : nw = true -> sp_high sp = max64 \/ sp_high sp < largest).
  { intros E. rewrite E in Hnw. symmetry in Hnw. apply orb_true_iff in Hnw. rewrite N.ltb_lt, N.eqb_eq in Hnw. tauto. }
  assert (Hold : nw = false -> largest <= sp_high sp /\ sp_high sp <> max64).
  { intros E. rewrite E in Hnw. symmetry in Hnw. apply orb_false_iff in Hnw. rewrite N.ltb_ge, N.eqb_neq in Hnw. tauto. }
  assert (Hlat : sp_latest sp <= new_latest nw largest sp).
  { unfold new_latest. destruct (if nw then _ else _) as [x|]; [|apply N.le_refl].
    destruct (sp_latest sp <? pk_time x) eqn:E; lia. }
  constructor; cbn [sp_pending sp_path sp_high sp_high_time sp_latest sp_next].
  - apply ssorted_filter. exact i_sorted.
  - intros p H. apply i_range. apply Hk. exact H.
  - exact i_next.
  - exact Hpa.
  - unfold new_high. destruct nw; [right; exact Hl|exact i_high].
  - unfold new_time, new_latest. destruct nw; [|exact i_times].
    destruct (top_packet largest (sp_pending sp)) as [x|] eqn:Ex; [|lia].
    apply top_in in Ex. apply i_range in Ex. destruct (sp_latest sp <? pk_time x); lia.
  - intros p H Hh. apply Hk in H. destruct H as [H1 H2]. unfold new_high in Hh.
    assert (Hlp : sp_high sp = max64 \/ sp_high sp < pk_seq p).
    { destruct nw; [|exact Hh]. destruct (Hhigh eq_refl) as [X|X]; [left; exact X|]. right. unfold max64, two62 in *. lia. }
    pose proof (i_latest p H1 Hlp) as Y.
    unfold new_latest. destruct nw; [|exact Y].
    destruct (top_packet largest (sp_pending sp)) as [x|] eqn:Ex; [|exact Y].
    destruct (sp_latest sp <? pk_time x); [|exact Y].
    apply (top_first _ _ _ _ i_sorted Ex H1). unfold max64, two62 in *. lia.
  - intros m Hm. unfold new_high. apply in_app_or in Hm. destruct Hm as [Hm|[Hm|Hm]]; [|discriminate|].
    + apply i_released in Hm. destruct nw; [|exact Hm]. destruct Hm as [M1 M2]. destruct (Hhigh eq_refl); [contradiction|].
      unfold max64, two62 in *. lia.
    + apply in_rel in Hm. destruct Hm as (m' & X & Hm). inversion X; subst m'. apply Hac in Hm. destruct Hm as [Hm _].
      destruct nw; [unfold max64, two62 in *; lia|]. destruct (Hold eq_refl). split; [assumption|lia].
  - intros d w p Hd H Hz. apply in_app_or in Hd. destruct Hd as [Hd|[Hd|Hd]]; [|discriminate|].
    + apply (i_gone d w p Hd); [apply Hk; exact H|exact Hz].
    + apply in_rel in Hd. destruct Hd as (m & X & _). discriminate.
  - intros m Hm. apply i_cover in Hm. destruct Hm as [(p & H1 & H2)|[Hm|(d & w & Hd & H2)]].
    + destruct (not_in acked p) eqn:E.
      * left. exists p. split; [apply filter_In; split; assumption|exact H2].
      * right. left. apply in_or_app. right. right. apply in_rel. exists m. split; [reflexivity|].
        unfold not_in in E. apply negb_false_iff in E. apply existsb_exists in E. destruct E as (y & Y1 & Y2).
        apply N.eqb_eq in Y2. congruence.
    + right. left. apply in_or_app. left. exact Hm.
    + right. right. exists d, w. split; [apply in_or_app; left; exact Hd|exact H2].
  - intros p H. apply in_or_app. left. apply i_hist. apply Hk. exact H.
  - intros p H Hz Hov. apply Hk in H. destruct H as [H1 H2]. unfold overtaken in Hov. cbn [sp_high] in Hov.
    unfold new_high, new_time in *. destruct nw.
    + (* the largest number is pending *)
      destruct Hov as [V1 V2]. pose proof (i_range p H1) as R1.
      destruct (i_cover largest) as [(x & X1 & X2)|[X|(d & w & X & X2)]]; [lia| | |].
      * pose proof (Htop eq_refl x X1 X2) as Xt. pose proof (i_hist x X1) as Xh. rewrite Xt in Xh.
        exists x. split; [apply in_or_app; left; exact Xh|]. split; [exact X2|]. split.
        { unfold new_latest. rewrite <- X2, (top_exact _ _ i_sorted X1).
          assert (Y : sp_latest sp <= pk_time x). { apply i_latest; [exact X1|]. rewrite X2. apply Hhigh. reflexivity. }
          destruct (sp_latest sp <? pk_time x) eqn:E; lia. }
        split; [|apply in_or_app; right; left; reflexivity].
        { assert (Hb2 : top_packet (pk_seq p) (sp_pending sp) = Some p) by (apply top_exact; assumption).
          apply (top_first _ _ _ _ i_sorted Hb2 X1). lia. }
      * exfalso. apply i_released in X. destruct (Hhigh eq_refl); [tauto|]. lia.
      * exfalso. pose proof (i_gone d w p X H1 Hz). lia.
    + destruct (i_over p H1 Hz Hov) as (x & X1 & X2 & X3 & X4 & X5). exists x.
      split; [apply in_or_app; left; exact X1|]. split; [exact X2|]. split; [exact X3|]. split; [exact X4|].
      apply in_or_app. left. exact X5.
  - intros m. rewrite numbered_app, released_app, gone_app.
    change (AAck largest t :: rel_acts acked) with ([AAck largest t] ++ rel_acts acked).
    rewrite numbered_app, released_app, gone_app, numbered_rel, gone_rel, released_rel.
    change (numbered [AAck largest t] m) with 0%nat. change (released [AAck largest t] m) with 0%nat.
    change (gone [AAck largest t] m) with 0%nat.
    destruct (i_once m) as [O1 O2]. unfold pending in *. cbn [sp_pending]. rewrite pending_left.
    specialize (Hcount m). destruct (existsb (N.eqb m) acked) eqn:E.
    + apply existsb_exists in E. destruct E as (y & Y1 & Y2). apply N.eqb_eq in Y2. subst y.
      pose proof (occ_in _ _ Y1). lia.
    + rewrite (occ_not m acked); [lia|]. intros X. assert (existsb (N.eqb m) acked = true); [|congruence].
      apply existsb_exists. exists m. split; [exact X|apply N.eqb_refl].
  - intros m. rewrite numbered_app. change (AAck largest t :: rel_acts acked) with ([AAck largest t] ++ rel_acts acked).
    rewrite numbered_app, numbered_rel. change (numbered [AAck largest t] m) with 0%nat. intros Hm.
    apply i_numbered. lia.
Qed.
