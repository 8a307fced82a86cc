(** Lemmas about the detection of lost packets: the decision without modular
    arithmetic. *)
From Verif Require Import Base Tac Rtt_model Ack_model Ack_spec Loss_model Loss_spec.
From Coq Require Import Sorting.Sorted.

Lemma small_lit : forall n, small n -> n < 1152921504606846976.
Proof. intros n H. unfold small in H. change (2 ^ 60) with 1152921504606846976 in H. exact H. Qed.
Lemma lit_small : forall n, n < 1152921504606846976 -> small n.
Proof. intros n H. unfold small. change (2 ^ 60) with 1152921504606846976. exact H. Qed.

Lemma path_timer_small : forall cf pa, rtt_small (pa_rtt pa) -> path_timer cf pa < 2305843009213693952.
Proof.
  intros cf pa [_ H]. apply small_lit in H. unfold path_timer, current_timer.
  set (r := backoff_timer _ _ _). clearbody r.
  destruct (2000000 <? r) eqn:E; [|lia].
  destruct (610000 <? rt_min (pa_rtt pa)).
  - assert (Ha : N.shiftr (u64 (rt_smoothed (pa_rtt pa) * 3)) 1 < 2305843009213693952).
    { rewrite N.shiftr_div_pow2. change (2 ^ 1) with 2.
      replace (u64 (rt_smoothed (pa_rtt pa) * 3)) with (rt_smoothed (pa_rtt pa) * 3)
        by (unfold u64, two64; rewrite N.mod_small by lia; reflexivity).
      apply N.div_lt_upper_bound; lia. }
    revert Ha. set (alt := N.shiftr _ _). clearbody alt. intros Ha. destruct (alt <? r) eqn:E2; lia.
  - destruct (2000000 <? r); lia.
Qed.

Lemma rack_delay_allowance : forall r, rack_delay r = allowance r.
Proof.
  intros r. unfold rack_delay, allowance. rewrite N.shiftr_div_pow2. change (2 ^ 2) with 4.
  destruct (5000 <? rt_smoothed r / 4) eqn:E; lia.
Qed.

(** What the decision needs. *)
Record sane (cf : config) (sp : space) (last : N) (p : packet) (now : N) : Prop := mk_sane {
  sa_cf : config_small cf;
  sa_rtt : rtt_small (pa_rtt (sp_path sp));
  sa_seq : pk_seq p < 2305843009213693952;
  sa_high : sp_high sp = max64 \/ sp_high sp < 2305843009213693952;
  sa_time : small (pk_time p);
  sa_last : small last;
  sa_hat : small (sp_high_time sp);
  sa_lta : sp_latest sp <= sp_high_time sp;
  sa_now : small now
}.

Definition overtakenb (sp : space) (p : packet) : bool :=
  (sp_high sp <? two62) && (pk_seq p <? sp_high sp).

Lemma overtakenb_iff : forall sp p, overtakenb sp p = true <-> overtaken sp p.
Proof. intros sp p. unfold overtakenb, overtaken. rewrite andb_true_iff, !N.ltb_lt. reflexivity. Qed.

(** The decision without modular arithmetic. *)
Definition plain_lost (cf : config) (sp : space) (last : N) (p : packet) (now : N) : bool * bool * N :=
  let pa := sp_path sp in
  let passed := overtakenb sp p in
  if pk_zero p && negb (cf_zero cf) then (true, false, now)
  else if passed && (pk_seq p + 3 <=? sp_high sp) then (true, false, now)
  else
    let early := if passed then
      N.min (pk_time p + (sp_high_time sp - sp_latest sp) + allowance (pa_rtt pa) + cf_delay cf)
            (pk_time p + rt_timer (pa_rtt pa)) else max64 in
    if passed && (early <=? now) then (true, false, early)
    else
      let timer := path_timer cf pa in
      if last + timer <=? now then
        (pa_demoted pa, negb (pa_demoted pa), N.min (last + timer) early)
      else if pa_nb pa =? 0 then
        if pk_time p + 2 * timer <? last then
          ((pk_time p + 2 * timer <=? now) && negb (pk_elicit p), (pk_time p + 2 * timer <=? now) && pk_elicit p,
           N.min (pk_time p + 2 * timer) early)
        else (false, false, N.min (last + timer) early)
      else (false, false, N.min (last + timer) early).

Lemma minus64_ge : forall a b, a < two64 -> b <= a -> minus64 a b = a - b.
Proof.
  intros a b Ha Hb. unfold minus64, u64. replace (a + two64 - b) with (a - b + 1 * two64) by lia.
  rewrite N.mod_add by discriminate. apply N.mod_small. lia.
Qed.

Lemma minus64_lt : forall a b, a < b -> b < two64 -> minus64 a b = a + two64 - b.
Proof. intros a b Ha Hb. unfold minus64, u64. apply N.mod_small. lia. Qed.

Lemma u64_id : forall x, x < two64 -> u64 x = x.
Proof. intros x H. apply N.mod_small. exact H. Qed.

Lemma probably_plain : forall cf sp last p now, sane cf sp last p now ->
  probably_lost cf sp last p now = plain_lost cf sp last p now.
Proof.
  intros cf sp last p now [Hcf Hrtt Hseq Hhigh Htime Hlast Hhat Hlta Hnow].
  pose proof (path_timer_small cf (sp_path sp) Hrtt) as Ht. destruct Hrtt as [Hr1 Hr2].
  unfold config_small in Hcf. apply small_lit in Hcf, Hr1, Hr2, Htime, Hlast, Hhat, Hnow.
  unfold probably_lost, plain_lost. cbv zeta.
  assert (E1 : (0 <? minus64 (sp_high sp) (pk_seq p)) && (minus64 (sp_high sp) (pk_seq p) <? two63) = overtakenb sp p).
  { unfold overtakenb. destruct Hhigh as [-> | Hh].
    - rewrite minus64_ge by (unfold max64, two64; lia). unfold max64, two63, two62. lia.
    - destruct (pk_seq p <=? sp_high sp) eqn:E.
      + rewrite minus64_ge by (unfold two64; lia). unfold two63, two62. lia.
      + rewrite minus64_lt by (unfold two64; lia). unfold two64, two63, two62. lia. }
  rewrite E1.
  assert (E2 : overtakenb sp p = true -> (3 <=? minus64 (sp_high sp) (pk_seq p)) = (pk_seq p + 3 <=? sp_high sp)).
  { unfold overtakenb. intros E. rewrite minus64_ge by (unfold two64, two62 in *; lia). unfold two62 in *. lia. }
  assert (E2' : overtakenb sp p && (3 <=? minus64 (sp_high sp) (pk_seq p)) =
                overtakenb sp p && (pk_seq p + 3 <=? sp_high sp)).
  { destruct (overtakenb sp p); [|reflexivity]. rewrite E2; reflexivity. }
  rewrite E2'. clear E1 E2 E2'.
  set (timer := path_timer cf (sp_path sp)) in *. clearbody timer.
  assert (Ha : allowance (pa_rtt (sp_path sp)) <= 5000) by (unfold allowance; lia).
  rewrite rack_delay_allowance. set (al := allowance (pa_rtt (sp_path sp))) in *. clearbody al.
  assert (E3 : u64 (minus64 (u64 (sp_high_time sp + al)) (minus64 (sp_latest sp) (pk_time p)) + cf_delay cf) =
               pk_time p + (sp_high_time sp - sp_latest sp) + al + cf_delay cf).
  { rewrite (u64_id (sp_high_time sp + al)) by (unfold two64; lia).
    destruct (pk_time p <=? sp_latest sp) eqn:E.
    - rewrite (minus64_ge (sp_latest sp)) by (unfold two64; lia).
      rewrite minus64_ge by (unfold two64; lia). rewrite u64_id by (unfold two64; lia). lia.
    - rewrite (minus64_lt (sp_latest sp)) by (unfold two64; lia).
      rewrite minus64_lt by (unfold two64; lia). rewrite u64_id by (unfold two64; lia). unfold two64. lia. }
  rewrite E3. clear E3.
  replace (u64 (pk_time p + rt_timer (pa_rtt (sp_path sp)))) with (pk_time p + rt_timer (pa_rtt (sp_path sp)))
    by (symmetry; apply u64_id; unfold two64; lia).
  replace (u64 (last + timer)) with (last + timer) by (symmetry; apply u64_id; unfold two64; lia).
  rewrite (u64_id (2 * timer)) by (unfold two64; lia). rewrite (u64_id (pk_time p + 2 * timer)) by (unfold two64; lia).
  set (rk := pk_time p + (sp_high_time sp - sp_latest sp) + al + cf_delay cf).
  set (ro := pk_time p + rt_timer (pa_rtt (sp_path sp))).
  replace (if rk <? ro then rk else ro) with (N.min rk ro) by (destruct (rk <? ro) eqn:E; lia).
  reflexivity.
Qed.

(** Something is to be done, for a packet that is pending with the last one at [last]. *)
Definition due_at (cf : config) (sp : space) (last : N) (p : packet) (now : N) : Prop :=
  lost_number sp p \/ lost_time cf sp p now \/ timed_out cf sp last p now.

Ltac ifs := repeat match goal with
  | |- context [if ?b then _ else _] => let E := fresh "E" in destruct b eqn:E
  end.

Lemma early_iff : forall cf sp p now, overtakenb sp p = true ->
  (N.min (pk_time p + (sp_high_time sp - sp_latest sp) + allowance (pa_rtt (sp_path sp)) + cf_delay cf)
         (pk_time p + rt_timer (pa_rtt (sp_path sp))) <= now <-> lost_time cf sp p now).
Proof.
  intros cf sp p now H. apply overtakenb_iff in H. unfold lost_time. split.
  - intros E. split; [exact H|]. lia.
  - intros [_ E]. lia.
Qed.

Lemma not_overtaken : forall cf sp p now, overtakenb sp p = false -> ~ lost_number sp p /\ ~ lost_time cf sp p now.
Proof.
  intros cf sp p now H. split; intros [H1 _]; apply overtakenb_iff in H1; congruence.
Qed.

Lemma plain_due : forall cf sp last p now l e t, pk_zero p && negb (cf_zero cf) = false ->
  plain_lost cf sp last p now = (l, e, t) -> (l || e = true <-> due_at cf sp last p now).
Proof.
  intros cf sp last p now l e t Hz H. unfold plain_lost in H. cbv zeta in H. rewrite Hz in H.
  unfold due_at.
  destruct (overtakenb sp p) eqn:Ho.
  - pose proof (early_iff cf sp p now Ho) as Hearly.
    set (early := N.min _ _) in *. clearbody early. cbn [andb] in H.
    destruct (pk_seq p + 3 <=? sp_high sp) eqn:E1.
    { inversion H; subst. split; [intros _|reflexivity]. left. split; [apply overtakenb_iff; exact Ho|lia]. }
    assert (Hn : ~ lost_number sp p) by (intros [_ X]; lia).
    destruct (early <=? now) eqn:E2.
    { inversion H; subst. split; [intros _|reflexivity]. right. left. apply Hearly. lia. }
    assert (Hm : ~ lost_time cf sp p now) by (intros X; apply Hearly in X; lia).
    revert H. unfold timed_out. set (timer := path_timer cf (sp_path sp)). clearbody timer. set (alt := pk_time p + 2 * timer) in *. clearbody alt.
    destruct (last + timer <=? now) eqn:E3; [|destruct (pa_nb (sp_path sp) =? 0) eqn:E4;
      [destruct (alt <? last) eqn:E5|]]; intros H; inversion H; subst; clear H.
    + split; [intros _; right; right; left; lia|]. intros _. destruct (pa_demoted _); reflexivity.
    + destruct (alt <=? now) eqn:E6; destruct (pk_elicit p); cbn [andb orb negb];
        (split; [intros HH; try discriminate; right; right; right; lia|intros X; try reflexivity]);
        exfalso; (destruct X as [X|[X|X]]; [tauto|tauto|lia]).
    + split; [discriminate|]. intros X. exfalso. destruct X as [X|[X|X]]; [tauto|tauto|lia].
    + split; [discriminate|]. intros X. exfalso. destruct X as [X|[X|X]]; [tauto|tauto|lia].
  - destruct (not_overtaken cf sp p now Ho) as [Hn Hm]. cbn [andb] in H.
    revert H. unfold timed_out. set (timer := path_timer cf (sp_path sp)). clearbody timer. set (alt := pk_time p + 2 * timer) in *. clearbody alt.
    destruct (last + timer <=? now) eqn:E3; [|destruct (pa_nb (sp_path sp) =? 0) eqn:E4;
      [destruct (alt <? last) eqn:E5|]]; intros H; inversion H; subst; clear H.
    + split; [intros _; right; right; left; lia|]. intros _. destruct (pa_demoted _); reflexivity.
    + destruct (alt <=? now) eqn:E6; destruct (pk_elicit p); cbn [andb orb negb];
        (split; [intros HH; try discriminate; right; right; right; lia|intros X; try reflexivity]);
        exfalso; (destruct X as [X|[X|X]]; [tauto|tauto|lia]).
    + split; [discriminate|]. intros X. exfalso. destruct X as [X|[X|X]]; [tauto|tauto|lia].
    + split; [discriminate|]. intros X. exfalso. destruct X as [X|[X|X]]; [tauto|tauto|lia].
Qed.

(** Why a packet is declared lost. *)
Lemma plain_reason : forall cf sp last p now e t, pk_zero p && negb (cf_zero cf) = false ->
  plain_lost cf sp last p now = (true, e, t) ->
  lost_number sp p \/ lost_time cf sp p now \/
  (pa_demoted (sp_path sp) = true /\ last + path_timer cf (sp_path sp) <= now) \/
  (pk_elicit p = false /\ pa_nb (sp_path sp) = 0 /\ pk_time p + 2 * path_timer cf (sp_path sp) <= now /\
   pk_time p + 2 * path_timer cf (sp_path sp) < last).
Proof.
  intros cf sp last p now e t Hz H. unfold plain_lost in H. cbv zeta in H. rewrite Hz in H.
  destruct (overtakenb sp p) eqn:Ho.
  - pose proof (early_iff cf sp p now Ho) as Hearly.
    set (early := N.min _ _) in *. clearbody early. cbn [andb] in H.
    destruct (pk_seq p + 3 <=? sp_high sp) eqn:E1.
    { left. split; [apply overtakenb_iff; exact Ho|lia]. }
    destruct (early <=? now) eqn:E2.
    { right. left. apply Hearly. lia. }
    revert H. set (timer := path_timer cf (sp_path sp)). clearbody timer. set (alt := pk_time p + 2 * timer) in *. clearbody alt.
    destruct (last + timer <=? now) eqn:E3; [|destruct (pa_nb (sp_path sp) =? 0) eqn:E4;
      [destruct (alt <? last) eqn:E5|]]; intros H;
      pose proof (f_equal (fun x => fst (fst x)) H) as H1; cbn [fst] in H1; clear H; try discriminate.
    + right. right. left. split; [exact H1|lia].
    + right. right. right. destruct (pk_elicit p); cbn [negb] in H1; lia.
  - cbn [andb] in H. revert H. set (timer := path_timer cf (sp_path sp)). clearbody timer. set (alt := pk_time p + 2 * timer) in *. clearbody alt.
    destruct (last + timer <=? now) eqn:E3; [|destruct (pa_nb (sp_path sp) =? 0) eqn:E4;
      [destruct (alt <? last) eqn:E5|]]; intros H;
      pose proof (f_equal (fun x => fst (fst x)) H) as H1; cbn [fst] in H1; clear H; try discriminate.
    + right. right. left. split; [exact H1|lia].
    + right. right. right. destruct (pk_elicit p); cbn [negb] in H1; lia.
Qed.

(** The time announced for a packet for which nothing is to be done yet. *)
Lemma plain_time : forall cf sp last p now t, pk_zero p && negb (cf_zero cf) = false -> small last -> rtt_small (pa_rtt (sp_path sp)) ->
  plain_lost cf sp last p now = (false, false, t) ->
  now < t /\ t < max64 /\ forall u, now <= u -> (t <= u <-> due_at cf sp last p u).
Proof.
  intros cf sp last p now t Hz Hl Hr H.
  pose proof (path_timer_small cf (sp_path sp) Hr) as Ht. apply small_lit in Hl.
  unfold plain_lost in H. cbv zeta in H. rewrite Hz in H.
  unfold due_at, timed_out, max64 in *.
  destruct (overtakenb sp p) eqn:Ho.
  - pose proof (fun u => early_iff cf sp p u Ho) as Hearly.
    set (early := N.min (_ + _ + _ + _) _) in *. clearbody early. cbn [andb] in H.
    destruct (pk_seq p + 3 <=? sp_high sp) eqn:E1; [discriminate|].
    assert (Hn : ~ lost_number sp p) by (intros [_ X]; lia).
    destruct (early <=? now) eqn:E2; [discriminate|].
    revert H. set (timer := path_timer cf (sp_path sp)) in *. clearbody timer. set (alt := pk_time p + 2 * timer) in *. clearbody alt.
    destruct (last + timer <=? now) eqn:E3; [|destruct (pa_nb (sp_path sp) =? 0) eqn:E4;
      [destruct (alt <? last) eqn:E5|]]; intros H; inversion H; subst; clear H.
    + destruct (pa_demoted _); discriminate.
    + assert (E6 : now < alt) by (destruct (pk_elicit p); lia). clear H1 H2.
      split; [lia|]. split; [lia|]. intros u Hu. rewrite <- (Hearly u). split; intros X; [|destruct X as [X|X]; [exfalso; tauto|]]; lia.
    + split; [lia|]. split; [lia|]. intros u Hu. rewrite <- (Hearly u). split; intros X; [|destruct X as [X|X]; [exfalso; tauto|]]; lia.
    + split; [lia|]. split; [lia|]. intros u Hu. rewrite <- (Hearly u). split; intros X; [|destruct X as [X|X]; [exfalso; tauto|]]; lia.
  - cbn [andb] in H.
    assert (Hn : forall u, ~ lost_number sp p /\ ~ lost_time cf sp p u) by (intros u; apply not_overtaken; exact Ho).
    revert H. set (timer := path_timer cf (sp_path sp)) in *. clearbody timer. set (alt := pk_time p + 2 * timer) in *. clearbody alt.
    destruct (last + timer <=? now) eqn:E3; [|destruct (pa_nb (sp_path sp) =? 0) eqn:E4;
      [destruct (alt <? last) eqn:E5|]]; intros H; inversion H; subst; clear H.
    + destruct (pa_demoted _); discriminate.
    + assert (E6 : now < alt) by (destruct (pk_elicit p); lia). clear H1 H2.
      split; [lia|]. split; [lia|]. intros u Hu. destruct (Hn u) as [N1 N2]. split; intros X; [|destruct X as [X|[X|X]]; [exfalso; tauto|exfalso; tauto|]]; lia.
    + split; [lia|]. split; [lia|]. intros u Hu. destruct (Hn u) as [N1 N2]. split; intros X; [|destruct X as [X|[X|X]]; [exfalso; tauto|exfalso; tauto|]]; lia.
    + split; [lia|]. split; [lia|]. intros u Hu. destruct (Hn u) as [N1 N2]. split; intros X; [|destruct X as [X|[X|X]]; [exfalso; tauto|exfalso; tauto|]]; lia.
Qed.
