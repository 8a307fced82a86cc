(** Path MTU discovery: sizes, validation, number of lost probes. *)
From Verif Require Import Base Tac Pmtu_model Pmtu_spec.

Lemma pick_in i : forall l k r, pick i l = Some (k, r) -> In k l /\ (forall y, In y r -> In y l) /\
  probes l = probes r + (if k_probe k then 1 else 0).
Proof.
  induction i as [| i IH]; intros l k r; destruct l as [| y l]; cbn [pick]; try discriminate.
  - intro E. inv_pair E. split; [left; reflexivity |]. split; [intros; right; assumption |].
    unfold probes. cbn [filter]. destruct (k_probe k); cbn [length]; lia.
  - destruct (pick i l) as [[z r'] |] eqn:Ep; [| discriminate]. intro E. inv_pair E.
    destruct (IH _ _ _ Ep) as (H1 & H2 & H3). split; [right; exact H1 |]. split.
    + intros w [<- | Hw]; [left; reflexivity | right; auto].
    + revert H3. unfold probes. cbn [filter]. destruct (k_probe y), (k_probe k); cbn [length]; lia.
Qed.

Lemma sub32_small a b : b <= a -> a < 4294967296 -> sub32 a b = a - b.
Proof.
  intros. unfold sub32. replace (a + 4294967296 - b) with (a - b + 1 * 4294967296) by lia.
  rewrite N.mod_add by lia. apply N.mod_small. lia.
Qed.
Lemma sub32_wrap a b : a < b -> b <= 4294967296 -> sub32 a b = a + 4294967296 - b.
Proof. intros. unfold sub32. apply N.mod_small. lia. Qed.
Lemma overhead_cases v6 : overhead v6 = 28 \/ overhead v6 = 48.
Proof. destruct v6; auto. Qed.

(** The first probe. *)
Definition top (g : mconf) (v6 : bool) : N :=
  let l := sub32 (g_max g) (overhead v6) in
  if (0 <? g_max g) && (l <? g_remote g) then l
  else if packet_room <? g_remote g then packet_room else g_remote g.

Lemma top_allowed g v6 : sane_conf g -> allowed_size g v6 (top g v6) /\ forall t, allowed_size g v6 t -> t <= top g v6.
Proof.
  intros (R1 & R2 & R3). unfold top, allowed_size, local_limit, packet_room.
  assert (O := overhead_cases v6). set (o := overhead v6) in *. clearbody o.
  destruct (N.lt_ge_cases (g_max g) o) as [Q | Q].
  - rewrite (sub32_wrap _ _ Q) by lia.
    destruct (N.ltb_spec (g_max g + 4294967296 - o) (g_remote g)); [lia |]. rewrite andb_false_r.
    destruct (N.ltb_spec 1536 (g_remote g)); (split; [split; [lia | split; [lia | auto]] | intros t (H1 & H2 & H3); lia]).
  - rewrite (sub32_small _ _ Q) by lia. assert (Z : 0 <? g_max g = true) by (apply N.ltb_lt; lia). rewrite Z. cbn [andb].
    destruct (N.ltb_spec (g_max g - o) (g_remote g)) as [L | L].
    + split; [split; [lia | split; [lia |]]; right; right; lia |]. intros t (H1 & H2 & [H3 | [H3 | H3]]); lia.
    + destruct (N.ltb_spec 1536 (g_remote g)); (split; [split; [lia | split; [lia |]]; right; right; lia | intros t (H1 & H2 & H3); lia]).
Qed.

Lemma next_zero g x : sane_conf g -> p_tried x = 0 -> next_probe g x = N.max (top g (p_v6 x)) (p_mtu x).
Proof.
  intros (R1 & R2 & R3) Z. unfold next_probe. rewrite Z. cbn [N.eqb].
  assert (P : 0 <? g_remote g = true) by (apply N.ltb_lt; lia). rewrite P. fold (top g (p_v6 x)). cbv zeta.
  change (let l := sub32 (g_max g) (overhead (p_v6 x)) in
    if (0 <? g_max g) && (l <? g_remote g) then l else if packet_room <? g_remote g then packet_room else g_remote g) with (top g (p_v6 x)).
  unfold top. set (y := if (0 <? g_max g) && _ then _ else _). destruct (N.ltb_spec y (p_mtu x)); lia.
Qed.

Lemma needed_inv g x q : probe_needed g x q <> NotNeeded ->
  p_probing x = false /\ (p_tried x = 0 \/ 1400 < p_tried x) /\ p_mtu x < next_probe g x.
Proof.
  unfold probe_needed. destruct (p_probing x); [congruence |].
  destruct (g_policy g); try congruence;
    (destruct ((p_tried x =? 0) || (1400 <? p_tried x)) eqn:E; [| congruence];
     destruct (N.ltb_spec (p_mtu x) (next_probe g x)); [| congruence];
     intros _; split; [reflexivity |]; apply orb_true_iff in E; rewrite N.eqb_eq, N.ltb_lt in E; auto).
Qed.

Lemma next_tried g x : 1400 < p_tried x -> next_probe g x = if 1500 <? p_tried x then 1500 else 1400.
Proof.
  intro H. unfold next_probe. destruct (N.eqb_spec (p_tried x) 0); [lia |].
  destruct (1500 <? p_tried x); [reflexivity |]. apply N.ltb_lt in H. rewrite H. reflexivity.
Qed.

(** ** Sizes *)
(** No size beyond the limits is ever in use. *)
Definition limit (g : mconf) : N := N.max 1252 (N.min (g_remote g) 1536).
Definition within (g : mconf) (x : mpath) : Prop :=
  1232 <= p_mtu x /\ p_mtu x <= limit g /\ p_tried x <= limit g /\
  Forall (fun k => k_size k <= limit g) (p_flight x) /\ Forall (fun k => k_size k <= limit g) (p_lost x) /\
  Forall (fun k => k_probe k = true -> k_size k <= g_remote g /\ k_size k <= 1536) (p_flight x ++ p_lost x) /\
  (p_tried x <= 1252 \/ (p_tried x <= g_remote g /\ p_tried x <= 1536)).

Lemma initial_range v6 : 1232 <= initial_mtu v6 /\ initial_mtu v6 <= 1252.
Proof. destruct v6; cbn; lia. Qed.

Lemma next_within g x q : sane_conf g -> within g x -> probe_needed g x q <> NotNeeded ->
  p_mtu x < next_probe g x /\ next_probe g x <= g_remote g /\ next_probe g x <= 1536.
Proof.
  intros S W N0. destruct (needed_inv _ _ _ N0) as (_ & T & M). split; [exact M |].
  destruct W as (W1 & W2 & W3 & _ & _ & _ & W7).
  destruct T as [T | T].
  - rewrite (next_zero _ _ S T) in *. destruct (top_allowed g (p_v6 x) S) as [(A1 & A2 & _) _]. lia.
  - rewrite (next_tried g x T) in *. destruct (N.ltb_spec 1500 (p_tried x)); lia.
Qed.

Lemma prepared g x header chk room q : sane_conf g -> within g x -> header + chk < 1200 -> p_mtu x < room ->
  probe_needed g x q <> NotNeeded ->
  exists p, prepare_probe g x header chk room = Some p /\ p_mtu x < p /\ p <= g_remote g /\ p <= 1536 /\
    p <= room /\ p = N.min room (next_probe g x).
Proof.
  intros S W H R N0. destruct (next_within _ _ _ S W N0) as (M1 & M2 & M3). destruct W as (W1 & _).
  unfold prepare_probe. cbv zeta.
  exists (N.min room (next_probe g x)).
  assert (E : (if room <? next_probe g x then room else next_probe g x) = N.min room (next_probe g x)).
  { destruct (N.ltb_spec room (next_probe g x)); lia. }
  rewrite E. unfold packet_room. destruct (N.ltb_spec (N.min room (next_probe g x)) (chk + header + 1)); [lia |].
  destruct (N.ltb_spec 1536 (N.min room (next_probe g x) - chk)); [lia |]. split; [reflexivity |]. lia.
Qed.

Lemma pick_forall (P : mpkt -> Prop) i l k r : pick i l = Some (k, r) -> Forall P l -> P k /\ Forall P r.
Proof.
  intros E F. destruct (pick_in _ _ _ _ E) as (H1 & H2 & _). rewrite Forall_forall in *. split; [auto |].
  intros y Hy. auto.
Qed.

Lemma within_reset g x v6 : within g x -> within g (reset_mtu x v6).
Proof.
  intros (W1 & W2 & W3 & W4 & W5 & W6 & W7). pose proof (initial_range v6). unfold within, reset_mtu. cbn [p_mtu p_tried p_flight p_lost].
  split; [lia |]. split; [unfold limit; lia |]. split; [unfold limit; lia |]. repeat (split; [assumption |]). left. lia.
Qed.

Lemma check_same x k timer : check_losses x k timer = x \/
  (exists n, check_losses x k timer = mk_pa (p_v6 x) (p_mtu x) (p_tried x) (p_probing x) n (p_flight x) (p_lost x)) \/
  exists n, check_losses x k timer = reset_mtu (mk_pa (p_v6 x) (p_mtu x) (p_tried x) (p_probing x) n (p_flight x) (p_lost x)) (p_v6 x).
Proof.
  unfold check_losses. destruct (_ || timer); [| auto]. cbv zeta. right. cbn [p_losses].
  destruct (_ || timer); [right | left]; eexists; reflexivity.
Qed.

Lemma within_check g x k timer : within g x -> within g (check_losses x k timer) /\
  p_flight (check_losses x k timer) = p_flight x /\ p_lost (check_losses x k timer) = p_lost x.
Proof.
  intro W. destruct (check_same x k timer) as [-> | [[n ->] | [n ->]]]; (split; [| split; reflexivity]); try exact W.
  apply within_reset. exact W.
Qed.

Lemma within_queues g x f l : within g x -> Forall (fun k => In k (p_flight x) \/ In k (p_lost x)) f ->
  Forall (fun k => In k (p_flight x) \/ In k (p_lost x)) l -> within g (set_queues x f l).
Proof.
  intros (W1 & W2 & W3 & W4 & W5 & W6 & W7) Ff Fl. unfold within, set_queues. cbn [p_mtu p_tried p_flight p_lost].
  rewrite Forall_forall in W4, W5, W6, Ff, Fl. rewrite !Forall_forall.
  split; [exact W1 |]. split; [exact W2 |]. split; [exact W3 |]. split.
  - intros k Hk. destruct (Ff k Hk); auto.
  - split; [intros k Hk; destruct (Fl k Hk); auto |]. split; [| exact W7].
    intros k Hk. apply in_app_or in Hk. apply W6. apply in_or_app. destruct Hk as [Hk | Hk]; auto.
Qed.

Lemma within_step g x e x' o : sane_conf g -> sane_ev e -> within g x -> mstep g x e = Some (x', o) -> within g x'.
Proof.
  intros S Se W. assert (W' := W). destruct W' as (W1 & W2 & W3 & W4 & W5 & W6 & W7).
  assert (Pf : forall i k r, pick i (p_flight x) = Some (k, r) -> Forall (fun y => In y (p_flight x) \/ In y (p_lost x)) r).
  { intros i k r E. destruct (pick_in _ _ _ _ E) as (_ & H & _). apply Forall_forall. auto. }
  assert (Pl : forall i k r, pick i (p_lost x) = Some (k, r) -> Forall (fun y => In y (p_flight x) \/ In y (p_lost x)) r).
  { intros i k r E. destruct (pick_in _ _ _ _ E) as (_ & H & _). apply Forall_forall. auto. }
  assert (Fl : Forall (fun y => In y (p_flight x) \/ In y (p_lost x)) (p_lost x)) by (apply Forall_forall; auto).
  assert (Ff : Forall (fun y => In y (p_flight x) \/ In y (p_lost x)) (p_flight x)) by (apply Forall_forall; auto).
  destruct e as [size room | header chk room queued | i | i timer keep | i | i | v6]; cbn [mstep].
  - destruct ((size <=? p_mtu x) && (size <=? room)) eqn:E; intro H; inv_pair H; [| exact W].
    apply andb_true_iff in E. rewrite N.leb_le in E. destruct E as [E _]. unfold within. cbn [p_mtu p_tried p_flight p_lost set_queues app].
    repeat (split; [assumption |]). split; [constructor; [cbn; lia | exact W4] |]. split; [exact W5 |].
    split; [constructor; [cbn; discriminate | exact W6] | exact W7].
  - destruct (N.ltb_spec (p_mtu x) room) as [R | R]; [| intro H; inv_pair H; exact W].
    destruct (probe_needed g x queued) eqn:En; [intro H; inv_pair H; exact W | |];
      (assert (N0 : probe_needed g x queued <> NotNeeded) by (rewrite En; discriminate);
       destruct (prepared g x header chk room queued S W Se R N0) as (p & -> & P1 & P2 & P3 & P4);
       intro H; inv_pair H; unfold within; cbn [p_mtu p_tried p_flight p_lost app];
       repeat (split; [assumption |]);
       (split; [constructor; [cbn; unfold limit; lia | exact W4] |]; split; [exact W5 |];
        split; [constructor; [cbn; intros _; lia | exact W6] | exact W7])).
  - destruct (pick i (p_flight x)) as [[k f] |] eqn:Ep; [| intro H; inv_pair H; exact W]. intro H. inv_pair H.
    destruct (pick_forall _ _ _ _ _ Ep W4) as [K1 _]. unfold acked. cbv zeta.
    set (x1 := if k_size k =? p_mtu x then _ else _).
    assert (W0 : within g x1 /\ p_flight x1 = p_flight x /\ p_lost x1 = p_lost x).
    { unfold x1. destruct (k_size k =? p_mtu x); [split; [exact W | split; reflexivity] |].
      destruct (N.ltb_spec (p_mtu x) (k_size k)); [| split; [exact W | split; reflexivity]].
      split; [| split; reflexivity]. unfold within. cbn [p_mtu p_tried p_flight p_lost]. split; [lia |]. split; [exact K1 |].
      repeat (split; [assumption |]). exact W7. }
    destruct W0 as (W0 & E1 & E2). apply within_queues; [exact W0 | |]; rewrite E1, E2; [eapply Pf, Ep | exact Fl].
  - destruct (pick i (p_flight x)) as [[k f] |] eqn:Ep; [| intro H; inv_pair H; exact W]. intro H. inv_pair H.
    destruct (pick_forall _ _ _ _ _ Ep W4) as [K1 _]. destruct (pick_in _ _ _ _ Ep) as (Hk & _ & _).
    unfold lose. cbv zeta. destruct (within_check g x k timer W) as (Wc & E1 & E2).
    set (xc := check_losses x k timer) in *. clearbody xc.
    set (x2 := if k_probe k then _ else _).
    assert (W0 : within g x2 /\ p_flight x2 = p_flight x /\ p_lost x2 = p_lost x).
    { unfold x2. destruct (k_probe k) eqn:Ek; [| auto]. split; [| split; assumption].
      destruct Wc as (C1 & C2 & C3 & C4 & C5 & C6 & C7). unfold within. cbn [p_mtu p_tried p_flight p_lost].
      repeat (split; [assumption |]). rewrite Forall_forall in W6. right. apply W6; [apply in_or_app; auto | exact Ek]. }
    destruct W0 as (W0 & F1 & F2). apply within_queues; [exact W0 | |]; rewrite F1, F2; [eapply Pf, Ep |].
    destruct (keep || k_probe k); [constructor; [auto | exact Fl] | exact Fl].
  - destruct (pick i (p_lost x)) as [[k l] |] eqn:Ep; [| intro H; inv_pair H; exact W]. intro H. inv_pair H.
    destruct (pick_forall _ _ _ _ _ Ep W5) as [K1 _]. destruct (pick_in _ _ _ _ Ep) as (Hk & _ & _).
    unfold spurious. cbv zeta. set (x1 := if p_mtu x <? k_size k then _ else _).
    assert (W0 : within g x1 /\ p_flight x1 = p_flight x /\ p_lost x1 = p_lost x).
    { unfold x1. destruct (N.ltb_spec (p_mtu x) (k_size k)); [| split; [exact W | split; reflexivity]].
      split; [| split; reflexivity]. unfold within. cbn [p_mtu p_tried p_flight p_lost].
      split; [lia |]. split; [exact K1 |]. split; [destruct (_ <? _); assumption |]. repeat (split; [assumption |]).
      destruct (p_tried x <? k_size k); [| exact W7]. unfold limit in K1. lia. }
    destruct W0 as (W0 & E1 & E2). apply within_queues; [exact W0 | |]; rewrite E1, E2; [exact Ff | eapply Pl, Ep].
  - destruct (pick i (p_lost x)) as [[k l] |] eqn:Ep; intro H; inv_pair H; [| exact W].
    apply within_queues; [exact W | exact Ff | eapply Pl, Ep].
  - intro H. inv_pair H. apply within_reset, W.
Qed.

Lemma within_0 g v6 : within g (path0 v6).
Proof.
  pose proof (initial_range v6). unfold within, path0. cbn [p_mtu p_tried p_flight p_lost app].
  split; [lia |]. split; [unfold limit; lia |]. split; [unfold limit; lia |].
  split; [constructor |]. split; [constructor |]. split; [constructor |]. left. lia.
Qed.

Lemma step_defined g x e : sane_conf g -> sane_ev e -> within g x -> exists x' o, mstep g x e = Some (x', o).
Proof.
  intros S Se W. destruct e as [size room | header chk room queued | i | i timer keep | i | i | v6]; cbn [mstep];
    try (destruct (pick _ _) as [[? ?] |]; eauto; fail); eauto.
  - destruct (_ && _); eauto.
  - destruct (N.ltb_spec (p_mtu x) room) as [R | R]; [| eauto].
    destruct (probe_needed g x queued) eqn:En; [eauto | |];
      (assert (N0 : probe_needed g x queued <> NotNeeded) by (rewrite En; discriminate);
       destruct (prepared g x header chk room queued S W Se R N0) as (p & -> & _); eauto).
Qed.

Lemma run_defined g evs : forall x, sane_conf g -> Forall sane_ev evs -> within g x ->
  exists x' os, mrun g x evs = Some (x', os) /\ within g x'.
Proof.
  induction evs as [| e evs IH]; intros x S F W; cbn [mrun]; [eauto |]. inversion F; subst.
  destruct (step_defined g x e S) as (x1 & o & E); try assumption. rewrite E.
  destruct (IH x1) as (x2 & os & R & W2); try assumption; [eapply within_step; eassumption |]. rewrite R. eauto.
Qed.

Lemma always_defined g v6 evs : sane_conf g -> Forall sane_ev evs -> exists x os, mrun g (path0 v6) evs = Some (x, os).
Proof. intros S F. destruct (run_defined g evs (path0 v6) S F (within_0 g v6)) as (x & os & R & _). eauto. Qed.

Lemma mrun_app g a : forall b x y os, mrun g x (a ++ b) = Some (y, os) ->
  exists z o1 o2, mrun g x a = Some (z, o1) /\ mrun g z b = Some (y, o2) /\ os = o1 ++ o2.
Proof.
  induction a as [| e a IH]; intros b x y os; cbn [app mrun]; [exists x, [], os; auto |].
  destruct (mstep g x e) as [[x1 o] |]; [| discriminate].
  destruct (mrun g x1 (a ++ b)) as [[x2 o2] |] eqn:E; [| discriminate]. intro H. inv_pair H.
  destruct (IH _ _ _ _ E) as (z & o1 & o3 & R1 & R2 & ->). rewrite R1. exists z, (o :: o1), o3. auto.
Qed.

(** A packet sent: what it can be. *)
Lemma sent_size g v6 evs x os e x' k : sane_conf g -> Forall sane_ev evs -> sane_ev e ->
  mrun g (path0 v6) evs = Some (x, os) -> mstep g x e = Some (x', OSent k) ->
  (k_probe k = false -> k_size k <= p_mtu x) /\
  (k_probe k = true -> p_mtu x < k_size k /\ k_size k <= g_remote g) /\
  k_size k <= 1536 /\ k_size k <= N.max 1252 (g_remote g) /\
  match e with MData _ room => k_size k <= room | MProbe _ _ room _ => k_size k <= room | _ => False end.
Proof.
  intros S F Se R E. destruct (run_defined g evs (path0 v6) S F (within_0 g v6)) as (y & oy & Ry & W).
  rewrite R in Ry. apply some_inj in Ry. apply pair_equal_spec in Ry. destruct Ry as [<- _].
  assert (W' := W). destruct W' as (W1 & W2 & _). unfold limit in W2.
  destruct e as [size room | header chk room queued | i | i timer keep | i | i | v]; cbn [mstep] in E;
    try (destruct (pick _ _) as [[? ?] |]; apply some_inj in E; apply pair_equal_spec in E; destruct E as [_ E]; discriminate).
  - destruct ((size <=? p_mtu x) && (size <=? room)) eqn:Ez; apply some_inj in E; apply pair_equal_spec in E; destruct E as [_ E]; [| discriminate].
    apply andb_true_iff in Ez. rewrite !N.leb_le in Ez. injection E as <-. cbn [k_size k_probe].
    split; [intros _; tauto |]. split; [discriminate |]. lia.
  - destruct (N.ltb_spec (p_mtu x) room) as [Q | Q]; [| apply some_inj, pair_equal_spec in E; destruct E; discriminate].
    destruct (probe_needed g x queued) eqn:En; [apply some_inj, pair_equal_spec in E; destruct E; discriminate | |];
      (assert (N0 : probe_needed g x queued <> NotNeeded) by (rewrite En; discriminate);
       destruct (prepared g x header chk room queued S W Se Q N0) as (p & Ep & P1 & P2 & P3 & P4 & _); rewrite Ep in E;
       apply some_inj, pair_equal_spec in E; destruct E as [_ E]; injection E as <-; cbn [k_size k_probe];
       split; [discriminate |]; lia).
  - apply some_inj, pair_equal_spec in E. destruct E; discriminate.
Qed.

(** ** Validation *)
Definition proven (v6 : bool) (os : list mobs) (x : mpath) : Prop :=
  p_v6 x = v6 /\ (p_mtu x = initial_mtu v6 \/ exists k, In (OAcked k) os /\ k_size k = p_mtu x).

Lemma proven_step g v6 os x e x' o : (forall v, e <> MAddress v) -> mstep g x e = Some (x', o) ->
  proven v6 os x -> proven v6 (os ++ [o]) x'.
Proof.
  intros Na E [V P].
  assert (Keep : forall y, p_v6 y = p_v6 x -> p_mtu y = p_mtu x -> proven v6 (os ++ [o]) y).
  { intros y E1 E2. split; [congruence |]. rewrite E2. destruct P as [P | (k & P1 & P2)]; [auto |].
    right. exists k. split; [apply in_or_app; auto | exact P2]. }
  assert (Rst : forall y, p_v6 y = p_v6 x -> p_mtu y = initial_mtu (p_v6 x) -> proven v6 (os ++ [o]) y).
  { intros y E1 E2. split; [congruence |]. left. congruence. }
  destruct e as [size room | header chk room queued | i | i timer keep | i | i | v]; cbn [mstep] in E.
  - destruct (_ && _); inv_pair E; apply Keep; reflexivity.
  - destruct (_ <? _); [| inv_pair E; apply Keep; reflexivity].
    destruct (probe_needed _ _ _); [inv_pair E; apply Keep; reflexivity | |];
      (destruct (prepare_probe _ _ _ _ _); [| discriminate]; inv_pair E; apply Keep; reflexivity).
  - destruct (pick i (p_flight x)) as [[k f] |]; [| inv_pair E; apply Keep; reflexivity].
    apply some_inj, pair_equal_spec in E. destruct E as [<- <-]. unfold acked. cbv zeta.
    destruct (k_size k =? p_mtu x); [apply Keep; reflexivity |]. destruct (p_mtu x <? k_size k); [| apply Keep; reflexivity].
    split; [exact V |]. right. exists k. split; [apply in_or_app; right; left; reflexivity | reflexivity].
  - destruct (pick i (p_flight x)) as [[k f] |]; [| inv_pair E; apply Keep; reflexivity].
    apply some_inj, pair_equal_spec in E. destruct E as [<- <-]. unfold lose. cbv zeta.
    assert (Q : p_v6 (check_losses x k timer) = p_v6 x /\
      (p_mtu (check_losses x k timer) = p_mtu x \/ p_mtu (check_losses x k timer) = initial_mtu (p_v6 x))).
    { destruct (check_same x k timer) as [-> | [[n ->] | [n ->]]]; cbn; auto. }
    destruct Q as [Q1 [Q2 | Q2]].
    + destruct (k_probe k); apply Keep; cbn [set_queues p_v6 p_mtu]; assumption.
    + destruct (k_probe k); apply Rst; cbn [set_queues p_v6 p_mtu]; assumption.
  - destruct (pick i (p_lost x)) as [[k f] |]; [| inv_pair E; apply Keep; reflexivity].
    apply some_inj, pair_equal_spec in E. destruct E as [<- <-]. unfold spurious. cbv zeta.
    destruct (p_mtu x <? k_size k); [| apply Keep; reflexivity].
    split; [exact V |]. right. exists k. split; [apply in_or_app; right; left; reflexivity | reflexivity].
  - destruct (pick i (p_lost x)) as [[k f] |]; inv_pair E; apply Keep; reflexivity.
  - exfalso. apply (Na v). reflexivity.
Qed.

Lemma proven_run g v6 evs : forall x os0 y os, (forall v, ~ In (MAddress v) evs) -> proven v6 os0 x ->
  mrun g x evs = Some (y, os) -> proven v6 (os0 ++ os) y.
Proof.
  induction evs as [| e evs IH]; intros x os0 y os Na P; cbn [mrun].
  - intro E. inv_pair E. rewrite app_nil_r. exact P.
  - destruct (mstep g x e) as [[x1 o] |] eqn:Es; [| discriminate].
    destruct (mrun g x1 evs) as [[x2 o2] |] eqn:Er; [| discriminate]. intro E. inv_pair E.
    replace (os0 ++ o :: o2) with ((os0 ++ [o]) ++ o2) by (rewrite <- app_assoc; reflexivity).
    eapply IH; [| | exact Er].
    + intros v Hv. apply (Na v). right. exact Hv.
    + eapply proven_step; [| exact Es | exact P]. intros v ->. apply (Na v). left. reflexivity.
Qed.

(** The packet size in use was acknowledged since the last change of address, or
    is the starting size. *)
Lemma validated g v6 evs x os : (forall v, ~ In (MAddress v) evs) -> mrun g (path0 v6) evs = Some (x, os) ->
  p_mtu x = initial_mtu v6 \/ exists k, In (OAcked k) os /\ k_size k = p_mtu x.
Proof.
  intros Na R. assert (P : proven v6 [] (path0 v6)) by (split; [reflexivity | left; reflexivity]).
  apply (proven_run _ _ _ _ _ _ _ Na P R).
Qed.
Lemma validated_after g v0 a v6 b x y oa ob : (forall v, ~ In (MAddress v) b) ->
  mrun g (path0 v0) a = Some (x, oa) -> mrun g x (MAddress v6 :: b) = Some (y, ob) ->
  p_mtu y = initial_mtu v6 \/ exists k, In (OAcked k) ob /\ k_size k = p_mtu y.
Proof.
  intros Na _ R. cbn [mrun mstep] in R. destruct (mrun g (reset_mtu x v6) b) as [[z o] |] eqn:Rb; [| discriminate]. inv_pair R.
  assert (P : proven v6 [] (reset_mtu x v6)) by (split; [reflexivity | left; reflexivity]).
  destruct (proven_run _ _ _ _ _ _ _ Na P Rb) as [_ [Q | (k & Q1 & Q2)]]; [auto |]. right. exists k. split; [right; exact Q1 | exact Q2].
Qed.
