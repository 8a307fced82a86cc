(** Path MTU discovery: at most three lost probes, one probe at a time, and the
    result of the search. *)
From Verif Require Import Base Tac Pmtu_model Pmtu_spec Pmtu_proofs.

Lemma pick_rest i : forall l k r y, pick i l = Some (k, r) -> In y l -> y = k \/ In y r.
Proof.
  induction i as [| i IH]; intros [| z l] k r y; cbn [pick]; try discriminate.
  - intros E [H | H]; inv_pair E; auto.
  - destruct (pick i l) as [[w r'] |] eqn:Ep; [| discriminate]. intros E H. inv_pair E.
    destruct H as [-> | H]; [right; left; reflexivity |]. destruct (IH _ _ _ _ Ep H); [auto | right; right; assumption].
Qed.

(** ** The search is never stuck *)
Definition awaited (x : mpath) : Prop :=
  p_probing x = true -> exists k, In k (p_flight x) /\ k_probe k = true /\ p_mtu x < k_size k.

Lemma awaited_step g x e x' o : mstep g x e = Some (x', o) -> awaited x -> awaited x' \/ exists h c r q, e = MProbe h c r q.
Proof.
  intros E A. destruct e as [size room | header chk room queued | i | i timer keep | i | i | v6]; cbn [mstep] in E; [left | right; eauto | left ..].
  - destruct (_ && _); inv_pair E; [| exact A]. intro P. destruct (A P) as (k & H1 & H2). exists k. split; [right; exact H1 | exact H2].
  - destruct (pick i (p_flight x)) as [[k f] |] eqn:Ep; [| inv_pair E; exact A]. apply some_inj, pair_equal_spec in E. destruct E as [<- _].
    unfold acked, awaited. cbv zeta. destruct (N.eqb_spec (k_size k) (p_mtu x)) as [Q | Q]; cbn [set_queues p_probing p_flight p_mtu].
    + intro P. destruct (A P) as (y & H1 & H2 & H3). destruct (pick_rest _ _ _ _ _ Ep H1) as [-> | H]; [lia | eauto].
    + destruct (N.ltb_spec (p_mtu x) (k_size k)); cbn [p_probing p_flight p_mtu]; [discriminate |].
      intro P. destruct (A P) as (y & H1 & H2 & H3). destruct (pick_rest _ _ _ _ _ Ep H1) as [-> | H4]; [lia | eauto].
  - destruct (pick i (p_flight x)) as [[k f] |] eqn:Ep; [| inv_pair E; exact A]. apply some_inj, pair_equal_spec in E. destruct E as [<- _].
    unfold lose, awaited. cbv zeta. destruct (k_probe k) eqn:Ek; cbn [set_queues p_probing p_flight p_mtu]; [discriminate |].
    assert (Go : p_probing x = true -> exists y, In y f /\ k_probe y = true /\ p_mtu x < k_size y).
    { intro P. destruct (A P) as (y & H1 & H2 & H3). destruct (pick_rest _ _ _ _ _ Ep H1) as [-> | H4]; [congruence | eauto]. }
    destruct (check_same x k timer) as [-> | [[n ->] | [n ->]]]; cbn [p_probing p_mtu reset_mtu]; try exact Go. discriminate.
  - destruct (pick i (p_lost x)) as [[k f] |] eqn:Ep; [| inv_pair E; exact A]. apply some_inj, pair_equal_spec in E. destruct E as [<- _].
    unfold spurious, awaited. cbv zeta. destruct (p_mtu x <? k_size k); cbn [set_queues p_probing p_flight p_mtu]; [discriminate | exact A].
  - destruct (pick i (p_lost x)) as [[k f] |] eqn:Ep; inv_pair E; exact A.
  - inv_pair E. unfold awaited. cbn [reset_mtu p_probing]. discriminate.
Qed.

Lemma awaited_probe g x header chk room queued x' o : sane_conf g -> header + chk < 1200 -> within g x ->
  mstep g x (MProbe header chk room queued) = Some (x', o) -> awaited x -> awaited x'.
Proof.
  intros S Se W. cbn [mstep]. destruct (N.ltb_spec (p_mtu x) room) as [R | R]; [| intros E; inv_pair E; auto].
  destruct (probe_needed g x queued) eqn:En; [intros E; inv_pair E; auto | |];
    (assert (N0 : probe_needed g x queued <> NotNeeded) by (rewrite En; discriminate);
     destruct (prepared g x header chk room queued S W Se R N0) as (p & Ep & P1 & _); rewrite Ep; intros E _; inv_pair E;
     intros _; exists (mk_mp p true); cbn; auto).
Qed.

Lemma awaited_run g evs : forall x y os, sane_conf g -> Forall sane_ev evs -> within g x -> awaited x ->
  mrun g x evs = Some (y, os) -> awaited y.
Proof.
  induction evs as [| e evs IH]; intros x y os S F W A; cbn [mrun]; [intro E; inv_pair E; exact A |].
  inversion F; subst. destruct (mstep g x e) as [[x1 o] |] eqn:Es; [| discriminate].
  destruct (mrun g x1 evs) as [[x2 o2] |] eqn:Er; [| discriminate]. intro E. inv_pair E.
  eapply IH; [exact S | assumption | eapply within_step; eassumption | | exact Er].
  destruct (awaited_step _ _ _ _ _ Es A) as [A1 | (h & c & r & q & ->)]; [exact A1 |].
  eapply awaited_probe; eassumption.
Qed.

Lemma not_stuck g v6 evs x os : sane_conf g -> Forall sane_ev evs -> mrun g (path0 v6) evs = Some (x, os) ->
  p_probing x = true -> exists k, In k (p_flight x) /\ k_probe k = true /\ p_mtu x < k_size k.
Proof.
  intros S F R. refine (awaited_run g evs _ _ _ S F (within_0 g v6) _ R). unfold awaited, path0. cbn. discriminate.
Qed.

(** ** Lost probes *)
Definition rank (mtu tried : N) : N :=
  if tried =? 0 then 3
  else if (1500 <? tried) && (mtu <? 1500) then 2
  else if (1400 <? tried) && (mtu <? 1400) then 1 else 0.
Ltac rk := unfold rank in *; repeat match goal with
  | |- context [N.eqb ?a ?b] => destruct (N.eqb_spec a b)
  | |- context [N.ltb ?a ?b] => destruct (N.ltb_spec a b)
  | H : context [N.eqb ?a ?b] |- _ => destruct (N.eqb_spec a b)
  | H : context [N.ltb ?a ?b] |- _ => destruct (N.ltb_spec a b)
  end; cbn [andb] in *; try lia.

Lemma rank_le m m' t : m <= m' -> rank m' t <= rank m t.
Proof. intro H. rk. Qed.
Lemma rank_below m t : t <= m -> 0 < t -> rank m t = 0.
Proof. intros H1 H2. rk. Qed.
Lemma rank_next g x p : (p_tried x = 0 \/ 1400 < p_tried x) -> p_mtu x < p -> p <= next_probe g x -> 0 < p ->
  rank (p_mtu x) p + 1 <= rank (p_mtu x) (p_tried x) /\ (p_tried x = 0 \/ p < p_tried x).
Proof.
  intros [T | T] H1 H2 H3.
  - rewrite T. split; [rk | auto].
  - rewrite (next_tried g x T) in H2. destruct (N.ltb_spec 1500 (p_tried x)); (split; [rk | lia]).
Qed.

Definition few (f : N) (x : mpath) : Prop :=
  f + rank (p_mtu x) (p_tried x) <= 3 /\
  (forall k, In k (p_flight x ++ p_lost x) -> k_probe k = false -> k_size k <= p_mtu x) /\
  (forall k, In k (p_lost x) -> k_probe k = true -> 0 < k_size k /\ (p_mtu x < k_size k -> p_tried x <> 0 /\ p_tried x <= k_size k)) /\
  (forall k, In k (p_flight x) -> k_probe k = true ->
     0 < k_size k /\ (p_mtu x < k_size k -> p_tried x = 0 \/ k_size k < p_tried x) /\ f + 1 + rank (p_mtu x) (k_size k) <= 3) /\
  probes (p_flight x) <= 1 /\
  (probes (p_flight x) = 1 -> p_probing x = true \/ rank (p_mtu x) (p_tried x) = 0).

Lemma probes_cons k l : probes (k :: l) = probes l + (if k_probe k then 1 else 0).
Proof. unfold probes. cbn [filter]. destruct (k_probe k); cbn [length]; lia. Qed.
Lemma probes_none l : probes l = 0 -> forall k, In k l -> k_probe k = false.
Proof.
  induction l as [| y l IH]; intros H k Hk; [destruct Hk |]; rewrite probes_cons in H; destruct Hk as [<- | Hk].
  - destruct (k_probe y); [lia | reflexivity].
  - apply IH; [lia | exact Hk].
Qed.

(** Removal of a packet in flight without other effect, or of a packet declared lost. *)
Lemma few_less f x fl lo n : few f x -> (forall k, In k fl -> In k (p_flight x)) -> (forall k, In k lo -> In k (p_lost x)) ->
  probes fl <= probes (p_flight x) ->
  few f (mk_pa (p_v6 x) (p_mtu x) (p_tried x) (p_probing x) n fl lo).
Proof.
  intros (F1 & F2 & F3 & F4 & F5 & F6) A B C. unfold few. cbn [p_mtu p_tried p_probing p_flight p_lost].
  split; [exact F1 |]. split; [intros k Hk; apply F2; apply in_app_or in Hk; apply in_or_app; destruct Hk; auto |].
  split; [auto |]. split; [auto |]. split; [lia |]. intro H. apply F6. lia.
Qed.

Lemma rest_le a b (c : bool) : a = b + (if c then 1 else 0) -> b <= a.
Proof. destruct c; lia. Qed.

Lemma few_step g f x e x' o : sane_conf g -> sane_ev e -> within g x -> few f x ->
  match e with MAddress _ => False | MLose _ timer _ => timer = false /\ p_losses x < 10 | _ => True end ->
  mstep g x e = Some (x', o) ->
  few (f + (match o with OLost k => if k_probe k then 1 else 0 | _ => 0 end)) x'.
Proof.
  intros S Se W F C E. assert (F' := F). destruct F' as (F1 & F2 & F3 & F4 & F5 & F6). assert (W1 : 1232 <= p_mtu x) by apply W.
  assert (Same : few (f + 0) x) by (rewrite N.add_0_r; exact F).
  destruct e as [size room | header chk room queued | i | i timer keep | i | i | v6]; cbn [mstep] in E.
  - destruct ((size <=? p_mtu x) && (size <=? room)) eqn:Ez; inv_pair E; [| exact Same]. rewrite N.add_0_r.
    apply andb_true_iff in Ez. rewrite N.leb_le in Ez. unfold few. cbn [set_queues p_mtu p_tried p_probing p_flight p_lost].
    split; [exact F1 |]. split; [intros k [<- | Hk] Hd; [cbn; tauto | auto] |]. split; [exact F3 |].
    split; [intros k [<- | Hk] Hd; [discriminate | auto] |]. rewrite probes_cons. cbn [k_probe]. rewrite N.add_0_r. auto.
  - destruct (N.ltb_spec (p_mtu x) room) as [R | R]; [| inv_pair E; exact Same].
    assert (Go : probe_needed g x queued <> NotNeeded -> forall p, prepare_probe g x header chk room = Some p ->
      few (f + 0) (mk_pa (p_v6 x) (p_mtu x) (p_tried x) true (p_losses x) (mk_mp p true :: p_flight x) (p_lost x))).
    { intros N0 p Ep. destruct (prepared g x header chk room queued S W Se R N0) as (p' & Ep' & P1 & P2 & P3 & P4 & P5).
      rewrite Ep in Ep'. apply some_inj in Ep'. subst p'. destruct (needed_inv _ _ _ N0) as (Q1 & Q2 & Q3).
      destruct (rank_next g x p Q2 P1) as [K1 K2]; [lia | lia |]. rewrite N.add_0_r.
      unfold few. cbn [p_mtu p_tried p_probing p_flight p_lost].
      split; [exact F1 |]. split; [intros k [<- | Hk] Hd; [discriminate | auto] |]. split; [exact F3 |].
      split; [intros k [<- | Hk] Hd; [cbn [k_size]; split; [lia |]; split; [intros _; exact K2 | lia] | auto] |].
      rewrite probes_cons. cbn [k_probe]. split; [| auto].
      destruct (N.eq_dec (probes (p_flight x)) 1) as [Z | Z]; [| lia]. destruct (F6 Z); [congruence | lia]. }
    destruct (probe_needed g x queued) eqn:En; [inv_pair E; exact Same | |];
      (destruct (prepare_probe g x header chk room) as [p |] eqn:Ep; [| discriminate]; apply some_inj, pair_equal_spec in E; destruct E as [<- <-];
       apply Go; [discriminate | reflexivity]).
  - destruct (pick i (p_flight x)) as [[k fl] |] eqn:Ep; [| inv_pair E; exact Same]. apply some_inj, pair_equal_spec in E. destruct E as [<- <-].
    rewrite N.add_0_r. destruct (pick_in _ _ _ _ Ep) as (H1 & H2 & H3). pose proof (rest_le _ _ _ H3) as H4. unfold acked. cbv zeta.
    destruct (k_size k =? p_mtu x); [apply few_less; auto; lia |].
    destruct (N.ltb_spec (p_mtu x) (k_size k)) as [L | L]; [| apply few_less; auto; lia].
    assert (Kp : k_probe k = true).
    { destruct (k_probe k) eqn:Ek; [reflexivity |]. assert (k_size k <= p_mtu x) by (apply F2; [apply in_or_app; auto | exact Ek]). lia. }
    rewrite Kp in H3. assert (Z : probes fl = 0) by lia. assert (NP := probes_none _ Z).
    unfold few. cbn [set_queues p_mtu p_tried p_probing p_flight p_lost].
    pose proof (rank_le (p_mtu x) (k_size k) (p_tried x)).
    split; [lia |]. split.
    + intros y Hy Hd. enough (k_size y <= p_mtu x) by lia. apply F2; [| exact Hd]. apply in_app_or in Hy. apply in_or_app. destruct Hy; auto.
    + split; [intros y Hy Hd; destruct (F3 y Hy Hd) as [G1 G2]; split; [exact G1 |]; intro; apply G2; lia |].
      split; [intros y Hy Hd; rewrite (NP y Hy) in Hd; discriminate |]. lia.
  - destruct (pick i (p_flight x)) as [[k fl] |] eqn:Ep; [| inv_pair E; exact Same]. apply some_inj, pair_equal_spec in E. destruct E as [<- <-].
    destruct C as [-> C]. destruct (pick_in _ _ _ _ Ep) as (H1 & H2 & H3). pose proof (rest_le _ _ _ H3) as H4. unfold lose. cbv zeta.
    assert (Ch : exists n, check_losses x k false = mk_pa (p_v6 x) (p_mtu x) (p_tried x) (p_probing x) n (p_flight x) (p_lost x)).
    { unfold check_losses. cbv zeta. cbn [p_losses]. rewrite !orb_false_r. destruct (k_size k =? p_mtu x).
      - destruct (N.ltb_spec 10 (p_losses x + 1)); [lia |]. eauto.
      - exists (p_losses x). destruct x; reflexivity. }
    destruct Ch as [n ->]. destruct (k_probe k) eqn:Kp.
    + assert (Z : probes fl = 0) by lia. assert (NP := probes_none _ Z). rewrite orb_true_r.
      destruct (F4 k H1 Kp) as (G1 & G2 & G3). unfold few. cbn [set_queues p_mtu p_tried p_probing p_flight p_lost].
      split; [lia |]. split.
      { intros y Hy Hd. apply F2; [| exact Hd]. apply in_app_or in Hy. apply in_or_app. destruct Hy as [Hy | [<- | Hy]]; auto; congruence. }
      split.
      { intros y [<- | Hy] Hd; [split; [exact G1 |]; intros _; lia |]. destruct (F3 y Hy Hd) as [J1 J2]. split; [exact J1 |].
        intro L. destruct (J2 L) as [J3 J4]. split; [lia |]. destruct (N.lt_ge_cases (p_mtu x) (k_size k)) as [L2 | L2]; [| lia].
        destruct (G2 L2); [congruence | lia]. }
      split; [intros y Hy Hd; rewrite (NP y Hy) in Hd; discriminate |]. lia.
    + rewrite N.add_0_r, orb_false_r. unfold few. cbn [set_queues p_mtu p_tried p_probing p_flight p_lost]. split; [exact F1 |].
      assert (Kd : k_size k <= p_mtu x) by (apply F2; [apply in_or_app; auto | exact Kp]).
      split.
      { intros y Hy Hd. apply in_app_or in Hy. destruct Hy as [Hy | Hy]; [apply F2; [apply in_or_app; auto | exact Hd] |].
        destruct keep; [destruct Hy as [<- | Hy]; [exact Kd |] |]; (apply F2; [apply in_or_app; auto | exact Hd]). }
      split; [intros y Hy Hd; destruct keep; [destruct Hy as [<- | Hy]; [congruence |] |]; auto |].
      split; [auto |]. split; [lia |]. intro. apply F6. lia.
  - destruct (pick i (p_lost x)) as [[k lo] |] eqn:Ep; [| inv_pair E; exact Same]. apply some_inj, pair_equal_spec in E. destruct E as [<- <-].
    rewrite N.add_0_r. destruct (pick_in _ _ _ _ Ep) as (H1 & H2 & H3). pose proof (rest_le _ _ _ H3) as H4. unfold spurious. cbv zeta.
    destruct (N.ltb_spec (p_mtu x) (k_size k)) as [L | L]; [| apply few_less; auto; lia].
    assert (Kp : k_probe k = true).
    { destruct (k_probe k) eqn:Ek; [reflexivity |]. assert (k_size k <= p_mtu x) by (apply F2; [apply in_or_app; auto | exact Ek]). lia. }
    destruct (F3 k H1 Kp) as [G1 G2]. destruct (G2 L) as [G3 G4].
    assert (Et : (if p_tried x <? k_size k then k_size k else p_tried x) = k_size k) by (destruct (N.ltb_spec (p_tried x) (k_size k)); lia).
    rewrite Et. unfold few. cbn [set_queues p_mtu p_tried p_probing p_flight p_lost].
    rewrite (rank_below (k_size k) (k_size k)) by lia.
    split; [lia |]. split.
    + intros y Hy Hd. enough (k_size y <= p_mtu x) by lia. apply F2; [| exact Hd]. apply in_app_or in Hy. apply in_or_app. destruct Hy; auto.
    + split; [intros y Hy Hd; destruct (F3 y (H2 y Hy) Hd) as [J1 J2]; split; [exact J1 |]; intro; lia |].
      split; [| auto]. intros y Hy Hd. destruct (F4 y Hy Hd) as (J1 & J2 & J3). split; [exact J1 |]. split.
      * intro L2. destruct J2 as [J2 | J2]; lia.
      * pose proof (rank_le (p_mtu x) (k_size k) (k_size y)). lia.
  - destruct (pick i (p_lost x)) as [[k lo] |] eqn:Ep; inv_pair E; rewrite N.add_0_r; [| exact F].
    destruct (pick_in _ _ _ _ Ep) as (H1 & H2 & H3). pose proof (rest_le _ _ _ H3) as H4. apply few_less; auto; lia.
  - contradiction.
Qed.

Lemma few_run g evs : forall f x y os, sane_conf g -> Forall sane_ev evs -> within g x -> few f x -> calm g x evs ->
  mrun g x evs = Some (y, os) -> few (f + lost_probes os) y.
Proof.
  induction evs as [| e evs IH]; intros f x y os S Fs W F C; cbn [mrun].
  - intro E. inv_pair E. rewrite N.add_0_r. exact F.
  - inversion Fs; subst. cbn [calm] in C. destruct C as [C1 C2]. destruct (mstep g x e) as [[x1 o] |] eqn:Es; [| discriminate].
    destruct (mrun g x1 evs) as [[x2 o2] |] eqn:Er; [| discriminate]. intro E. inv_pair E.
    assert (F1 : few (f + (match o with OLost k => if k_probe k then 1 else 0 | _ => 0 end)) x1)
      by (eapply few_step; [exact S | eassumption | exact W | exact F | destruct e; exact C1 | exact Es]).
    assert (W1 : within g x1) by (eapply within_step; eassumption).
    pose proof (IH _ _ _ _ S ltac:(eassumption) W1 F1 C2 Er) as R.
    replace (lost_probes (o :: o2)) with ((match o with OLost k => if k_probe k then 1 else 0 | _ => 0 end) + lost_probes o2);
      [rewrite N.add_assoc; exact R |].
    unfold lost_probes. cbn [filter]. destruct o as [| | | k]; try reflexivity. destruct (k_probe k); cbn [length]; lia.
Qed.

Lemma few_0 v6 : few 0 (path0 v6).
Proof.
  unfold few, path0. cbn [p_mtu p_tried p_probing p_flight p_lost app].
  split; [destruct v6; vm_compute; discriminate |]. split; [intros k [] |]. split; [intros k [] |]. split; [intros k [] |].
  split; [vm_compute; discriminate | vm_compute; discriminate].
Qed.

Lemma three_lost g v6 evs x os : sane_conf g -> Forall sane_ev evs -> calm g (path0 v6) evs ->
  mrun g (path0 v6) evs = Some (x, os) -> lost_probes os <= 3 /\ probes (p_flight x) <= 1.
Proof.
  intros S F C R. destruct (few_run g evs 0 _ _ _ S F (within_0 g v6) (few_0 v6) C R) as (H1 & _ & _ & _ & H2 & _).
  split; [lia | exact H2].
Qed.

(** ** The result of the search *)
Definition place (T cap init mtu tried : N) : Prop :=
  (tried = 0 /\ (mtu = init \/ (mtu = T /\ init < T /\ T <= cap))) \/
  (tried = T /\ cap < T /\ init < T /\ (mtu = init \/ (1500 < T /\ mtu = 1500 /\ 1500 <= cap) \/
     (1400 < T /\ T <= 1500 /\ mtu = 1400 /\ 1400 <= cap))) \/
  (tried = 1500 /\ 1500 < T /\ cap < 1500 /\ (mtu = init \/ (mtu = 1400 /\ 1400 <= cap))) \/
  (tried = 1400 /\ 1400 < T /\ cap < 1400 /\ mtu = init).

Definition search (g : mconf) (v6 : bool) (cap : N) (x : mpath) : Prop :=
  p_v6 x = v6 /\ place (top g v6) cap (initial_mtu v6) (p_mtu x) (p_tried x) /\
  (forall k, In k (p_flight x ++ p_lost x) -> k_probe k = false -> k_size k <= p_mtu x) /\
  (forall k, In k (p_lost x) -> k_probe k = true -> cap < k_size k) /\
  (forall k, In k (p_flight x) -> k_probe k = true ->
     k_size k = next_probe g x /\ p_mtu x < k_size k /\ (p_tried x = 0 \/ 1400 < p_tried x)) /\
  probes (p_flight x) = (if p_probing x then 1 else 0).

Lemma next_same g x y : p_v6 x = p_v6 y -> p_mtu x = p_mtu y -> p_tried x = p_tried y -> next_probe g x = next_probe g y.
Proof. intros A B C. unfold next_probe. rewrite A, B, C. reflexivity. Qed.

(** The next size, and where the search goes. *)
Lemma place_next g v6 cap x k : sane_conf g -> p_v6 x = v6 -> initial_mtu v6 <= cap ->
  place (top g v6) cap (initial_mtu v6) (p_mtu x) (p_tried x) ->
  k = next_probe g x -> p_mtu x < k -> (p_tried x = 0 \/ 1400 < p_tried x) ->
  (k <= cap -> place (top g v6) cap (initial_mtu v6) k (p_tried x)) /\
  (cap < k -> place (top g v6) cap (initial_mtu v6) (p_mtu x) k).
Proof.
  intros S V I P K L T. pose proof (initial_range v6) as [I1 I2].
  set (t := top g v6) in *. set (m := initial_mtu v6) in *.
  assert (Kv : k = if p_tried x =? 0 then N.max t (p_mtu x) else if 1500 <? p_tried x then 1500 else 1400).
  { destruct (N.eqb_spec (p_tried x) 0) as [Z | Z].
    - rewrite K, (next_zero g x S Z), V. reflexivity.
    - rewrite K. apply next_tried. lia. }
  clear K. clearbody t m. generalize dependent (p_mtu x). generalize dependent (p_tried x). intros tr T u P L Kv.
  unfold place in *.
  destruct (N.eqb_spec tr 0) as [Z | Z].
  - destruct P as [(_ & P) | [(P & _) | [(P & _) | (P & _)]]]; [| lia | lia | lia].
    destruct P as [-> | (-> & P1 & P2)]; [| lia]. assert (k = t) by lia. subst k. split; intro H0.
    + left. split; [exact Z |]. right. lia.
    + right. left. lia.
  - destruct P as [(P & _) | [(-> & P2 & P3 & P) | [(-> & P2 & P3 & P) | (-> & P2 & P3 & P)]]]; [lia | | | lia].
    + destruct (N.ltb_spec 1500 t); subst k.
      * destruct P as [-> | [P | P]]; [| lia | lia]. split; intro H0; [right; left | right; right; left]; lia.
      * destruct P as [-> | [P | P]]; [| lia | lia]. split; intro H0; [right; left | right; right; right]; lia.
    + destruct (N.ltb_spec 1500 1500); [lia |]. subst k. destruct P as [-> | P]; [| lia].
      split; intro H0; [right; right; left | right; right; right]; lia.
Qed.

Lemma search_less g v6 cap x fl lo n : search g v6 cap x -> (forall k, In k fl -> In k (p_flight x)) -> (forall k, In k lo -> In k (p_lost x)) ->
  probes fl = probes (p_flight x) ->
  search g v6 cap (mk_pa (p_v6 x) (p_mtu x) (p_tried x) (p_probing x) n fl lo).
Proof.
  intros (F0 & F1 & F2 & F3 & F4 & F5) A B C. unfold search. cbn [p_v6 p_mtu p_tried p_probing p_flight p_lost].
  split; [exact F0 |]. split; [exact F1 |]. split; [intros k Hk; apply F2; apply in_app_or in Hk; apply in_or_app; destruct Hk; auto |].
  split; [auto |]. split; [| lia]. intros k Hk Hd. erewrite next_same; [apply (F4 k (A k Hk) Hd) | reflexivity ..].
Qed.

Lemma search_step g v6 cap x e x' o : sane_conf g -> sane_ev e -> wide e -> initial_mtu v6 <= cap -> within g x -> search g v6 cap x ->
  match e with MAddress _ => False | MLose _ timer _ => timer = false /\ p_losses x < 10 | _ => True end ->
  mstep g x e = Some (x', o) -> fits cap o -> search g v6 cap x'.
Proof.
  intros S Se We I W F C E Fi. assert (F' := F). destruct F' as (F0 & F1 & F2 & F3 & F4 & F5). assert (W1 : 1232 <= p_mtu x) by apply W.
  destruct e as [size room | header chk room queued | i | i timer keep | i | i | v]; cbn [mstep] in E.
  - destruct ((size <=? p_mtu x) && (size <=? room)) eqn:Ez; inv_pair E; [| exact F].
    apply andb_true_iff in Ez. rewrite N.leb_le in Ez. unfold search. cbn [set_queues p_v6 p_mtu p_tried p_probing p_flight p_lost].
    split; [reflexivity |]. split; [exact F1 |]. split; [intros k [<- | Hk] Hd; [cbn; tauto | auto] |]. split; [exact F3 |].
    split; [intros k [<- | Hk] Hd; [discriminate | apply (F4 k Hk Hd)] |]. rewrite probes_cons. cbn [k_probe]. lia.
  - destruct (N.ltb_spec (p_mtu x) room) as [R | R]; [| inv_pair E; exact F].
    assert (Go : probe_needed g x queued <> NotNeeded -> forall p, prepare_probe g x header chk room = Some p ->
      search g v6 cap (mk_pa (p_v6 x) (p_mtu x) (p_tried x) true (p_losses x) (mk_mp p true :: p_flight x) (p_lost x))).
    { intros N0 p Ep. destruct (prepared g x header chk room queued S W Se R N0) as (p' & Ep' & P1 & P2 & P3 & P4 & P5).
      rewrite Ep in Ep'. apply some_inj in Ep'. subst p'. destruct (needed_inv _ _ _ N0) as (Q1 & Q2 & Q3).
      destruct (next_within _ _ _ S W N0) as (_ & _ & M3). cbn [wide] in We. assert (Pn : p = next_probe g x) by lia.
      unfold search. cbn [p_v6 p_mtu p_tried p_probing p_flight p_lost].
      split; [exact F0 |]. split; [exact F1 |]. split; [intros k [<- | Hk] Hd; [discriminate | auto] |]. split; [exact F3 |].
      rewrite Q1 in F5. split.
      - intros k [<- | Hk] Hd; [cbn [k_size]; split; [rewrite Pn; apply next_same; reflexivity | split; [lia | exact Q2]] |].
        rewrite (probes_none _ F5 k Hk) in Hd. discriminate.
      - rewrite probes_cons. cbn [k_probe]. lia. }
    destruct (probe_needed g x queued) eqn:En; [inv_pair E; exact F | |];
      (destruct (prepare_probe g x header chk room) as [p |] eqn:Ep; [| discriminate]; apply some_inj, pair_equal_spec in E; destruct E as [<- <-];
       apply Go; [discriminate | reflexivity]).
  - destruct (pick i (p_flight x)) as [[k fl] |] eqn:Ep; [| inv_pair E; exact F]. apply some_inj, pair_equal_spec in E. destruct E as [<- <-].
    destruct (pick_in _ _ _ _ Ep) as (H1 & H2 & H3). unfold acked. cbv zeta. cbn [fits] in Fi.
    destruct (k_probe k) eqn:Kp; cbv iota in H3; rewrite ?N.add_0_r in H3.
    + destruct (F4 k H1 Kp) as (G1 & G2 & G3).
      destruct (N.eqb_spec (k_size k) (p_mtu x)); [lia |]. destruct (N.ltb_spec (p_mtu x) (k_size k)); [| lia].
      assert (Z : probes fl = 0) by (destruct (p_probing x); lia). assert (NP := probes_none _ Z).
      destruct (place_next g v6 cap x (k_size k) S F0 I F1 G1 G2 G3) as [PL _].
      unfold search. cbn [set_queues p_v6 p_mtu p_tried p_probing p_flight p_lost].
      split; [exact F0 |]. split; [exact (PL Fi) |]. split.
      { intros y Hy Hd. enough (k_size y <= p_mtu x) by lia. apply F2; [| exact Hd]. apply in_app_or in Hy. apply in_or_app. destruct Hy; auto. }
      split; [exact F3 |]. split; [intros y Hy Hd; rewrite (NP y Hy) in Hd; discriminate | exact Z].
    + assert (Kd : k_size k <= p_mtu x) by (apply F2; [apply in_or_app; auto | exact Kp]).
      destruct (k_size k =? p_mtu x); [apply search_less; auto; lia |].
      destruct (N.ltb_spec (p_mtu x) (k_size k)); [lia |]. apply search_less; auto; lia.
  - destruct (pick i (p_flight x)) as [[k fl] |] eqn:Ep; [| inv_pair E; exact F]. apply some_inj, pair_equal_spec in E. destruct E as [<- <-].
    destruct C as [-> C]. destruct (pick_in _ _ _ _ Ep) as (H1 & H2 & H3). unfold lose. cbv zeta. cbn [fits] in Fi.
    assert (Ch : exists n, check_losses x k false = mk_pa (p_v6 x) (p_mtu x) (p_tried x) (p_probing x) n (p_flight x) (p_lost x)).
    { unfold check_losses. cbv zeta. cbn [p_losses]. rewrite !orb_false_r. destruct (k_size k =? p_mtu x).
      - destruct (N.ltb_spec 10 (p_losses x + 1)); [lia |]. eauto.
      - exists (p_losses x). destruct x; reflexivity. }
    destruct Ch as [n ->]. destruct (k_probe k) eqn:Kp; cbv iota in H3; rewrite ?N.add_0_r in H3.
    + destruct (F4 k H1 Kp) as (G1 & G2 & G3). specialize (Fi eq_refl).
      assert (Z : probes fl = 0) by (destruct (p_probing x); lia). assert (NP := probes_none _ Z). rewrite orb_true_r.
      destruct (place_next g v6 cap x (k_size k) S F0 I F1 G1 G2 G3) as [_ PL].
      unfold search. cbn [set_queues p_v6 p_mtu p_tried p_probing p_flight p_lost].
      split; [exact F0 |]. split; [exact (PL Fi) |]. split.
      { intros y Hy Hd. apply F2; [| exact Hd]. apply in_app_or in Hy. apply in_or_app. destruct Hy as [Hy | [<- | Hy]]; auto; congruence. }
      split; [intros y [<- | Hy] Hd; auto |]. split; [intros y Hy Hd; rewrite (NP y Hy) in Hd; discriminate | exact Z].
    + rewrite orb_false_r. assert (Kd : k_size k <= p_mtu x) by (apply F2; [apply in_or_app; auto | exact Kp]).
      unfold search. cbn [set_queues p_v6 p_mtu p_tried p_probing p_flight p_lost].
      split; [exact F0 |]. split; [exact F1 |]. split.
      { intros y Hy Hd. apply in_app_or in Hy. destruct Hy as [Hy | Hy]; [apply F2; [apply in_or_app; auto | exact Hd] |].
        destruct keep; [destruct Hy as [<- | Hy]; [exact Kd |] |]; (apply F2; [apply in_or_app; auto | exact Hd]). }
      split; [intros y Hy Hd; destruct keep; [destruct Hy as [<- | Hy]; [congruence |] |]; auto |].
      split; [| lia]. intros y Hy Hd. erewrite next_same; [apply (F4 y (H2 y Hy) Hd) | reflexivity ..].
  - destruct (pick i (p_lost x)) as [[k lo] |] eqn:Ep; [| inv_pair E; exact F]. apply some_inj, pair_equal_spec in E. destruct E as [<- <-].
    destruct (pick_in _ _ _ _ Ep) as (H1 & H2 & H3). unfold spurious. cbv zeta. cbn [fits] in Fi.
    destruct (N.ltb_spec (p_mtu x) (k_size k)) as [L | L]; [| apply search_less; auto; lia].
    destruct (k_probe k) eqn:Ek.
    + pose proof (F3 k H1 Ek). lia.
    + assert (k_size k <= p_mtu x) by (apply F2; [apply in_or_app; auto | exact Ek]). lia.
  - destruct (pick i (p_lost x)) as [[k lo] |] eqn:Ep; inv_pair E; [| exact F].
    destruct (pick_in _ _ _ _ Ep) as (H1 & H2 & H3). apply search_less; auto; lia.
  - contradiction.
Qed.

Lemma search_run g v6 cap evs : forall x y os, sane_conf g -> Forall sane_ev evs -> Forall wide evs -> initial_mtu v6 <= cap ->
  within g x -> search g v6 cap x -> calm g x evs -> mrun g x evs = Some (y, os) -> Forall (fits cap) os -> search g v6 cap y.
Proof.
  induction evs as [| e evs IH]; intros x y os S Fs Fw I W F C; cbn [mrun].
  - intros E _. inv_pair E. exact F.
  - inversion Fs; subst. inversion Fw; subst. cbn [calm] in C. destruct C as [C1 C2]. destruct (mstep g x e) as [[x1 o] |] eqn:Es; [| discriminate].
    destruct (mrun g x1 evs) as [[x2 o2] |] eqn:Er; [| discriminate]. intros E Fi. inv_pair E. inversion Fi; subst.
    eapply IH; [exact S | assumption | assumption | exact I | eapply within_step; eassumption | | exact C2 | exact Er | assumption].
    eapply search_step; [exact S | eassumption | eassumption | exact I | exact W | exact F | destruct e; exact C1 | exact Es | assumption].
Qed.

Lemma search_0 g v6 cap : search g v6 cap (path0 v6).
Proof.
  unfold search, path0. cbn [p_v6 p_mtu p_tried p_probing p_flight p_lost app]. split; [reflexivity |].
  split; [left; auto |]. split; [intros k [] |]. split; [intros k [] |]. split; [intros k [] | reflexivity].
Qed.

Lemma not_needed g x q : g_policy g = PolRequired \/ g_policy g = PolBasic -> p_probing x = false -> probe_needed g x q = NotNeeded ->
  (p_tried x <> 0 /\ p_tried x <= 1400) \/ next_probe g x <= p_mtu x.
Proof.
  intros Pg Pp. unfold probe_needed. rewrite Pp.
  destruct (N.eqb_spec (p_tried x) 0); destruct (N.ltb_spec 1400 (p_tried x)); cbn [orb]; try (left; lia);
    (destruct (N.ltb_spec (p_mtu x) (next_probe g x)); [| intros _; right; assumption]);
    destruct Pg as [-> | ->]; cbv zeta; try discriminate;
    destruct (next_probe g x <? _); discriminate.
Qed.

(** When the search has ended, the packet size is the best of those tried. *)
Lemma search_end g v6 cap evs x os q : sane_conf g -> g_policy g = PolRequired \/ g_policy g = PolBasic ->
  Forall sane_ev evs -> Forall wide evs -> initial_mtu v6 <= cap -> calm g (path0 v6) evs ->
  mrun g (path0 v6) evs = Some (x, os) -> Forall (fits cap) os ->
  p_probing x = false -> probe_needed g x q = NotNeeded -> best_size g v6 cap (p_mtu x).
Proof.
  intros S Pg Fs Fw I C R Fi Pp Nn.
  destruct (search_run g v6 cap evs _ _ _ S Fs Fw I (within_0 g v6) (search_0 g v6 cap) C R Fi) as (V & P & _).
  destruct (top_allowed g v6 S) as [A1 A2]. exists (top g v6). split; [exact A1 |]. split; [exact A2 |].
  pose proof (initial_range v6) as [I1 I2].
  assert (Nx : (p_tried x <> 0 /\ p_tried x <= 1400) \/ (if p_tried x =? 0 then N.max (top g v6) (p_mtu x) else if 1500 <? p_tried x then 1500 else 1400) <= p_mtu x).
  { destruct (not_needed _ _ _ Pg Pp Nn) as [H | H]; [auto |]. destruct (N.eqb_spec (p_tried x) 0) as [Z | Z].
    - rewrite (next_zero g x S Z), V in H. auto.
    - destruct (N.le_gt_cases (p_tried x) 1400); [left; auto |]. rewrite (next_tried g x) in H by assumption. auto. }
  clear A1 A2. set (t := top g v6) in *. set (m := initial_mtu v6) in *. clearbody t m.
  generalize dependent (p_mtu x). generalize dependent (p_tried x). intros tr u P Nx. clear - P Nx I I1 I2.
  unfold place in P.
  destruct (N.leb_spec t m), (N.leb_spec t cap), (N.ltb_spec 1500 t), (N.leb_spec 1500 cap), (N.ltb_spec 1400 t), (N.leb_spec 1400 cap); cbn [andb];
    destruct (N.eqb_spec tr 0); destruct (N.ltb_spec 1500 tr); lia.
Qed.
