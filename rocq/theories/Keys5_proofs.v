(** Key updates: histories in which the endpoints lose each other. *)
From Verif Require Import Base Tac Send_model Keys_model Keys_spec Keys_proofs Keys2_proofs Keys3_proofs.

(** ** Deciding whether the updates of a history are confirmed *)

Definition same_side (a b : side) : bool := match a, b with SA, SA | SB, SB => true | _, _ => false end.

Definition is_accept (s : side) (g : N) (o : output) : bool :=
  match o with OFate s' _ h Accepted => same_side s s' && (g =? h) | _ => false end.

Fixpoint confirmedb (past tr : list output) : bool :=
  match tr with
  | [] => true
  | o :: r =>
    (match o with ORotate s g => (g =? 0) || existsb (is_accept (peer s) g) past | _ => true end) && confirmedb (o :: past) r
  end.

Lemma confirmedb_past tr : forall past, confirmedb past tr = true ->
  forall t1 t2 s g, tr = t1 ++ ORotate s g :: t2 ->
  g = 0 \/ exists path, In (OFate (peer s) path g Accepted) past \/ In (OFate (peer s) path g Accepted) t1.
Proof.
  induction tr as [ | o tr IH]; intros past H t1 t2 s g E; [destruct t1; discriminate | ].
  cbn [confirmedb] in H. apply andb_true_iff in H as (H1 & H2). destruct t1 as [ | o' t1].
  - cbn in E. injection E as E1 E2. subst o. apply orb_true_iff in H1 as [H1 | H1]; [left; apply N.eqb_eq; exact H1 | ].
    right. apply existsb_exists in H1 as (x & Hx & Ha). destruct x as [ | | s' path h f | ]; try discriminate.
    destruct f; try discriminate. cbn [is_accept] in Ha. apply andb_true_iff in Ha as (Ha & Hb). apply N.eqb_eq in Hb. subst h.
    exists path. left. destruct s, s'; try discriminate; exact Hx.
  - cbn in E. injection E as E1 E2. subst o'. destruct (IH _ H2 t1 t2 s g E2) as [K | (path & [[K | K] | K])].
    + auto.
    + right. exists path. right. left. exact K.
    + right. exists path. left. exact K.
    + right. exists path. right. right. exact K.
Qed.

Lemma confirmedb_ok tr : confirmedb [] tr = true -> confirmed tr.
Proof.
  intros H t1 t2 s g E. destruct (confirmedb_past tr [] H t1 t2 s g E) as [K | (path & [[] | K])]; eauto.
Qed.

(** ** One side two updates ahead: for ever *)

Definition apart (s : side) (w : world) : Prop :=
  gens (end_of w s) 2 1 /\ gens (end_of w (peer s)) 1 0 /\
  (forall p, In p (sent_by w s) -> p_gen p = Some 0 \/ p_gen p = Some 2) /\
  (forall p, In p (sent_by w (peer s)) -> p_gen p = Some 0 \/ p_gen p = Some 1).

Definition lost (s : side) (o : output) : Prop :=
  match o with
  | ORotate _ _ => False
  | OSend s' _ g => s' = s -> g = 2
  | OFate s' _ g f => s' = peer s -> 1 <= g -> f <> Accepted
  | OForged _ f => f <> Accepted
  end.

Lemma no_start k ge gd : gens k ge gd -> ge <> gd -> start_rotation k = None.
Proof.
  intros G N. destruct (start_rotation k) eqn:E; [ | reflexivity].
  destruct (start_gens _ _ _ _ G E) as (X & _). congruence.
Qed.

Lemma apart_gens s w : apart s w -> forall x, exists ge gd, gens (end_of w x) ge gd /\ ge <> gd /\ (x = s -> ge = 2) /\ ge = gd + 1.
Proof.
  intros (A & B & _) x. destruct (side_cases s x) as [-> | ->].
  - exists 2, 1. split; [exact A | ]. repeat split; lia.
  - exists 1, 0. split; [exact B | ]. split; [lia | ]. split; [intros X; destruct (peer_ne s X) | reflexivity].
Qed.

Lemma gens_fun k a b c d : gens k a b -> gens k c d -> a = c /\ b = d.
Proof.
  intros G1 G2. pose proof (gn_enc _ _ _ G1) as E1. rewrite (gn_enc _ _ _ G2) in E1. apply some_inj in E1.
  pose proof (gn_dec _ _ _ G1) as E2. rewrite (gn_dec _ _ _ G2) in E2. apply some_inj in E2. auto.
Qed.

Lemma apart_set s w x k ge gd : apart s w -> gens (end_of w x) ge gd -> gens k ge gd -> apart s (set_end w x k).
Proof.
  intros (A & B & C & D) G1 G2.
  assert (X : forall y a b, gens (end_of w y) a b -> gens (end_of (set_end w x k) y) a b).
  { intros y a b G. destruct (side_cases x y) as [-> | ->]; rewrite ?end_set_eq, ?end_set_peer; [ | exact G].
    destruct (gens_fun _ _ _ _ _ G1 G) as (<- & <-). exact G2. }
  split; [exact (X _ _ _ A) | ]. split; [exact (X _ _ _ B) | ]. rewrite !sent_set. auto.
Qed.

Lemma apart_step s w e w' o : apart s w -> step w e = Some (w', o) -> apart s w' /\ Forall (lost s) o.
Proof.
  intros A St. pose proof (apart_gens _ _ A) as AG.
  assert (RT : forall x, rotate w x = (w, [])).
  { intros x. destruct (AG x) as (ge & gd & G & N & _). unfold rotate. rewrite (no_start _ _ _ G N). reflexivity. }
  destruct e as [x path now | x path | x | x n now rto | x path pn phase now rto]; cbn [step] in St.
  - replace (if auto_due (end_of w x) now then rotate w x else (w, [])) with (w, @nil output) in St
      by (rewrite RT; destruct (auto_due _ _); reflexivity).
    destruct (AG x) as (ge & gd & G & N & G2 & _).
    destruct (send_gens _ _ _ path G) as (k & Sp & Gk & _). rewrite Sp in St. apply some_pair_inj in St as (<- & <-).
    cbn [p_gen p_path app]. split; [ | constructor; [intros E; exact (G2 E) | constructor]].
    destruct (apart_set s w x k _ _ A G Gk) as (B1 & B2 & B3 & B4).
    unfold apart. rewrite !end_add. split; [exact B1 | ]. split; [exact B2 | ].
    destruct A as (A1 & A2 & _).
    destruct (side_cases s x) as [-> | ->].
    + rewrite sent_add_eq, sent_add_peer. split; [ | exact B4]. intros p Hp. apply in_app_or in Hp as [Hp | [<- | []]]; [auto | ].
      cbn. rewrite (G2 eq_refl). auto.
    + rewrite sent_add_eq. pose proof (sent_add_peer (set_end w (peer s) k) (peer s)) as Y. rewrite peer_peer in Y. rewrite Y.
      split; [exact B3 | ]. intros p Hp. apply in_app_or in Hp as [Hp | [<- | []]]; [auto | ].
      cbn. destruct (gens_fun _ _ _ _ _ A2 G) as (<- & _). auto.
  - apply some_pair_inj in St as (<- & <-). split; [ | constructor].
    destruct (AG x) as (ge & gd & G & _). destruct (skip_gens _ _ _ path G) as (Gk & _). exact (apart_set _ _ _ _ _ _ A G Gk).
  - rewrite RT in St. apply some_pair_inj in St as (<- & <-). split; [exact A | constructor].
  - destruct (nth_error (sent_by w (peer x)) n) as [p | ] eqn:Nt; [ | apply some_pair_inj in St as (<- & <-); split; [exact A | constructor]].
    apply nth_error_In in Nt. destruct (receive (end_of w x) now rto p) as [[k f] | ] eqn:Re; [ | discriminate].
    apply some_pair_inj in St as (<- & <-). destruct (AG x) as (ge & gd & G & N & G2 & GG).
    destruct (receive_spec _ now rto p _ _ G) as (k' & f' & Re' & R & _). rewrite Re in Re'. apply some_pair_inj in Re' as (<- & <-).
    assert (NG : p_gen p <> Some (gd + 1)).
    { destruct A as (A1 & A2 & A3 & A4). destruct (side_cases s x) as [-> | ->].
      - destruct (gens_fun _ _ _ _ _ A1 G) as (_ & <-). destruct (A4 p Nt) as [-> | ->]; discriminate.
      - rewrite peer_peer in Nt. destruct (gens_fun _ _ _ _ _ A2 G) as (_ & <-). destruct (A3 p Nt) as [-> | ->]; discriminate. }
    assert (Gk : gens k ge gd) by (destruct R; try assumption; congruence).
    split; [exact (apart_set _ _ _ _ _ _ A G Gk) | ].
    destruct (p_gen p) as [g | ] eqn:PG; [ | constructor]. constructor; [ | constructor].
    intros -> Hg F. subst f. destruct A as (A1 & A2 & A3 & A4). destruct (gens_fun _ _ _ _ _ A2 G) as (<- & <-).
    rewrite peer_peer in Nt. inversion R as [? Hf | PGx | o' KO PGx OG | PGx].
    + congruence.
    + rewrite PG in PGx. apply some_inj in PGx. lia.
    + lia.
    + congruence.
  - destruct (AG x) as (ge & gd & G & _).
    destruct (receive_forged (end_of w x) now rto (mk_pkt (the_path (end_of w x) path) pn phase None) _ _ G eq_refl)
      as (k & f & Re & Hf & Gk & _). rewrite Re in St. apply some_pair_inj in St as (<- & <-).
    split; [exact (apart_set _ _ _ _ _ _ A G Gk) | ]. constructor; [exact Hf | constructor].
Qed.

Lemma apart_run s l : forall w w' o, apart s w -> run w l = Some (w', o) -> apart s w' /\ Forall (lost s) o.
Proof.
  induction l as [ | e l IH]; intros w w' o A H; cbn [run] in H.
  - apply some_pair_inj in H as (<- & <-). split; [exact A | constructor].
  - destruct (step w e) as [[v1 o1] | ] eqn:St; [ | discriminate].
    destruct (run v1 l) as [[v2 o2] | ] eqn:Rn; [ | discriminate]. apply some_pair_inj in H as (<- & <-).
    destruct (apart_step _ _ _ _ _ A St) as (A1 & F1). destruct (IH _ _ _ A1 Rn) as (A2 & F2).
    split; [exact A2 | ]. apply Forall_app. auto.
Qed.

(** Both sides start an update; one of them starts another. *)
Definition crossed : list event :=
  [ESend SA 0 10; ESend SB 0 10; EDeliver SB 0 20 100; EDeliver SA 0 20 100;
   ERotate SA; ERotate SB; ESend SB 0 30; EDeliver SA 1 40 100; ERotate SA].

(** A side that has followed an update starts another. *)
Definition replied : list event :=
  [ESend SA 0 10; ESend SB 0 10; EDeliver SB 0 20 100; EDeliver SA 0 20 100;
   ERotate SA; ESend SA 0 30; EDeliver SB 1 40 100; ERotate SB].

Definition lost_after (w0 : world) (s s' : side) (l : list event) : Prop := forall l2, exists w tr,
  run w0 (l ++ l2) = Some (w, tr) /\
  exists tr1 tr2, tr = tr1 ++ tr2 /\ (exists w1, run w0 l = Some (w1, tr1)) /\
    (forall path g, In (OSend s path g) tr2 -> g = 2) /\
    (forall path g, In (OFate s' path g Accepted) tr2 -> g = 0).

Lemma apart_crossed : exists w tr, run (init_w false 1000 1000 1000 1000 5 5) crossed = Some (w, tr) /\ apart SA w.
Proof.
  assert (H : match run (init_w false 1000 1000 1000 1000 5 5) crossed with Some (w, _) => apart SA w | None => False end).
  { vm_compute.
    split; [constructor; try reflexivity; [left; reflexivity | right; right; repeat split] | ].
    split; [constructor; try reflexivity; [left; reflexivity | right; right; repeat split] | ].
    split; intros p H; repeat destruct H as [<- | H]; try destruct H; auto. }
  destruct (run (init_w false 1000 1000 1000 1000 5 5) crossed) as [[w tr] | ]; [eauto | destruct H].
Qed.

Lemma apart_replied : exists w tr, run (init_w false 1000 1000 1000 1000 5 5) replied = Some (w, tr) /\ apart SB w.
Proof.
  assert (H : match run (init_w false 1000 1000 1000 1000 5 5) replied with Some (w, _) => apart SB w | None => False end).
  { vm_compute.
    split; [constructor; try reflexivity; [left; reflexivity | right; right; repeat split] | ].
    split; [constructor; try reflexivity; [left; reflexivity | right; right; repeat split] | ].
    split; intros p H; repeat destruct H as [<- | H]; try destruct H; auto. }
  destruct (run (init_w false 1000 1000 1000 1000 5 5) replied) as [[w tr] | ]; [eauto | destruct H].
Qed.

Lemma apart_end w0 l s s' : s' = peer s -> (exists w tr, run w0 l = Some (w, tr) /\ apart s w) -> lost_after w0 s s' l.
Proof.
  intros -> (w & tr & H & A) l2.
  assert (RA : forall v0 a b, run v0 (a ++ b) = match run v0 a with None => None | Some (w1, o1) =>
               match run w1 b with None => None | Some (w2, o2) => Some (w2, o1 ++ o2) end end).
  { intros v0 a. revert v0. induction a as [ | e a IH]; intros v0 b; cbn [app run].
    - destruct (run v0 b) as [[? ?] | ]; reflexivity.
    - destruct (step v0 e) as [[w1 o1] | ]; [ | reflexivity]. rewrite IH.
      destruct (run w1 a) as [[w2 o2] | ]; [ | reflexivity]. destruct (run w2 b) as [[w3 o3] | ]; [ | reflexivity].
      rewrite app_assoc. reflexivity. }
  rewrite RA, H.
  assert (AG : all_gens w) by (intros x; destruct (apart_gens _ _ A x) as (ge & gd & G & _); eauto).
  destruct (run_all w l2 AG) as (w2 & t2 & R2 & _). rewrite R2.
  destruct (apart_run _ _ _ _ _ A R2) as (_ & F). rewrite Forall_forall in F.
  do 2 eexists. split; [reflexivity | ]. exists tr, t2. split; [reflexivity | ]. split; [eauto | ]. split.
  - intros path g Hi. exact (F _ Hi eq_refl).
  - intros path g Hi. pose proof (F _ Hi eq_refl) as X. destruct (N.eq_dec g 0) as [E | E]; [exact E | ].
    exfalso. apply X; [lia | reflexivity].
Qed.

Lemma crossed_lost : exists l, lost_after (init_w false 1000 1000 1000 1000 5 5) SA SB l.
Proof. exists crossed. apply apart_end; [reflexivity | exact apart_crossed]. Qed.

Lemma replied_lost : exists l, lost_after (init_w false 1000 1000 1000 1000 5 5) SB SA l.
Proof. exists replied. apply apart_end; [reflexivity | exact apart_replied]. Qed.

(** A path that is silent during a whole generation. *)
Definition idle_path : list event :=
  [ESend SA 0 10; ESend SB 0 10; EDeliver SB 0 20 100; EDeliver SA 0 20 100; ESend SA 1 10; EDeliver SB 1 20 100;
   ERotate SA; ESend SA 0 30; EDeliver SB 2 40 100; ESend SB 0 50; EDeliver SA 1 60 100;
   ERotate SA; ESend SA 1 1000].

(** Four packets for one: the sender is not allowed to update its keys. *)
Definition bulk (n : nat) : list event :=
  flat_map (fun i => let t := 100 * N.of_nat i in
    [ESend SA 0 t; ESend SA 0 t; ESend SA 0 t; ESend SA 0 t;
     EDeliver SB (4 * i) (t + 10) 1; EDeliver SB (4 * i + 1) (t + 10) 1; EDeliver SB (4 * i + 2) (t + 10) 1; EDeliver SB (4 * i + 3) (t + 10) 1;
     ESend SB 0 (t + 20); EDeliver SA i (t + 30) 1]) (seq 0 n).

(** Numbers are skipped: an update for each packet. *)
Definition skipping (n : nat) : list event :=
  [EHole SA 0; EHole SA 0; EHole SA 0; EHole SB 0; EHole SB 0; EHole SB 0; ESend SB 0 0; EDeliver SA 0 0 1; ERotate SA] ++
  flat_map (fun i => let t := 100 * N.of_nat i in
    [ESend SA 0 (t + 50); EDeliver SB i (t + 60) 1; ESend SB 0 (t + 70); EDeliver SA (i + 1) (t + 80) 1]) (seq 0 n).

Lemma idle_path_lost :
  match run (init_w true 1000 1000 1000 1000 5 5) idle_path with
  | Some (w, tr) =>
    confirmed tr /\
    forall now rto, exists w' f, step w (EDeliver SB 3 now rto) = Some (w', [OFate SB 1 (newest SB tr + 1) f]) /\ f <> Accepted
  | None => False
  end.
Proof.
  assert (H : match run (init_w true 1000 1000 1000 1000 5 5) idle_path with
    | Some (w, tr) => confirmedb [] tr = true /\ newest SB tr = 1 /\ k_old (w_b w) = Some 0 /\ k_dec (w_b w) = Some 1 /\
        k_pdec (w_b w) = true /\ k_rot (w_b w) 1 = max64 /\ k_guard (w_b w) = 140 /\
        nth_error (w_sa w) 3 = Some (mk_pkt 1 1 false (Some 2))
    | None => False end) by (vm_compute; repeat split).
  destruct (run _ idle_path) as [[w tr] | ]; [ | exact H].
  destruct H as (H1 & H2 & H3 & H4 & H5 & H6 & H7 & H8). split; [exact (confirmedb_ok _ H1) | ]. intros now rto.
  cbn [step peer sent_by end_of]. rewrite H8. unfold receive, count_failure. cbv zeta. cbn [p_path p_pn p_phase p_gen].
  rewrite H5, H6, H7, H2, H3, H4.
  cbn [Bool.eqb]. change (1 <? max64) with true. rewrite orb_true_r.
  destruct (140 <? now); do 2 eexists; (split; [reflexivity | discriminate]).
Qed.

Definition taken (o : output) : bool := match o with OFate _ _ _ f => match f with Accepted => true | _ => false end | _ => true end.
Lemma taken_ok tr : forallb taken tr = true -> Forall (fun o => match o with OFate _ _ _ f => f = Accepted | _ => True end) tr.
Proof.
  rewrite forallb_forall, Forall_forall. intros H o Ho. specialize (H o Ho). destruct o as [ | | ? ? ? f | ]; try exact Logic.I.
  destruct f; try discriminate. reflexivity.
Qed.

Lemma bulk_seals :
  match run (init_w false 7 1000 1000 1000 0 0) (bulk 40) with
  | Some (_, tr) => confirmed tr /\ Forall (fun o => match o with OFate _ _ _ f => f = Accepted | _ => True end) tr /\
                    14 * (7 + 1) = sealed_with SA 2 tr
  | None => False
  end.
Proof.
  assert (H : match run (init_w false 7 1000 1000 1000 0 0) (bulk 40) with
    | Some (_, tr) => confirmedb [] tr = true /\ forallb taken tr = true /\
                      14 * (7 + 1) = sealed_with SA 2 tr
    | None => False end) by (vm_compute; repeat split).
  destruct (run _ (bulk 40)) as [[w tr] | ]; [ | exact H].
  destruct H as (H1 & H2 & H3). split; [exact (confirmedb_ok _ H1) | ]. split; [exact (taken_ok _ H2) | exact H3].
Qed.

Lemma skipping_seals :
  match run (init_w false 1000000 1000000 1000 1000 0 0) (skipping 9) with
  | Some (_, tr) => confirmed tr /\ Forall (fun o => match o with OFate _ _ _ f => f = Accepted | _ => True end) tr /\
                    forall g, In g [1; 2; 3; 4; 5; 6; 7; 8; 9] -> sealed_with SA g tr = 1
  | None => False
  end.
Proof.
  assert (H : match run (init_w false 1000000 1000000 1000 1000 0 0) (skipping 9) with
    | Some (_, tr) => confirmedb [] tr = true /\ forallb taken tr = true /\
                      map (fun g => sealed_with SA g tr) [1; 2; 3; 4; 5; 6; 7; 8; 9] = repeat 1 9
    | None => False end) by (vm_compute; repeat split).
  destruct (run _ (skipping 9)) as [[w tr] | ]; [ | exact H].
  destruct H as (H1 & H2 & H3). split; [exact (confirmedb_ok _ H1) | ]. split; [exact (taken_ok _ H2) | ].
  cbn [map repeat] in H3. injection H3 as A1 A2 A3 A4 A5 A6 A7 A8 A9.
  intros g Hg. cbn in Hg. repeat (destruct Hg as [<- | Hg]; [assumption | ]). destruct Hg.
Qed.

Lemma idle_path_lost_ex : exists l,
  match run (init_w true 1000 1000 1000 1000 5 5) l with
  | Some (w, tr) =>
    confirmed tr /\
    forall now rto, exists w' f, step w (EDeliver SB 3 now rto) = Some (w', [OFate SB 1 (newest SB tr + 1) f]) /\ f <> Accepted
  | None => False
  end.
Proof. exists idle_path. exact idle_path_lost. Qed.

Lemma bulk_seals_ex : exists l,
  match run (init_w false 7 1000 1000 1000 0 0) l with
  | Some (_, tr) => confirmed tr /\ Forall (fun o => match o with OFate _ _ _ f => f = Accepted | _ => True end) tr /\
                    14 * (7 + 1) = sealed_with SA 2 tr
  | None => False
  end.
Proof. exists (bulk 40). exact bulk_seals. Qed.

Lemma skipping_seals_ex : exists l,
  match run (init_w false 1000000 1000000 1000 1000 0 0) l with
  | Some (_, tr) => confirmed tr /\ Forall (fun o => match o with OFate _ _ _ f => f = Accepted | _ => True end) tr /\
                    forall g, In g [1; 2; 3; 4; 5; 6; 7; 8; 9] -> sealed_with SA g tr = 1
  | None => False
  end.
Proof. exists (skipping 9). exact skipping_seals. Qed.
