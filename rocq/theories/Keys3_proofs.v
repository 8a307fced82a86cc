(** Proofs about key updates: reordered packets, forged packets, the limit on failures. *)
From Verif Require Import Base Tac Send_model Keys_model Keys_spec Keys_proofs Keys2_proofs.

(** ** Forged packets change nothing *)

(** The fate of a packet, from what matters. *)
Definition rfate (gd : N) (old : option N) (rot : N -> N) (guard now : N) (p : pkt) : fate :=
  if Bool.eqb (p_phase p) (N.odd gd) then if opens (Some gd) p then Accepted else Failed
  else if ((rot (p_path p) =? max64) && (now <=? guard)) || (p_pn p <? rot (p_path p)) then
    if guard <? now then Ignored
    else match old with None => Ignored | Some _ => if opens old p then Accepted else Failed end
  else if opens (Some (gd + 1)) p then Accepted else Failed.

Definition last_of (k : kst) (p : pkt) (f : fate) : N :=
  match f with Accepted => if k_mp k then k_last k else if k_last k <? p_pn p then p_pn p else k_last k | _ => k_last k end.

Lemma record_last k pn : k_last (record_pn k pn) = (if k_mp k then k_last k else if k_last k <? pn then pn else k_last k).
Proof. unfold record_pn. destruct (k_mp k); reflexivity. Qed.

Lemma record_rest k pn : k_epoch (record_pn k pn) = k_epoch k /\ k_max (record_pn k pn) = k_max k /\
  k_sent (record_pn k pn) = k_sent k /\ k_fail (record_pn k pn) = k_fail k /\ k_closed (record_pn k pn) = k_closed k /\
  k_integrity (record_pn k pn) = k_integrity k.
Proof. unfold record_pn. destruct (k_mp k); repeat split. Qed.

Lemma receive_rest k now rto p ge gd k' f :
  gens k ge gd -> receive k now rto p = Some (k', f) ->
  f = rfate gd (k_old k) (k_rot k) (k_guard k) now p /\ k_last k' = last_of k p f /\
  k_epoch k' = k_epoch k /\ k_max k' = k_max k /\ k_sent k' = k_sent k /\ k_integrity k' = k_integrity k /\
  k_fail k' = (match f with Failed => k_fail k + 1 | _ => k_fail k end) /\
  k_closed k' = (match f with Failed => k_closed k || (k_integrity k <? k_fail k + 1) | _ => k_closed k end).
Proof.
  intros G. pose proof G as [He Hd Hpe Hpd Ho Hn]. unfold receive, rfate, count_failure. cbv zeta. rewrite Hpd, Hd.
  destruct (Bool.eqb (p_phase p) (N.odd gd)) eqn:Ph.
  - destruct (opens (Some gd) p); intros H; apply some_pair_inj in H as (<- & <-); (split; [reflexivity | ]); [ | repeat split].
    rewrite record_last. destruct (record_rest (with_rot k (if p_pn p <? k_rot k (p_path p) then set_path (k_rot k) (p_path p) (p_pn p) else k_rot k) (k_guard k)) (p_pn p)) as (-> & -> & -> & -> & -> & ->). repeat split.
  - destruct (_ || _) eqn:Old.
    + destruct (k_guard k <? now).
      { intros H; apply some_pair_inj in H as (<- & <-). repeat split. }
      destruct (k_old k) as [o | ].
      2:{ intros H; apply some_pair_inj in H as (<- & <-). repeat split. }
      destruct (opens (Some o) p).
      * intros H; apply some_pair_inj in H as (<- & <-). split; [reflexivity | ]. rewrite record_last.
        destruct (record_rest k (p_pn p)) as (-> & -> & -> & -> & -> & ->). repeat split.
      * intros H; apply some_pair_inj in H as (<- & <-). repeat split.
    + assert (exists k1, match k_new_dec k, k_new_enc k with None, None => compute_new k | _, _ => Some k end = Some k1 /\
                k_new_dec k1 = Some (gd + 1) /\ k_last k1 = k_last k /\ k_epoch k1 = k_epoch k /\ k_max k1 = k_max k /\
                k_sent k1 = k_sent k /\ k_integrity k1 = k_integrity k /\ k_fail k1 = k_fail k /\ k_closed k1 = k_closed k /\
                k_dec k1 = Some gd /\ k_mp k1 = k_mp k)
        as (k1 & E1 & ND & LA & EP & MX & SE & IN & FA & CL & DE & MP).
      { destruct Hn as [(Ne & Nd & Se & Sd & E) | [(Ne & Nd & Se & Sd & E) | (Ne & Nd & Se & Sd & E)]]; rewrite Ne, Nd.
        - unfold compute_new. rewrite Ne, Nd. eexists. split; [reflexivity | ]. cbn. rewrite Sd. repeat split. exact Hd.
        - exists k. repeat split; assumption.
        - exists k. repeat split; assumption. }
      rewrite E1, ND, DE. destruct (opens (Some (gd + 1)) p).
      * intros H; apply some_pair_inj in H as (<- & <-). split; [reflexivity | ].
        match goal with |- context [record_pn ?x _] => set (k4 := x) end.
        assert (X : k_last k4 = k_last k1 /\ k_mp k4 = k_mp k1 /\ k_epoch k4 = k_epoch k1 /\ k_max k4 = k_max k1 /\
                    k_sent k4 = k_sent k1 /\ k_fail k4 = k_fail k1 /\ k_closed k4 = k_closed k1 /\ k_integrity k4 = k_integrity k1)
          by (subst k4; destruct (k_new_enc (apply_dec _)); repeat split).
        destruct X as (X1 & X2 & X3 & X4 & X5 & X6 & X7 & X8).
        rewrite record_last. destruct (record_rest k4 (p_pn p)) as (-> & -> & -> & -> & -> & ->).
        unfold last_of. rewrite X1, X2, X3, X4, X5, X6, X7, X8, LA, MP. repeat split; assumption.
      * intros H; apply some_pair_inj in H as (<- & <-). split; [reflexivity | ]. cbn. rewrite FA, CL, IN. repeat split; assumption.
Qed.

(** Two states of an endpoint that behave alike. *)
Record sim (k1 k2 : kst) : Prop := mk_sim {
  sm_g : exists ge gd, gens k1 ge gd /\ gens k2 ge gd;
  sm_mp : k_mp k1 = k_mp k2; sm_max : k_max k1 = k_max k2; sm_old : k_old k1 = k_old k2;
  sm_rot : forall i, k_rot k1 i = k_rot k2 i; sm_guard : k_guard k1 = k_guard k2; sm_epoch : k_epoch k1 = k_epoch k2;
  sm_next : k_next k1 = k_next k2; sm_last : k_last k1 = k_last k2; sm_sent : k_sent k1 = k_sent k2 }.

Lemma sim_start k1 k2 : sim k1 k2 ->
  match start_rotation k1, start_rotation k2 with
  | None, None => True
  | Some a, Some b => sim a b
  | _, _ => False
  end.
Proof.
  intros [(ge & gd & G1 & G2) M X O R U E N L S].
  assert (C : forall k, gens k ge gd -> (start_rotation k = None <-> k_last k < k_epoch k \/ ge <> gd)).
  { intros k [He Hd Hpe Hpd Ho Hn]. unfold start_rotation, compute_new.
    destruct (k_last k <? k_epoch k) eqn:Q.
    - apply N.ltb_lt in Q. split; auto.
    - apply N.ltb_ge in Q.
      destruct Hn as [(Ne & Nd & Se & Sd & E0) | [(Ne & Nd & Se & Sd & E0) | (Ne & Nd & Se & Sd & E0)]];
        rewrite Ne, Nd; (split; [ | ]); try discriminate; try (intros [? | ?]; [lia | congruence]); try (intros _; right; lia); reflexivity. }
  pose proof (C k1 G1) as C1. pose proof (C k2 G2) as C2.
  destruct (start_rotation k1) as [a | ] eqn:S1; destruct (start_rotation k2) as [b | ] eqn:S2.
  - destruct (start_gens _ _ _ _ G1 S1) as (E1 & A1 & A2 & A3 & A4 & A5 & A6 & A7 & A8).
    destruct (start_gens _ _ _ _ G2 S2) as (E2 & B1 & B2 & B3 & B4 & B5 & B6 & B7 & B8).
    assert (EP : forall k k', gens k ge gd -> start_rotation k = Some k' -> k_epoch k' = (if k_mp k then 0 else k_next k 0) /\ k_max k' = k_max k).
    { intros k k' [He Hd Hpe Hpd Ho Hn]. unfold start_rotation, compute_new.
      destruct (k_last k <? k_epoch k); [discriminate | ].
      destruct (k_new_enc k), (k_new_dec k); try discriminate; intros H; apply some_inj in H; subst k'; split; reflexivity. }
    destruct (EP _ _ G1 S1) as (EP1 & MX1). destruct (EP _ _ G2 S2) as (EP2 & MX2).
    constructor; try congruence.
    + exists (ge + 1), gd. split; assumption.
    + rewrite EP1, EP2, M, N. reflexivity.
  - destruct C2 as [C2 _]. specialize (C2 eq_refl). rewrite <- L, <- E in C2. apply C1 in C2. discriminate.
  - destruct C1 as [C1 _]. specialize (C1 eq_refl). rewrite L, E in C1. apply C2 in C1. discriminate.
  - exact Logic.I.
Qed.

Lemma sim_receive k1 k2 now rto p k1' f :
  sim k1 k2 -> receive k1 now rto p = Some (k1', f) -> exists k2', receive k2 now rto p = Some (k2', f) /\ sim k1' k2'.
Proof.
  intros [(ge & gd & G1 & G2) M X O R U E N L S] H1.
  destruct (receive_spec k1 now rto p _ _ G1) as (a & fa & Ea & Ra & Na & Ma). rewrite H1 in Ea.
  apply some_pair_inj in Ea as (<- & <-).
  destruct (receive_spec k2 now rto p _ _ G2) as (b & fb & Eb & Rb & Nb & Mb).
  destruct (receive_rest _ _ _ _ _ _ _ _ G1 H1) as (F1 & L1 & P1 & X1 & S1 & _).
  destruct (receive_rest _ _ _ _ _ _ _ _ G2 Eb) as (F2 & L2 & P2 & X2 & S2 & _).
  assert (FF : fb = f).
  { rewrite F1, F2. unfold rfate. rewrite O, U, R. reflexivity. }
  clear F1 F2. subst fb. exists b. split; [exact Eb | ].
  assert (LL : k_last k1' = k_last b) by (rewrite L1, L2; unfold last_of; rewrite M, L; reflexivity).
  clear L1 L2.
  destruct Ra as [f Hf Ga RTa GUa OLa | PGa PPa Ga RTa GUa OLa | o KOa PGa OGa PPa Ga RTa GUa OLa | PGa PPa Ga RTa GUa OLa];
  inversion Rb as [f' Hf' Gb RTb GUb OLb | PGb PPb Gb RTb GUb OLb | o' KOb PGb OGb PPb Gb RTb GUb OLb | PGb PPb Gb RTb GUb OLb]; subst; try congruence;
  (try (rewrite PGa in PGb; apply some_inj in PGb; exfalso; lia)).
  - constructor; [eauto | congruence | congruence | congruence | | congruence | congruence | congruence | congruence | congruence]. intros i. rewrite RTa, RTb. apply R.
  - constructor; [eauto | congruence | congruence | congruence | | congruence | congruence | congruence | congruence | congruence]. intros i. rewrite RTa, RTb, R.
    destruct (p_pn p <? k_rot k2 (p_path p)); [unfold set_path; destruct (i =? p_path p); [reflexivity | ] | ]; apply R.
  - constructor; [eauto | congruence | congruence | congruence | | congruence | congruence | congruence | congruence | congruence]. intros i. rewrite RTa, RTb. apply R.
  - constructor; [eauto | congruence | congruence | congruence | | congruence | congruence | congruence | congruence | congruence]. intros i. rewrite RTa, RTb, M. unfold set_path.
    destruct (i =? p_path p); [reflexivity | ]. destruct (k_mp k2); [reflexivity | apply R].
Qed.

Lemma sim_refl k ge gd : gens k ge gd -> sim k k.
Proof. intros G. constructor; try reflexivity. eauto. Qed.

Definition wsim (w1 w2 : world) : Prop := (forall s, sim (end_of w1 s) (end_of w2 s)) /\ forall s, sent_by w1 s = sent_by w2 s.

Lemma wsim_set w1 w2 s a b : wsim w1 w2 -> sim a b -> wsim (set_end w1 s a) (set_end w2 s b).
Proof.
  intros (A & B) H. split.
  - intros s'. destruct (side_cases s s') as [-> | ->]; rewrite ?end_set_eq, ?end_set_peer; auto.
  - intros s'. rewrite !sent_set. apply B.
Qed.

Lemma wsim_rotate w1 w2 s a o : wsim w1 w2 -> rotate w1 s = (a, o) -> exists b, rotate w2 s = (b, o) /\ wsim a b.
Proof.
  intros W H. unfold rotate in *. pose proof W as (A & B). pose proof (sim_start _ _ (A s)) as X.
  destruct (A s) as [(ge & gd & G1 & G2) _ _ _ _ _ _ _ _ _].
  rewrite (gn_enc _ _ _ G1) in H. rewrite (gn_enc _ _ _ G2).
  destruct (start_rotation (end_of w1 s)), (start_rotation (end_of w2 s)); try contradiction; ip H; eexists; split; try reflexivity.
  - apply wsim_set; assumption.
  - exact W.
Qed.

Lemma sim_path k1 k2 path : sim k1 k2 -> the_path k1 path = the_path k2 path.
Proof. intros H. unfold the_path. rewrite (sm_mp _ _ H). reflexivity. Qed.

Lemma wsim_step w1 w2 e a o : wsim w1 w2 -> forgery e = false -> step w1 e = Some (a, o) ->
  exists b, step w2 e = Some (b, o) /\ wsim a b /\ forallb (fun x => negb (of_forgery x)) o = true.
Proof.
  intros W F St. pose proof W as (A & B).
  destruct e as [s path now | s path | s | s n now rto | s path pn phase now rto]; cbn [step] in *; [ | | | | discriminate].
  - assert (AD : auto_due (end_of w1 s) now = auto_due (end_of w2 s) now).
    { destruct (A s). unfold auto_due. congruence. }
    assert (R : exists v1 v2 o1, (if auto_due (end_of w1 s) now then rotate w1 s else (w1, [])) = (v1, o1) /\
                (if auto_due (end_of w2 s) now then rotate w2 s else (w2, [])) = (v2, o1) /\ wsim v1 v2 /\
                forallb (fun x => negb (of_forgery x)) o1 = true).
    { rewrite AD. destruct (auto_due (end_of w2 s) now).
      - destruct (rotate w1 s) as [v1 o1] eqn:R1. destruct (wsim_rotate _ _ _ _ _ W R1) as (v2 & R2 & W2).
        exists v1, v2, o1. split; [reflexivity | ]. split; [exact R2 | ]. split; [exact W2 | ].
        unfold rotate in R1. destruct (start_rotation (end_of w1 s)); ip R1; [destruct (k_enc (end_of w1 s)) | ]; reflexivity.
      - exists w1, w2, []. split; [reflexivity | ]. split; [reflexivity | ]. split; [exact W | reflexivity]. }
    destruct R as (v1 & v2 & o1 & R1 & R2 & W2 & Fo). rewrite R1 in St. rewrite R2. pose proof W2 as (A2 & B2).
    destruct (A2 s) as [(ge & gd & G1 & G2) M X O R U E N L S0].
    destruct (send_gens _ _ _ path G1) as (k1 & S1 & G1' & M1 & Ro1 & U1 & O1 & N1).
    destruct (send_gens _ _ _ path G2) as (k2 & S2 & G2' & M2 & Ro2 & U2 & O2 & N2).
    rewrite S1 in St. rewrite S2. apply some_pair_inj in St as (<- & <-). cbn [p_gen p_path].
    rewrite (sim_path _ _ path (A2 s)), N. eexists. split; [reflexivity | ]. split.
    + assert (WS : wsim (set_end v1 s k1) (set_end v2 s k2)).
      { apply wsim_set; [exact W2 | ].
        unfold send_packet in S1, S2. rewrite (gn_enc _ _ _ G1) in S1. rewrite (gn_enc _ _ _ G2) in S2.
        apply some_pair_inj in S1 as (S1 & _). apply some_pair_inj in S2 as (S2 & _). subst k1 k2.
        constructor; cbn; [eauto | congruence | congruence | congruence | exact R | congruence | congruence | | congruence | congruence].
        rewrite (sim_path _ _ path (A2 s)), N. reflexivity. }
      destruct WS as (WA & WB). split.
      * intros s'. rewrite !end_add. apply WA.
      * intros s'. destruct (side_cases s s') as [-> | ->]; rewrite ?sent_add_eq, ?sent_add_peer, WB; reflexivity.
    + rewrite forallb_app, Fo. reflexivity.
  - apply some_pair_inj in St as (<- & <-). eexists. split; [reflexivity | ]. split; [ | reflexivity].
    apply wsim_set; [exact W | ]. destruct (A s) as [(ge & gd & G1 & G2) M X O R U E N L S0].
    destruct (skip_gens _ _ _ path G1) as (G1' & _). destruct (skip_gens _ _ _ path G2) as (G2' & _).
    constructor; cbn; [eauto | congruence | congruence | congruence | exact R | congruence | congruence | | congruence | congruence]. rewrite (sim_path _ _ path (A s)), N. reflexivity.
  - apply some_inj in St. destruct (rotate w1 s) as [v1 o1] eqn:R1. ip St.
    destruct (wsim_rotate _ _ _ _ _ W R1) as (v2 & R2 & W2). rewrite R2. exists v2. split; [reflexivity | ]. split; [exact W2 | ].
    unfold rotate in R1. destruct (start_rotation (end_of w1 s)); ip R1; [destruct (k_enc (end_of w1 s)) | ]; reflexivity.
  - rewrite <- B. destruct (nth_error (sent_by w1 (peer s)) n) as [p | ].
    2:{ apply some_pair_inj in St as (<- & <-). exists w2. split; [reflexivity | ]. split; [exact W | reflexivity]. }
    destruct (receive (end_of w1 s) now rto p) as [[k f] | ] eqn:Re; [ | discriminate].
    destruct (sim_receive _ _ _ _ _ _ _ (A s) Re) as (k2 & Re2 & S2). rewrite Re2.
    apply some_pair_inj in St as (<- & <-). eexists. split; [reflexivity | ]. split; [apply wsim_set; assumption | ].
    destruct (p_gen p); reflexivity.
Qed.

Lemma wsim_forge w1 w2 e a o : wsim w1 w2 -> forgery e = true -> step w1 e = Some (a, o) ->
  wsim a w2 /\ exists s f, o = [OForged s f] /\ f <> Accepted.
Proof.
  intros W F St. pose proof W as (A & B). destruct e as [ | | | | s path pn phase now rto]; try discriminate. cbn [step] in St.
  destruct (A s) as [(ge & gd & G1 & G2) M X O R U E N L S0].
  destruct (receive_forged _ now rto (mk_pkt (the_path (end_of w1 s) path) pn phase None) _ _ G1 eq_refl)
    as (k & f & Re & Hf & Gk & R' & U' & O' & N' & M').
  destruct (receive_rest _ _ _ _ _ _ _ _ G1 Re) as (F1 & L1 & P1 & X1 & S1 & _).
  rewrite Re in St. apply some_pair_inj in St as (<- & <-). split; [ | eauto].
  assert (sim k (end_of w2 s)).
  { constructor; [eauto | congruence | congruence | congruence | | congruence | congruence | congruence | | congruence].
    - intros i. rewrite R'. apply R.
    - rewrite L1. unfold last_of. destruct f; congruence. }
  split.
  - intros s'. destruct (side_cases s s') as [-> | ->]; rewrite ?end_set_eq, ?end_set_peer; auto.
  - intros s'. rewrite sent_set. apply B.
Qed.

Lemma filter_all {A} (f : A -> bool) l : forallb f l = true -> filter f l = l.
Proof. induction l as [ | a l IH]; [reflexivity | ]. cbn. destruct (f a); [ | discriminate]. intros H. rewrite IH; auto. Qed.

Lemma forged_run w1 w2 l a tr : wsim w1 w2 -> run w1 l = Some (a, tr) ->
  exists b, run w2 (filter (fun e => negb (forgery e)) l) = Some (b, filter (fun o => negb (of_forgery o)) tr) /\ wsim a b.
Proof.
  revert w1 w2 tr. induction l as [ | e l IH]; intros w1 w2 tr W H; cbn [run] in H.
  - apply some_pair_inj in H as (<- & <-). exists w2. split; [reflexivity | exact W].
  - destruct (step w1 e) as [[v1 o1] | ] eqn:St; [ | discriminate].
    destruct (run v1 l) as [[v2 o2] | ] eqn:Rn; [ | discriminate]. apply some_pair_inj in H as (<- & <-).
    cbn [filter]. rewrite filter_app. destruct (forgery e) eqn:F; cbn [negb].
    + destruct (wsim_forge _ _ _ _ _ W F St) as (W' & s & f & -> & _). cbn. apply (IH _ _ _ W' Rn).
    + destruct (wsim_step _ _ _ _ _ W F St) as (u & St2 & W' & Fo). cbn [run]. rewrite St2.
      destruct (IH _ _ _ W' Rn) as (b & Rb & Wb). rewrite Rb. exists b. rewrite (filter_all _ _ Fo). auto.
Qed.

Lemma forged_nothing mp maxa maxb inta intb senta sentb l w tr :
  run (init_w mp maxa maxb inta intb senta sentb) l = Some (w, tr) ->
  (forall s f, In (OForged s f) tr -> f <> Accepted) /\
  exists w', run (init_w mp maxa maxb inta intb senta sentb) (filter (fun e => negb (forgery e)) l) =
             Some (w', filter (fun o => negb (of_forgery o)) tr) /\ w_sa w' = w_sa w /\ w_sb w' = w_sb w.
Proof.
  set (w0 := init_w mp maxa maxb inta intb senta sentb). intros H.
  assert (W : wsim w0 w0).
  { split; [ | reflexivity]. intros s. destruct (init_all mp maxa maxb inta intb senta sentb s) as (ge & gd & G). exact (sim_refl _ _ _ G). }
  split.
  - clearbody w0. revert w0 tr W H. induction l as [ | e l IH]; intros w0 tr W H s f; cbn [run] in H.
    + apply some_pair_inj in H as (<- & <-). intros [].
    + destruct (step w0 e) as [[v1 o1] | ] eqn:St; [ | discriminate].
      destruct (run v1 l) as [[v2 o2] | ] eqn:Rn; [ | discriminate]. apply some_pair_inj in H as (<- & <-).
      intros Hi. apply in_app_or in Hi as [Hi | Hi].
      * destruct (forgery e) eqn:F.
        -- destruct (wsim_forge _ _ _ _ _ W F St) as (_ & s' & f' & -> & Hf). destruct Hi as [Hi | []]. injection Hi as _ <-. exact Hf.
        -- destruct (wsim_step _ _ _ _ _ W F St) as (u & _ & _ & Fo). rewrite forallb_forall in Fo. specialize (Fo _ Hi). discriminate.
      * assert (W1 : wsim v1 v1).
        { split; [ | reflexivity]. intros s'.
          assert (AG : all_gens w0) by (intros x; destruct W as (A & _); destruct (A x) as [(ge & gd & G & _)]; eauto).
          destruct (step_all w0 e AG) as (v1' & o' & St' & AG'). rewrite St in St'. apply some_pair_inj in St' as (<- & _).
          destruct (AG' s') as (ge & gd & G). exact (sim_refl _ _ _ G). }
        exact (IH _ _ W1 Rn s f Hi).
  - destruct (forged_run _ _ _ _ _ W H) as (b & Hb & (_ & WB)). exists b. split; [exact Hb | ].
    split; symmetry; [apply (WB SA) | apply (WB SB)].
Qed.

