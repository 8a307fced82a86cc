(** Proofs about key updates: both endpoints. *)
From Verif Require Import Base Tac Send_model Keys_model Keys_spec Keys_proofs.

Lemma pair_inj {A B} (a c : A) (b d : B) : (a, b) = (c, d) -> a = c /\ b = d.
Proof. intros H. inversion H. auto. Qed.
Ltac ip H := let X := fresh in let Y := fresh in apply pair_inj in H as [X Y]; subst.

Definition upd (f : side -> N) (s : side) (v : N) : side -> N :=
  fun s' => match s, s' with SA, SA | SB, SB => v | _, _ => f s' end.

Lemma upd_eq f s v : upd f s v s = v.
Proof. destruct s; reflexivity. Qed.
Lemma upd_peer f s v : upd f s v (peer s) = f (peer s).
Proof. destruct s; reflexivity. Qed.
Lemma side_cases (s s' : side) : s' = s \/ s' = peer s.
Proof. destruct s, s'; auto. Qed.
Lemma peer_peer s : peer (peer s) = s.
Proof. destruct s; reflexivity. Qed.
Lemma peer_ne s : peer s <> s.
Proof. destruct s; discriminate. Qed.

Lemma end_set_eq w s k : end_of (set_end w s k) s = k.
Proof. destruct s; reflexivity. Qed.
Lemma end_set_peer w s k : end_of (set_end w s k) (peer s) = end_of w (peer s).
Proof. destruct s; reflexivity. Qed.
Lemma sent_set w s k s' : sent_by (set_end w s k) s' = sent_by w s'.
Proof. destruct s, s'; reflexivity. Qed.
Lemma end_add w s p s' : end_of (add_sent w s p) s' = end_of w s'.
Proof. destruct s, s'; reflexivity. Qed.
Lemma sent_add_eq w s p : sent_by (add_sent w s p) s = sent_by w s ++ [p].
Proof. destruct s; reflexivity. Qed.
Lemma sent_add_peer w s p : sent_by (add_sent w s p) (peer s) = sent_by w (peer s).
Proof. destruct s; reflexivity. Qed.

Lemma newest_app s t1 t2 : newest s (t1 ++ t2) = N.max (newest s t1) (newest s t2).
Proof.
  induction t1 as [ | o t1 IH]; [cbn; lia | ].
  destruct o as [ | | s' path g f | ]; cbn [app newest]; try exact IH.
  destruct f; try exact IH. destruct s, s'; try exact IH; rewrite IH; lia.
Qed.

Lemma newest_in s tr path g : In (OFate s path g Accepted) tr -> g <= newest s tr.
Proof.
  intros H. apply in_split in H as (t1 & t2 & ->). rewrite newest_app. cbn [newest].
  destruct s; lia.
Qed.

Lemma run_snoc w l e : run w (l ++ [e]) =
  match run w l with
  | None => None
  | Some (w1, o1) => match step w1 e with None => None | Some (w2, o2) => Some (w2, o1 ++ o2) end
  end.
Proof.
  revert w. induction l as [ | a l IH]; intros w; cbn [run app].
  - destruct (step w e) as [[w2 o2] | ]; [ | reflexivity]. rewrite app_nil_r. reflexivity.
  - destruct (step w a) as [[w1 o1] | ]; [ | reflexivity]. rewrite IH.
    destruct (run w1 l) as [[w2 o2] | ]; [ | reflexivity].
    destruct (step w2 e) as [[w3 o3] | ]; [ | reflexivity]. rewrite app_assoc. reflexivity.
Qed.

(** ** Nothing is undefined *)

Definition all_gens (w : world) : Prop := forall s, exists ge gd, gens (end_of w s) ge gd.

Lemma set_all w s k ge gd : all_gens w -> gens k ge gd -> all_gens (set_end w s k).
Proof.
  intros A G s'. destruct (side_cases s s') as [-> | ->].
  - rewrite end_set_eq. eauto.
  - rewrite end_set_peer. apply A.
Qed.

Lemma rotate_all w s : all_gens w -> all_gens (fst (rotate w s)).
Proof.
  intros A. unfold rotate. destruct (start_rotation (end_of w s)) eqn:E; [ | exact A]. cbn.
  destruct (A s) as (ge & gd & G). destruct (start_gens _ _ _ _ G E) as (_ & G1 & _). exact (set_all _ _ _ _ _ A G1).
Qed.

Lemma step_all w e : all_gens w -> exists w' o, step w e = Some (w', o) /\ all_gens w'.
Proof.
  intros A. destruct e as [s path now | s path | s | s n now rto | s path pn phase now rto]; cbn [step].
  - set (r := if auto_due (end_of w s) now then rotate w s else (w, [])).
    assert (A1 : all_gens (fst r)) by (subst r; destruct (auto_due _ _); [apply rotate_all; exact A | exact A]).
    destruct r as [w1 o]. cbn [fst] in A1. destruct (A1 s) as (ge & gd & G).
    destruct (send_gens _ _ _ path G) as (k1 & E & G1 & _). rewrite E. do 2 eexists. split; [reflexivity | ].
    intros s'. rewrite end_add. exact (set_all _ _ _ _ _ A1 G1 s').
  - destruct (A s) as (ge & gd & G). do 2 eexists. split; [reflexivity | ].
    destruct (skip_gens _ _ _ path G) as (G1 & _). exact (set_all _ _ _ _ _ A G1).
  - destruct (rotate w s) as [w1 o] eqn:E. do 2 eexists. split; [reflexivity | ].
    change w1 with (fst (w1, o)). rewrite <- E. apply rotate_all. exact A.
  - destruct (nth_error (sent_by w (peer s)) n) as [p | ]; [ | do 2 eexists; split; [reflexivity | exact A]].
    destruct (A s) as (ge & gd & G). destruct (receive_spec _ now rto p _ _ G) as (k' & f & E & R & _). rewrite E.
    do 2 eexists. split; [reflexivity | ].
    destruct R; eapply set_all; eassumption.
  - destruct (A s) as (ge & gd & G).
    destruct (receive_spec _ now rto (mk_pkt (the_path (end_of w s) path) pn phase None) _ _ G) as (k' & f & E & R & _). rewrite E.
    do 2 eexists. split; [reflexivity | ].
    destruct R; eapply set_all; eassumption.
Qed.

Lemma run_all w l : all_gens w -> exists w' tr, run w l = Some (w', tr) /\ all_gens w'.
Proof.
  revert w. induction l as [ | e l IH]; intros w A; cbn [run].
  - do 2 eexists. split; [reflexivity | exact A].
  - destruct (step_all w e A) as (w1 & o & E & A1). rewrite E.
    destruct (IH w1 A1) as (w2 & o2 & E2 & A2). rewrite E2. do 2 eexists. split; [reflexivity | exact A2].
Qed.

Lemma init_all mp a b c d e f : all_gens (init_w mp a b c d e f).
Proof. intros []; exists 0, 0; apply gens_init. Qed.

Lemma run_defined mp maxa maxb inta intb senta sentb l :
  run (init_w mp maxa maxb inta intb senta sentb) l <> None.
Proof. destruct (run_all _ l (init_all mp maxa maxb inta intb senta sentb)) as (w & tr & -> & _). discriminate. Qed.

(** ** The endpoints stay together *)

Record inv (mp : bool) (B : N) (w : world) (tr : list output) (E D : side -> N) : Prop := mk_inv {
  i_g : forall s, gens (end_of w s) (E s) (D s);
  i_mp : forall s, k_mp (end_of w s) = mp;
  i_cross : forall s, D s <= E (peer s) <= D s + 1;
  i_new : forall s, newest s tr = D s;
  i_quiet : forall s, none_by s tr -> E s = D s;
  i_sent : forall s p, In p (sent_by w s) -> exists g, p_gen p = Some g /\ g <= E s /\ p_phase p = N.odd g /\
             p_pn p < k_next (end_of w s) (p_path p) /\ (mp = false -> p_path p = 0);
  i_mono : forall s p q g h, In p (sent_by w s) -> In q (sent_by w s) -> p_path p = p_path q ->
             p_gen p = Some g -> p_gen q = Some h -> p_pn p <= p_pn q -> g <= h;
  i_rot : forall s i, (D s = 0 /\ k_rot (end_of w s) i = 0) \/
             (exists q, In q (sent_by w (peer s)) /\ p_path q = i /\ p_pn q = k_rot (end_of w s) i /\ p_gen q = Some (D s)) \/
             (mp = true /\ k_rot (end_of w s) i = max64 /\ 0 < D s /\ ~ In (OFate s i (D s) Accepted) tr) \/
             (mp = false /\ i <> 0);
  i_next : forall s i, k_next (end_of w s) i <= B }.

Lemma inv_init mp a b c d e f : inv mp 0 (init_w mp a b c d e f) [] (fun _ => 0) (fun _ => 0).
Proof.
  constructor.
  - intros []; apply gens_init.
  - intros []; reflexivity.
  - intros s; lia.
  - intros s; reflexivity.
  - intros; reflexivity.
  - intros [] p [].
  - intros [] p q g h [].
  - intros [] i; left; split; reflexivity.
  - intros [] i; cbn; lia.
Qed.

Lemma inv_weak mp B B' w tr E D : inv mp B w tr E D -> B <= B' -> inv mp B' w tr E D.
Proof. intros [] H; constructor; try assumption. intros s i. specialize (i_next0 s i). lia. Qed.

Definition silent (o : output) : Prop :=
  match o with OFate _ _ _ Accepted => False | _ => True end.

Lemma newest_silent s tr : Forall silent tr -> newest s tr = 0.
Proof.
  induction 1 as [ | o tr Ho _ IH]; [reflexivity | ].
  destruct o as [ | | s' path g f | ]; cbn; try exact IH. destruct f; try exact IH. destruct Ho.
Qed.

Lemma in_silent s i g tr o : Forall silent o -> In (OFate s i g Accepted) (tr ++ o) -> In (OFate s i g Accepted) tr.
Proof.
  intros F H. apply in_app_or in H as [H | H]; [exact H | ].
  rewrite Forall_forall in F. destruct (F _ H).
Qed.

Lemma none_app s t1 t2 : none_by s (t1 ++ t2) -> none_by s t1.
Proof. intros H g I. apply (H g). apply in_or_app. left. exact I. Qed.

(** A change of one end that keeps its generations, its recorded rotations and its sent
    packets. *)
Lemma inv_set mp B w tr E D s k o :
  inv mp B w tr E D -> gens k (E s) (D s) -> k_mp k = mp -> k_rot k = k_rot (end_of w s) ->
  (forall i, k_next (end_of w s) i <= k_next k i) -> (forall i, k_next k i <= B) -> Forall silent o ->
  inv mp B (set_end w s k) (tr ++ o) E D.
Proof.
  intros I G M R N1 N2 F. destruct I. constructor.
  - intros s'. destruct (side_cases s s') as [-> | ->]; rewrite ?end_set_eq, ?end_set_peer; auto.
  - intros s'. destruct (side_cases s s') as [-> | ->]; rewrite ?end_set_eq, ?end_set_peer; auto.
  - assumption.
  - intros s'. rewrite newest_app, (newest_silent _ _ F), i_new0. lia.
  - intros s' H. apply i_quiet0. exact (none_app _ _ _ H).
  - intros s' p Hp. rewrite sent_set in Hp. destruct (i_sent0 s' p Hp) as (g & A1 & A2 & A3 & A4 & A5).
    exists g. repeat split; try assumption.
    destruct (side_cases s s') as [-> | ->]; rewrite ?end_set_eq, ?end_set_peer; [ | exact A4].
    specialize (N1 (p_path p)). lia.
  - intros s' p q g h. rewrite sent_set. apply i_mono0.
  - intros s' i. rewrite sent_set.
    assert (X : k_rot (end_of (set_end w s k) s') i = k_rot (end_of w s') i).
    { destruct (side_cases s s') as [-> | ->]; rewrite ?end_set_eq, ?end_set_peer; [rewrite R | ]; reflexivity. }
    rewrite X. destruct (i_rot0 s' i) as [H | [H | [(H1 & H2 & H3 & H4) | H]]]; auto.
    right; right; left. repeat split; try assumption. intros K. apply H4. exact (in_silent _ _ _ _ _ F K).
  - intros s' i. destruct (side_cases s s') as [-> | ->]; rewrite ?end_set_eq, ?end_set_peer; auto.
Qed.

Lemma inv_rotate mp B w tr E D s w' o :
  inv mp B w tr E D -> rotate w s = (w', o) -> (forall g, In (ORotate s g) o -> E s <= D (peer s)) ->
  exists E', inv mp B w' (tr ++ o) E' D /\ (o = [] \/ o = [ORotate s (E s)]).
Proof.
  intros I. unfold rotate. destruct (start_rotation (end_of w s)) as [k1 | ] eqn:St.
  2:{ intros H _. ip H. exists E. rewrite app_nil_r. auto. }
  pose proof I as I0. destruct I.
  destruct (start_gens _ _ _ _ (i_g0 s) St) as (EE & G1 & O1 & M1 & R1 & U1 & N1 & L1 & S1).
  rewrite (gn_enc _ _ _ (i_g0 s)). intros H C. ip H. specialize (C (E s) (or_introl eq_refl)).
  exists (upd E s (E s + 1)). split; [ | right; reflexivity].
  constructor.
  - intros s'. destruct (side_cases s s') as [-> | ->]; rewrite ?end_set_eq, ?end_set_peer, ?upd_eq, ?upd_peer; auto.
  - intros s'. destruct (side_cases s s') as [-> | ->]; rewrite ?end_set_eq, ?end_set_peer; rewrite ?M1; auto.
  - intros s'. destruct (side_cases s s') as [-> | ->].
    + rewrite upd_peer. apply i_cross0.
    + rewrite peer_peer, upd_eq. pose proof (i_cross0 (peer s)) as X. rewrite peer_peer in X. lia.
  - intros s'. rewrite newest_app, i_new0. cbn. lia.
  - intros s' H. destruct (side_cases s s') as [-> | ->].
    + exfalso. apply (H (E s)). apply in_or_app. right. left. reflexivity.
    + rewrite upd_peer. apply i_quiet0. exact (none_app _ _ _ H).
  - intros s' p Hp. rewrite sent_set in Hp. destruct (i_sent0 s' p Hp) as (g & A1 & A2 & A3 & A4 & A5).
    exists g. destruct (side_cases s s') as [-> | ->]; rewrite ?end_set_eq, ?end_set_peer, ?upd_eq, ?upd_peer; rewrite ?N1;
      repeat split; try assumption; lia.
  - intros s' p q g h. rewrite sent_set. apply i_mono0.
  - intros s' i. rewrite sent_set.
    assert (X : k_rot (end_of (set_end w s k1) s') i = k_rot (end_of w s') i).
    { destruct (side_cases s s') as [-> | ->]; rewrite ?end_set_eq, ?end_set_peer; [rewrite R1 | ]; reflexivity. }
    rewrite X. destruct (i_rot0 s' i) as [H | [H | [(H1 & H2 & H3 & H4) | H]]]; auto.
    right; right; left. repeat split; try assumption. intros K. apply H4. eapply in_silent; [ | exact K]. repeat constructor.
  - intros s' i. destruct (side_cases s s') as [-> | ->]; rewrite ?end_set_eq, ?end_set_peer; rewrite ?N1; auto.
Qed.

Lemma inv_send mp B w tr E D s path k p :
  inv mp B w tr E D -> send_packet (end_of w s) path = Some (k, p) ->
  inv mp (B + 1) (add_sent (set_end w s k) s p) (tr ++ [OSend s (p_path p) (E s)]) E D /\ p_gen p = Some (E s).
Proof.
  intros I H. pose proof I as I0. destruct I.
  destruct (send_gens _ _ _ path (i_g0 s)) as (k1 & S & G & M & R & U & O & NX). rewrite S in H.
  set (i := the_path (end_of w s) path) in *. inv_pair H. split; [ | reflexivity]. cbn [p_path].
  assert (Ni : forall j, k_next (end_of w s) j <= k_next k j).
  { intros j. rewrite NX. unfold set_path. destruct (j =? i) eqn:J; [apply N.eqb_eq in J; subst j; lia | lia]. }
  assert (I1 : inv mp (B + 1) (set_end w s k) (tr ++ [OSend s i (E s)]) E D).
  { apply inv_set; try assumption.
    - eapply inv_weak; [exact I0 | lia].
    - rewrite M. apply i_mp0.
    - intros j. rewrite NX. unfold set_path. pose proof (i_next0 s j) as X.
      destruct (j =? i) eqn:J; [apply N.eqb_eq in J; subst j; lia | lia].
    - repeat constructor. }
  clear I0. destruct I1. constructor; try assumption; try (intros s'; rewrite end_add; auto; fail).
  - intros s' q Hq. rewrite end_add. destruct (side_cases s s') as [-> | ->].
    + rewrite sent_add_eq in Hq. apply in_app_or in Hq as [Hq | [<- | []]]; [apply i_sent1; exact Hq | ].
      cbn [p_gen p_phase p_pn p_path]. exists (E s). repeat split; try lia.
      * rewrite end_set_eq, NX. unfold set_path. rewrite N.eqb_refl. lia.
      * intros F. subst i. unfold the_path. rewrite i_mp0, F. reflexivity.
    + rewrite sent_add_peer in Hq. apply i_sent1. exact Hq.
  - intros s' q r g h. destruct (side_cases s s') as [-> | ->].
    2:{ rewrite sent_add_peer. apply i_mono1. }
    rewrite sent_add_eq, sent_set. intros Hq Hr HP Hg Hh HL.
    apply in_app_or in Hq as [Hq | [<- | []]]; apply in_app_or in Hr as [Hr | [<- | []]].
    + exact (i_mono0 s q r g h Hq Hr HP Hg Hh HL).
    + cbn in Hh. apply some_inj in Hh. subst h. destruct (i_sent0 s q Hq) as (g' & A1 & A2 & _).
      rewrite Hg in A1. apply some_inj in A1. subst g'. exact A2.
    + destruct (i_sent0 s r Hr) as (g' & A1 & A2 & A3 & A4 & A5). cbn in HP, HL. rewrite <- HP in A4. lia.
    + cbn in Hg, Hh. rewrite Hg in Hh. apply some_inj in Hh. subst. lia.
  - intros s' j. rewrite end_add. destruct (i_rot1 s' j) as [H | [(q & H1 & H2) | H]]; [left; exact H | | right; right; exact H].
    right; left. exists q. split; [ | exact H2]. destruct (side_cases s s') as [-> | ->].
    + rewrite sent_add_peer. exact H1.
    + rewrite peer_peer, sent_add_eq in *. apply in_or_app. left. exact H1.
Qed.

Lemma inv_deliver mp B w tr E D s now rto p k f g :
  inv mp B w tr E D -> B <= max64 -> In p (sent_by w (peer s)) -> p_gen p = Some g ->
  receive (end_of w s) now rto p = Some (k, f) ->
  exists E' D', inv mp B (set_end w s k) (tr ++ [OFate s (p_path p) g f]) E' D'.
Proof.
  intros I HB Hp Hg Hr. pose proof I as I0. destruct I.
  destruct (i_sent0 _ _ Hp) as (g' & A1 & A2 & A3 & A4 & A5). rewrite Hg in A1. apply some_inj in A1. subst g'.
  destruct (receive_spec _ now rto p _ _ (i_g0 s)) as (k' & f' & Er & R & NX & M). rewrite Hr in Er.
  apply some_pair_inj in Er as (<- & <-). rewrite i_mp0 in M.
  assert (PN : p_pn p < max64) by (pose proof (i_next0 (peer s) (p_path p)); lia).
  destruct R as [f Hf G RT GU OL | PG PP G RT GU OL | o KO PG OG PP G RT GU OL | PG PP G RT GU OL].
  - exists E, D. apply inv_set; try assumption; try (intros i; rewrite NX; auto; lia).
    constructor; [destruct f; [congruence | exact Logic.I | exact Logic.I] | constructor].
  - rewrite Hg in PG. apply some_inj in PG. subst g. exists E, D. constructor; try assumption.
    + intros s'. destruct (side_cases s s') as [-> | ->]; rewrite ?end_set_eq, ?end_set_peer; auto.
    + intros s'. destruct (side_cases s s') as [-> | ->]; rewrite ?end_set_eq, ?end_set_peer; auto.
    + intros s'. rewrite newest_app, i_new0. destruct (side_cases s s') as [-> | ->]; [destruct s; cbn; lia | destruct s; cbn; lia].
    + intros s' H. apply i_quiet0. exact (none_app _ _ _ H).
    + intros s' q Hq. rewrite sent_set in Hq. destruct (i_sent0 s' q Hq) as (h & B1 & B2 & B3 & B4 & B5).
      exists h. repeat split; try assumption.
      destruct (side_cases s s') as [-> | ->]; rewrite ?end_set_eq, ?end_set_peer; rewrite ?NX; exact B4.
    + intros s' q r h h'. rewrite sent_set. apply i_mono0.
    + intros s' i. rewrite sent_set. destruct (side_cases s s') as [-> | ->].
      * rewrite end_set_eq, RT. destruct (p_pn p <? k_rot (end_of w s) (p_path p)) eqn:L.
        -- unfold set_path. destruct (i =? p_path p) eqn:J.
           ++ apply N.eqb_eq in J. subst i. right; left. exists p. auto.
           ++ destruct (i_rot0 s i) as [H | [H | [(H1 & H2 & H3 & H4) | H]]]; auto.
              right; right; left. repeat split; try assumption. intros K. apply in_app_or in K as [K | [K | []]]; [auto | ].
              injection K as K1. subst i. rewrite N.eqb_refl in J. discriminate.
        -- apply N.ltb_ge in L. destruct (i_rot0 s i) as [H | [H | [(H1 & H2 & H3 & H4) | H]]]; auto.
           right; right; left. repeat split; try assumption. intros K. apply in_app_or in K as [K | [K | []]]; [auto | ].
           injection K as K1. subst i. rewrite H2 in L. lia.
      * rewrite end_set_peer. destruct (i_rot0 (peer s) i) as [H | [H | [(H1 & H2 & H3 & H4) | H]]]; auto.
        right; right; left. repeat split; try assumption. intros K. apply in_app_or in K as [K | [K | []]]; [auto | ].
        exact (peer_ne s (eq_sym (f_equal (fun o => match o with OFate x _ _ _ => x | _ => s end) K))).
    + intros s' i. destruct (side_cases s s') as [-> | ->]; rewrite ?end_set_eq, ?end_set_peer; rewrite ?NX; auto.
  - rewrite Hg in PG. apply some_inj in PG. subst g. exists E, D. constructor; try assumption.
    + intros s'. destruct (side_cases s s') as [-> | ->]; rewrite ?end_set_eq, ?end_set_peer; auto.
    + intros s'. destruct (side_cases s s') as [-> | ->]; rewrite ?end_set_eq, ?end_set_peer; auto.
    + intros s'. rewrite newest_app, i_new0. destruct (side_cases s s') as [-> | ->]; [destruct s; cbn; lia | destruct s; cbn; lia].
    + intros s' H. apply i_quiet0. exact (none_app _ _ _ H).
    + intros s' q Hq. rewrite sent_set in Hq. destruct (i_sent0 s' q Hq) as (h & B1 & B2 & B3 & B4 & B5).
      exists h. repeat split; try assumption.
      destruct (side_cases s s') as [-> | ->]; rewrite ?end_set_eq, ?end_set_peer; rewrite ?NX; exact B4.
    + intros s' q r h h'. rewrite sent_set. apply i_mono0.
    + intros s' i. rewrite sent_set. 
      assert (X : k_rot (end_of (set_end w s k) s') i = k_rot (end_of w s') i).
      { destruct (side_cases s s') as [-> | ->]; rewrite ?end_set_eq, ?end_set_peer; [rewrite RT | ]; reflexivity. }
      rewrite X. destruct (i_rot0 s' i) as [H | [H | [(H1 & H2 & H3 & H4) | H]]]; auto.
      right; right; left. repeat split; try assumption. intros K. apply in_app_or in K as [K | [K | []]]; [auto | ].
      injection K as K1 K2 K3. subst s'. lia.
    + intros s' i. destruct (side_cases s s') as [-> | ->]; rewrite ?end_set_eq, ?end_set_peer; rewrite ?NX; auto.
  - rewrite Hg in PG. apply some_inj in PG. subst g.
    exists (upd E s (D s + 1)), (upd D s (D s + 1)). pose proof (i_cross0 s) as CS. constructor; try assumption.
    + intros s'. destruct (side_cases s s') as [-> | ->]; rewrite ?end_set_eq, ?end_set_peer, ?upd_eq, ?upd_peer; auto.
    + intros s'. destruct (side_cases s s') as [-> | ->]; rewrite ?end_set_eq, ?end_set_peer; auto.
    + intros s'. destruct (side_cases s s') as [-> | ->]; rewrite ?peer_peer, ?upd_eq, ?upd_peer; [lia | ].
      pose proof (i_cross0 (peer s)) as X. rewrite peer_peer in X. pose proof (gens_le _ _ _ (i_g0 s)).
      pose proof (gens_le _ _ _ (i_g0 (peer s))). lia.
    + intros s'. rewrite newest_app, i_new0. destruct (side_cases s s') as [-> | ->]; rewrite ?upd_eq, ?upd_peer; destruct s; cbn; lia.
    + intros s' H. destruct (side_cases s s') as [-> | ->]; rewrite ?upd_eq, ?upd_peer; [reflexivity | ].
      apply i_quiet0. exact (none_app _ _ _ H).
    + intros s' q Hq. rewrite sent_set in Hq. destruct (i_sent0 s' q Hq) as (h & B1 & B2 & B3 & B4 & B5).
      pose proof (gens_le _ _ _ (i_g0 s)).
      exists h. destruct (side_cases s s') as [-> | ->]; rewrite ?end_set_eq, ?end_set_peer, ?upd_eq, ?upd_peer; rewrite ?NX;
        repeat split; try assumption; lia.
    + intros s' q r h h'. rewrite sent_set. apply i_mono0.
    + intros s' i. rewrite sent_set. destruct (side_cases s s') as [-> | ->]; rewrite ?end_set_eq, ?end_set_peer, ?upd_eq, ?upd_peer.
      * rewrite RT, i_mp0. unfold set_path. destruct (i =? p_path p) eqn:J.
        -- apply N.eqb_eq in J. subst i. right; left. exists p. auto.
        -- apply N.eqb_neq in J. destruct mp.
           ++ right; right; left. repeat split; [lia | ]. intros K. apply in_app_or in K as [K | [K | []]].
              ** apply newest_in in K. rewrite i_new0 in K. lia.
              ** injection K as K1. congruence.
           ++ right; right; right. split; [reflexivity | ]. rewrite (A5 eq_refl) in J. exact J.
      * destruct (i_rot0 (peer s) i) as [H | [H | [(H1 & H2 & H3 & H4) | H]]]; auto.
        right; right; left. repeat split; try assumption. intros K. apply in_app_or in K as [K | [K | []]]; [auto | ].
        exact (peer_ne s (eq_sym (f_equal (fun o => match o with OFate x _ _ _ => x | _ => s end) K))).
    + intros s' i. destruct (side_cases s s') as [-> | ->]; rewrite ?end_set_eq, ?end_set_peer; rewrite ?NX; auto.
Qed.

Lemma inv_step mp B w tr E D e w' o :
  inv mp B w tr E D -> B < max64 -> step w e = Some (w', o) ->
  (forall s g, In (ORotate s g) o -> g = E s -> E s <= D (peer s)) ->
  exists E' D', inv mp (B + 1) w' (tr ++ o) E' D'.
Proof.
  intros I HB St C. destruct e as [s path now | s path | s | s n now rto | s path pn phase now rto]; cbn [step] in St.
  - destruct (if auto_due (end_of w s) now then rotate w s else (w, [])) as [w1 o1] eqn:Au.
    assert (exists E1, inv mp B w1 (tr ++ o1) E1 D /\ (forall x, In x o1 -> In x o)) as (E1 & I1 & _).
    { assert (HI : forall x, In x o1 -> In x o).
      { intros x Hx. destruct (send_packet (end_of w1 s) path) as [[k p] | ]; [ | discriminate].
        apply some_pair_inj in St as (_ & St). rewrite <- St. apply in_or_app. left. exact Hx. }
      destruct (auto_due (end_of w s) now).
      - assert (Ho1 : o1 = [] \/ o1 = [ORotate s (E s)]).
        { unfold rotate in Au. destruct (start_rotation (end_of w s)); [ | ip Au; auto].
          rewrite (gn_enc _ _ _ (i_g _ _ _ _ _ _ I s)) in Au. ip Au. auto. }
        destruct (inv_rotate _ _ _ _ _ _ _ _ _ I Au) as (E1 & I1 & _); [ | exists E1; auto].
        intros g Hg. destruct Ho1 as [-> | ->]; [destruct Hg | ]. destruct Hg as [Hg | []]. injection Hg as <-.
        apply (C s (E s)); [apply HI; left; reflexivity | reflexivity].
      - ip Au. exists E. rewrite app_nil_r. auto. }
    destruct (send_packet (end_of w1 s) path) as [[k p] | ] eqn:Sp; [ | discriminate].
    destruct (inv_send _ _ _ _ _ _ _ _ _ _ I1 Sp) as (I2 & PG). rewrite PG in St.
    apply some_pair_inj in St as (<- & <-). rewrite app_assoc. eauto.
  - apply some_pair_inj in St as (<- & <-).
    destruct (skip_gens _ _ _ path (i_g _ _ _ _ _ _ I s)) as (G & M & R & U & O & NX).
    exists E, D. apply inv_set; try assumption.
    + eapply inv_weak; [exact I | lia].
    + rewrite M. apply (i_mp _ _ _ _ _ _ I).
    + intros i. rewrite NX. unfold set_path. destruct (i =? _) eqn:J; [apply N.eqb_eq in J; subst i; lia | lia].
    + intros i. rewrite NX. unfold set_path. pose proof (i_next _ _ _ _ _ _ I s i) as X.
      destruct (i =? _) eqn:J; [apply N.eqb_eq in J; subst i; lia | lia].
    + constructor.
  - apply some_inj in St. destruct (rotate w s) as [w1 o1] eqn:Ro. ip St.
    assert (Ho1 : o = [] \/ o = [ORotate s (E s)]).
    { unfold rotate in Ro. destruct (start_rotation (end_of w s)); [ | ip Ro; auto].
      rewrite (gn_enc _ _ _ (i_g _ _ _ _ _ _ I s)) in Ro. ip Ro. auto. }
    destruct (inv_rotate _ _ _ _ _ _ _ _ _ I Ro) as (E1 & I1 & _).
    + intros g Hg. destruct Ho1 as [-> | ->]; [destruct Hg | ]. apply (C s (E s)); [left; reflexivity | reflexivity].
    + exists E1, D. eapply inv_weak; [exact I1 | lia].
  - destruct (nth_error (sent_by w (peer s)) n) as [p | ] eqn:Nt.
    2:{ apply some_pair_inj in St as (<- & <-). exists E, D. rewrite app_nil_r. eapply inv_weak; [exact I | lia]. }
    apply nth_error_In in Nt. destruct (i_sent _ _ _ _ _ _ I _ _ Nt) as (g & PG & _).
    destruct (receive (end_of w s) now rto p) as [[k f] | ] eqn:Re; [ | discriminate].
    apply some_pair_inj in St as (<- & <-). rewrite PG.
    destruct (inv_deliver _ _ _ _ _ _ _ _ _ _ _ _ _ I ltac:(lia) Nt PG Re) as (E1 & D1 & I1).
    exists E1, D1. eapply inv_weak; [exact I1 | lia].
  - destruct (receive_forged (end_of w s) now rto (mk_pkt (the_path (end_of w s) path) pn phase None) _ _
               (i_g _ _ _ _ _ _ I s) eq_refl) as (k & f & Re & Hf & G & R & U & O & NX & M).
    rewrite Re in St. apply some_pair_inj in St as (<- & <-).
    exists E, D. apply inv_set; try assumption.
    + eapply inv_weak; [exact I | lia].
    + rewrite M. apply (i_mp _ _ _ _ _ _ I).
    + intros i. rewrite NX. lia.
    + intros i. rewrite NX. pose proof (i_next _ _ _ _ _ _ I s i). lia.
    + repeat constructor.
Qed.

(** The discipline. *)
Definition disciplined (tr : list output) : Prop := confirmed tr \/ exists s, only_by s tr.

Lemma disciplined_app t1 t2 : disciplined (t1 ++ t2) -> disciplined t1.
Proof.
  intros [H | (s & H)].
  - left. intros a b s g ->. destruct (H a (b ++ t2) s g) as [H1 | H1]; auto. rewrite <- app_assoc. reflexivity.
  - right. exists s. intros g K. apply (H g). apply in_or_app. auto.
Qed.

(** The updates observed in one step come first. *)
Lemma step_rotate w e w' o s g : step w e = Some (w', o) -> In (ORotate s g) o ->
  exists r, o = ORotate s g :: r /\ start_rotation (end_of w s) <> None.
Proof.
  intros St Hin. destruct e as [s1 path now | s1 path | s1 | s1 n now rto | s1 path pn phase now rto]; cbn [step] in St.
  - assert (X : In (ORotate s g) (snd (if auto_due (end_of w s1) now then rotate w s1 else (w, [])))).
    { destruct (if auto_due (end_of w s1) now then rotate w s1 else (w, [])) as [w1 o1] eqn:Au.
      destruct (send_packet (end_of w1 s1) path) as [[k p] | ]; [ | discriminate].
      apply some_pair_inj in St as (_ & <-). apply in_app_or in Hin as [Hin | Hin]; [exact Hin | ].
      destruct (p_gen p); [destruct Hin as [Hin | []]; discriminate | destruct Hin]. }
    unfold rotate in *. destruct (auto_due (end_of w s1) now); [ | destruct X].
    destruct (start_rotation (end_of w s1)) as [k1 | ] eqn:E; [ | destruct X].
    cbn [snd] in X. destruct (k_enc (end_of w s1)) as [g0 | ]; [ | destruct X]. destruct X as [X | []].
    injection X as X1 X2. subst s1 g0.
    destruct (send_packet (end_of (set_end w s k1) s) path) as [[k p] | ]; [ | discriminate].
    apply some_pair_inj in St as (_ & <-). eexists. split; [reflexivity | ]. rewrite E. discriminate.
  - apply some_pair_inj in St as (_ & <-). destruct Hin.
  - apply some_inj in St. unfold rotate in St. destruct (start_rotation (end_of w s1)) as [k1 | ] eqn:E.
    + ip St. destruct (k_enc (end_of w s1)); [ | destruct Hin]. destruct Hin as [X | []]. injection X as X1 X2. subst.
      eexists. split; [reflexivity | ]. rewrite E. discriminate.
    + ip St. destruct Hin.
  - destruct (nth_error (sent_by w (peer s1)) n) as [p | ]; [ | apply some_pair_inj in St as (_ & <-); destruct Hin].
    destruct (receive (end_of w s1) now rto p) as [[k f] | ]; [ | discriminate].
    apply some_pair_inj in St as (_ & <-). destruct (p_gen p); [ | destruct Hin]. destruct Hin as [X | []]. discriminate.
  - destruct (receive _ _ _ _) as [[k f] | ]; [ | discriminate].
    apply some_pair_inj in St as (_ & <-). destruct Hin as [X | []]. discriminate.
Qed.

Lemma disciplined_step mp B w tr E D e w' o :
  inv mp B w tr E D -> step w e = Some (w', o) -> disciplined (tr ++ o) ->
  forall s g, In (ORotate s g) o -> g = E s -> E s <= D (peer s).
Proof.
  intros I St Di s g Hin ->. destruct (step_rotate _ _ _ _ _ _ St Hin) as (r & -> & Hs).
  destruct Di as [C | (s0 & C)].
  - destruct (C tr r s (E s) eq_refl) as [H | (path & H)]; [rewrite H; lia | ].
    apply newest_in in H. rewrite (i_new _ _ _ _ _ _ I) in H. exact H.
  - destruct (side_cases s0 s) as [-> | ->].
    2:{ exfalso. apply (C (E (peer s0))). apply in_or_app. right. left. reflexivity. }
    assert (Q : E (peer s0) = D (peer s0)).
    { apply (i_quiet _ _ _ _ _ _ I). intros g H. apply (C g). apply in_or_app. auto. }
    pose proof (i_cross _ _ _ _ _ _ I s0) as X.
    destruct (start_rotation (end_of w s0)) as [k1 | ] eqn:Sr; [ | congruence].
    destruct (start_gens _ _ _ _ (i_g _ _ _ _ _ _ I s0) Sr) as (EE & _). lia.
Qed.

Lemma inv_run mp maxa maxb inta intb senta sentb l w tr :
  run (init_w mp maxa maxb inta intb senta sentb) l = Some (w, tr) -> N.of_nat (length l) < 2 ^ 62 -> disciplined tr ->
  exists E D, inv mp (N.of_nat (length l)) w tr E D.
Proof.
  revert w tr. induction l as [ | e l IH] using rev_ind; intros w tr.
  - cbn. intros H _ _. apply some_pair_inj in H as (<- & <-). do 2 eexists. apply inv_init.
  - rewrite run_snoc. destruct (run _ l) as [[w1 t1] | ] eqn:R; [ | discriminate].
    destruct (step w1 e) as [[w2 o2] | ] eqn:St; [ | discriminate]. intros H. apply some_pair_inj in H as (<- & <-).
    rewrite app_length. cbn [length]. change (2 ^ 62) with 4611686018427387904. intros HL Di.
    destruct (IH w1 t1 eq_refl) as (E & D & I).
    + change (2 ^ 62) with 4611686018427387904. lia.
    + exact (disciplined_app _ _ Di).
    + replace (N.of_nat (length l + 1)) with (N.of_nat (length l) + 1) by lia.
      refine (inv_step _ _ _ _ _ _ _ _ _ I _ St (disciplined_step _ _ _ _ _ _ _ _ _ I St Di)).
      unfold max64. lia.
Qed.

(** The fate of a packet. *)
Lemma deliver_fate mp B w tr E D s n now rto w' path g f :
  inv mp B w tr E D -> B < max64 -> step w (EDeliver s n now rto) = Some (w', [OFate s path g f]) ->
  (mp = false \/ newest s tr = 0 \/ g <= newest s tr \/ In (OFate s path (newest s tr) Accepted) tr) ->
  proper_fate (newest s tr) g f.
Proof.
  intros I HB St C. cbn [step] in St.
  destruct (nth_error (sent_by w (peer s)) n) as [p | ] eqn:Nt; [ | apply some_pair_inj in St as (_ & St); discriminate].
  apply nth_error_In in Nt. destruct (i_sent _ _ _ _ _ _ I _ _ Nt) as (g' & PG & GL & PP & PN & P0).
  destruct (receive (end_of w s) now rto p) as [[k f'] | ] eqn:Re; [ | discriminate].
  rewrite PG in St. apply some_pair_inj in St as (_ & St). injection St as X1 X2 X3. subst path g' f'.
  rewrite (i_new _ _ _ _ _ _ I) in *.
  pose proof (i_cross _ _ _ _ _ _ I s) as CS. pose proof (i_g _ _ _ _ _ _ I s) as G.
  pose proof (i_next _ _ _ _ _ _ I (peer s) (p_path p)) as NB.
  assert (PM : p_pn p < max64) by lia.
  assert (Q : forall q, In q (sent_by w (peer s)) -> p_path q = p_path p -> p_gen q = Some (D s) ->
              (g < D s -> p_pn p < p_pn q) /\ (D s < g -> p_pn q <= p_pn p) /\ p_pn q < max64).
  { intros q Hq HP Hg. repeat split.
    - intros Hl. destruct (N.lt_ge_cases (p_pn p) (p_pn q)) as [H | H]; [exact H | ].
      pose proof (i_mono _ _ _ _ _ _ I (peer s) q p _ _ Hq Nt HP Hg PG H). lia.
    - intros Hl. destruct (N.le_gt_cases (p_pn q) (p_pn p)) as [H | H]; [exact H | ].
      pose proof (i_mono _ _ _ _ _ _ I (peer s) p q _ _ Nt Hq (eq_sym HP) PG Hg ltac:(lia)). lia.
    - destruct (i_sent _ _ _ _ _ _ I _ _ Hq) as (g' & _ & _ & _ & X & _).
      pose proof (i_next _ _ _ _ _ _ I (peer s) (p_path q)). lia. }
  unfold proper_fate. repeat split.
  - lia.
  - intros H. assert (g = D s \/ g = D s + 1) as [-> | ->] by lia.
    + destruct (receive_cur _ now rto p _ _ G PG PP) as (k' & X). rewrite Re in X. apply some_pair_inj in X as (_ & X). exact X.
    + destruct (receive_next _ now rto p _ _ G PG PP) as (k' & X); [ | rewrite Re in X; apply some_pair_inj in X as (_ & X); exact X].
      unfold to_old. apply orb_false_iff.
      destruct (i_rot _ _ _ _ _ _ I s (p_path p)) as [(A1 & A2) | [(q & A1 & A2 & A3 & A4) | [(A1 & A2 & A3 & A4) | (A1 & A2)]]].
      * rewrite A2. split; [reflexivity | apply N.ltb_ge; lia].
      * destruct (Q q A1 A2 A4) as (Q1 & Q2 & Q3). rewrite <- A3. split.
        -- replace (p_pn q =? max64) with false by (symmetry; apply N.eqb_neq; lia). reflexivity.
        -- apply N.ltb_ge. apply Q2. lia.
      * exfalso. destruct C as [C | [C | [C | C]]]; [congruence | lia | lia | exact (A4 C)].
      * exfalso. exact (A2 (P0 A1)).
  - intros H. destruct (receive_prev _ now rto p _ _ g G PG (eq_sym H) PP) as (k' & f' & X & Y & _).
    + unfold to_old. apply orb_true_iff. right. apply N.ltb_lt.
      destruct (i_rot _ _ _ _ _ _ I s (p_path p)) as [(A1 & A2) | [(q & A1 & A2 & A3 & A4) | [(A1 & A2 & A3 & A4) | (A1 & A2)]]].
      * lia.
      * destruct (Q q A1 A2 A4) as (Q1 & Q2 & Q3). rewrite <- A3. apply Q1. lia.
      * rewrite A2. exact PM.
      * exfalso. exact (A2 (P0 A1)).
    + rewrite Re in X. apply some_pair_inj in X as (_ & ->). exact Y.
  - intros H F. subst f. destruct (receive_spec _ now rto p _ _ G) as (k' & f' & X & R & _). rewrite Re in X.
    apply some_pair_inj in X as (<- & <-). 
    assert (g = D s \/ g + 1 = D s \/ g = D s + 1); [ | lia].
    inversion R; try congruence.
    + left. congruence.
    + right; left. rewrite PG in *. match goal with A : Some g = Some o |- _ => apply some_inj in A end. lia.
    + right; right. congruence.
Qed.

Lemma in_sync mp maxa maxb inta intb senta sentb l w tr s n now rto w' path g f :
  run (init_w mp maxa maxb inta intb senta sentb) l = Some (w, tr) -> N.of_nat (length l) < 2 ^ 62 ->
  confirmed tr \/ (exists s0, only_by s0 tr) ->
  step w (EDeliver s n now rto) = Some (w', [OFate s path g f]) ->
  (mp = false \/ newest s tr = 0 \/ g <= newest s tr \/ In (OFate s path (newest s tr) Accepted) tr) ->
  proper_fate (newest s tr) g f.
Proof.
  intros R L Di St C. destruct (inv_run _ _ _ _ _ _ _ _ _ _ R L Di) as (E & D & I).
  refine (deliver_fate _ _ _ _ _ _ _ _ _ _ _ _ _ _ I _ St C).
  change (2 ^ 62) with 4611686018427387904 in L. unfold max64. lia.
Qed.
