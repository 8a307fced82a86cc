(** Proofs about the end of connections: times. *)
From Verif Require Import Base Tac Life_model Life_spec Life_proofs.

Lemma u64_id n : n < two64 -> u64 n = n.
Proof. intros H. unfold u64. apply N.mod_small. exact H. Qed.
Lemma u64_exit pr ti : pr + 3 * ti < two64 -> u64 (pr + u64 (3 * ti)) = pr + 3 * ti.
Proof. intros B. rewrite (u64_id (3 * ti)) by lia. apply u64_id. exact B. Qed.

(** Close packets are spaced. *)
Definition spaced_from (t1 sm : N) (x : life) : Prop :=
  li_smoothed x = sm /\
  match li_st x with Closing => t1 <= li_sent x /\ small (li_sent x) | Draining | Disconnected => True | _ => False end.
Lemma spaced_step c x e t1 sm : small sm -> spaced_from t1 sm x -> at_time small e ->
  spaced_from t1 sm (fst (fst (lstep c x e))) /\
  (sends (snd (fst (lstep c x e))) = true -> at_time (fun t => t1 + sm <= t) e).
Proof.
  unfold small at 1. intros Hsm.
  destruct x as [cl st er ae fr_ re k1 k2 hs ak pr rc se stt ti sm' rm id].
  destruct st; cbv [spaced_from li_st li_smoothed li_sent]; intros [<- K]; try contradiction; intros T;
    events e; cbv [at_time] in T |- *; open_step; splits; cbn [sends existsb is_sent orb];
    repeat split; try assumption; try exact I; try discriminate; try (destruct K; assumption);
    try match goal with |- true = true -> _ => intros _ end;
    match goal with
    | H : (u64 (se + sm') <=? ?n) = true |- _ =>
      apply N.leb_le in H; rewrite u64_id in H by (destruct K; unfold small, two64 in *; lia); destruct K; unfold small in *; lia
    | _ => idtac
    end.
Qed.
Lemma first_send c x e t : (li_st x = Disconnecting \/ li_st x = Closing) -> small t -> at_time (eq t) e ->
  sends (snd (fst (lstep c x e))) = true ->
  spaced_from t (li_smoothed x) (fst (fst (lstep c x e))).
Proof.
  destruct x as [cl st er ae fr_ re k1 k2 hs ak pr rc se stt ti sm' rm id].
  cbv [li_st li_smoothed]. intros [-> | ->] Ht T; events e; cbv [at_time] in T; try subst t;
    cbv [spaced_from]; open_step; splits; cbn [sends existsb is_sent orb]; try discriminate;
    intros _; repeat split; try lia; try assumption.
Qed.
Lemma spaced c x e1 l e2 t1 :
  (li_st x = Disconnecting \/ li_st x = Closing) -> small (li_smoothed x) -> small t1 -> at_time (eq t1) e1 ->
  Forall (at_time small) l -> at_time small e2 ->
  sends (snd (fst (lstep c x e1))) = true ->
  sends (snd (fst (lstep c (fst (lrun c x (e1 :: l))) e2))) = true ->
  at_time (fun t => t1 + li_smoothed x <= t) e2.
Proof.
  intros S Hs Ht T F T2 S1 S2. rewrite lrun_cons in S2. cbn [fst] in S2.
  pose proof (first_send c x e1 t1 S Ht T S1) as K.
  assert (K2 : spaced_from t1 (li_smoothed x) (fst (lrun c (fst (fst (lstep c x e1))) l))).
  { refine (proj1 (lrun_inv (spaced_from t1 (li_smoothed x)) (fun _ => True) (at_time small) c _ l _ K F)).
    intros y e Ky Te. split; [| apply forall_true]. exact (proj1 (spaced_step c y e _ _ Hs Ky Te)). }
  exact (proj2 (spaced_step c _ e2 _ _ Hs K2 T2) S2).
Qed.

(** The end of the closing and draining periods. *)
Definition waiting (pr ti : N) (x : life) : Prop :=
  match li_st x with
  | Closing | Draining => li_progress x = pr /\ li_timer x = ti
  | Disconnected => True
  | _ => False
  end.
Lemma waiting_step c x e pr ti : waiting pr ti x -> immediate e = false -> waiting pr ti (fst (fst (lstep c x e))).
Proof.
  destruct x as [cl st er ae fr_ re k1 k2 hs ak p rc se stt ti' sm' rm id].
  destruct st; cbv [waiting li_st li_progress li_timer]; try contradiction; intros K;
    events e; cbv [immediate]; try discriminate; intros _; open_step; splits; solve [exact K | exact I].
Qed.
Lemma waiting_exit c x e pr ti : waiting pr ti x -> pr + 3 * ti < two64 ->
  at_time (fun t => pr + 3 * ti <= t) e ->
  match e with LPoll _ _ _ | LMore _ => li_st (fst (fst (lstep c x e))) = Disconnected | _ => True end.
Proof.
  intros K B. assert (U : u64 (pr + u64 (3 * ti)) = pr + 3 * ti).
  { exact (u64_exit _ _ B). }
  assert (EX : exit_time x = pr + 3 * ti \/ li_st x = Disconnected).
  { unfold waiting in K. unfold exit_time. destruct (li_st x); try contradiction; try (right; reflexivity);
      destruct K as [-> ->]; left; exact U. }
  destruct e; try exact (fun _ => I); cbv [at_time]; intros T.
  - destruct EX as [EX | EX].
    + cbv [lstep]. unfold poll. destruct (idle_time c x rto <=? sg_now g).
      * cbv [disconnect]. destruct (li_st x) eqn:E; cbn; rewrite ?E; cbn; rewrite ?E; reflexivity.
      * unfold prepare_segment, prepare_closing. unfold waiting in K.
        destruct (li_st x) eqn:E; try contradiction;
          rewrite ?EX, ?(proj2 (N.leb_le _ _) T); cbv [disconnect]; rewrite ?E; cbn; rewrite ?E; cbn; rewrite ?E; reflexivity.
    + pose proof (proj1 (down_step c x (LPoll g rto others) ltac:(rewrite EX; reflexivity))) as L.
      rewrite EX in L. destruct (li_st (fst (fst (lstep c x (LPoll g rto others))))); try discriminate; reflexivity.
  - destruct EX as [EX | EX].
    + cbv [lstep]. unfold prepare_segment, prepare_closing. unfold waiting in K.
        destruct (li_st x) eqn:E; try contradiction;
          rewrite ?EX, ?(proj2 (N.leb_le _ _) T); cbv [disconnect]; rewrite ?E; cbn; rewrite ?E; cbn; rewrite ?E; reflexivity.
    + pose proof (proj1 (down_step c x (LMore g) ltac:(rewrite EX; reflexivity))) as L.
      rewrite EX in L. destruct (li_st (fst (fst (lstep c x (LMore g))))); try discriminate; reflexivity.
Qed.
Lemma ends c x l g rto others : (li_st x = Closing \/ li_st x = Draining) ->
  li_progress x + 3 * li_timer x < two64 ->
  Forall (fun e => immediate e = false) l -> li_progress x + 3 * li_timer x <= sg_now g ->
  li_st (fst (lrun c x (l ++ [LPoll g rto others]))) = Disconnected.
Proof.
  intros S B F T. rewrite lrun_app, lrun_cons. cbn [fst lrun].
  assert (K : waiting (li_progress x) (li_timer x) (fst (lrun c x l))).
  { refine (proj1 (lrun_inv (waiting (li_progress x) (li_timer x)) (fun _ => True) _ c _ l x _ F)).
    - intros y e Ky Fe. split; [exact (waiting_step c y e _ _ Ky Fe) | apply forall_true].
    - unfold waiting. destruct S as [-> | ->]; split; reflexivity. }
  exact (waiting_exit c _ (LPoll g rto others) _ _ K B T).
Qed.

(** The wake time asked. *)
Lemma wake c x g rto others : down (li_st x) = true -> li_progress x + 3 * li_timer x < two64 ->
  match lstep c x (LPoll g rto others) with
  | (x', _, Some w) =>
    li_st x' = Disconnected \/
    match li_st x with
    | Disconnecting | ClosingReceived => w = sg_now g
    | _ => w <= li_progress x' + 3 * li_timer x'
    end
  | _ => False
  end.
Proof.
  intros D B. assert (U : exit_time x = li_progress x + 3 * li_timer x).
  { exact (u64_exit _ _ B). }
  cbv [lstep]. unfold poll. destruct (idle_time c x rto <=? sg_now g) eqn:EI.
  - cbv [disconnect]. destruct (li_st x) eqn:E; try discriminate; cbn; rewrite ?E; cbn; rewrite ?E; left; reflexivity.
  - unfold prepare_segment, prepare_closing. rewrite !U. clear U EI.
    destruct x as [cl st er ae fr_ re k1 k2 hs ak pr rc se stt ti sm rm id].
    destruct st; try discriminate; open_step.
    + right. cbn [existsb is_packet orb]. destruct (er =? 0); reflexivity.
    + right. cbn [existsb is_packet orb]. reflexivity.
    + cbv [li_progress li_timer] in B. destruct (pr + 3 * ti <=? sg_now g) eqn:E1.
      * left. reflexivity.
      * apply N.leb_gt in E1. splits; cbn [existsb is_packet orb] in *; try discriminate; right;
        repeat match goal with H : (_ <? _) = false |- _ => apply N.ltb_ge in H end; lia.
    + cbv [li_progress li_timer] in B. destruct (pr + 3 * ti <=? sg_now g) eqn:E1.
      * left. reflexivity.
      * right. cbn [existsb orb]. lia.
    + left. reflexivity.
Qed.

(** The idle timer. *)
Lemma idle_ready c x rto : 14 <= num (li_st x) -> rto < 1152921504606846976 -> small (li_receive x) ->
  idle_time c x rto = N.min max64 (li_receive x + N.max (li_idle x) (3 * rto)) \/
  (max64 < li_receive x + N.max (li_idle x) (3 * rto) /\ idle_time c x rto = max64).
Proof.
  intros S R B. unfold idle_time. rewrite (proj2 (N.leb_le _ _) S). cbv zeta.
  rewrite (u64_id (3 * rto)) by (unfold two64; lia).
  unfold small in B.
  destruct (li_idle x <? 3 * rto) eqn:E1.
  - apply N.ltb_lt in E1. rewrite u64_id by (unfold two64; lia).
    destruct (3 * rto + li_receive x <? li_idle x) eqn:E2; [apply N.ltb_lt in E2; lia |].
    left. unfold max64. lia.
  - apply N.ltb_ge in E1. destruct (N.lt_ge_cases (li_idle x + li_receive x) two64) as [L | L].
    + rewrite u64_id by exact L. destruct (li_idle x + li_receive x <? li_idle x) eqn:E2; [apply N.ltb_lt in E2; lia |].
      left. unfold max64, two64 in *. lia.
    + destruct (N.lt_ge_cases (li_idle x) two64) as [L2 | L2].
      * assert (U : u64 (li_idle x + li_receive x) = li_idle x + li_receive x - two64).
        { unfold u64. symmetry. apply (N.mod_unique _ _ 1); unfold two64 in *; lia. }
        rewrite U. destruct (li_idle x + li_receive x - two64 <? li_idle x) eqn:E2.
        -- right. split; [unfold max64, two64 in *; lia | reflexivity].
        -- apply N.ltb_ge in E2. unfold two64 in *. lia.
      * assert (U : u64 (li_idle x + li_receive x) < li_idle x).
        { unfold u64. apply N.lt_le_trans with two64; [apply N.mod_upper_bound; discriminate | exact L2]. }
        rewrite (proj2 (N.ltb_lt _ _) U). right. split; [unfold max64, two64 in *; lia | reflexivity].
Qed.
Lemma idle_at_least c x rto : 14 <= num (li_st x) -> rto < 1152921504606846976 -> small (li_receive x) ->
  idle_time c x rto = N.min max64 (li_receive x + N.max (li_idle x) (3 * rto)).
Proof.
  intros S R B. destruct (idle_ready c x rto S R B) as [E | [L E]]; rewrite E; [reflexivity |].
  rewrite N.min_l by lia. reflexivity.
Qed.
Lemma idle_poll c x g rto others : li_st x = Ready -> rto < 1152921504606846976 -> small (li_receive x) -> sg_now g < max64 ->
  let limit := li_receive x + N.max (li_idle x) (3 * rto) in
  match lstep c x (LPoll g rto others) with
  | (x', o, Some w) =>
    (limit <= sg_now g -> li_st x' = Disconnected /\ li_err x' = 1075 /\ o = [CbClose]) /\
    (sg_now g < limit -> li_st x' = Ready /\ li_err x' = li_err x /\ (w <= N.max (sg_now g) limit))
  | _ => False
  end.
Proof.
  intros S R B T limit. cbv [lstep]. unfold poll.
  rewrite (idle_at_least c x rto) by (rewrite ?S; cbn; lia || assumption). fold limit.
  destruct (N.min max64 limit <=? sg_now g) eqn:EI.
  - apply N.leb_le in EI. assert (limit <= sg_now g) by lia.
    rewrite S. unfold disconnect. cbn [li_st set_err]. rewrite S. cbn [li_st li_err set_st set_err].
    split; [intros _; repeat split | lia].
  - apply N.leb_gt in EI. assert (EI2 : ~ limit <= sg_now g) by lia.
    unfold prepare_segment. rewrite S. unfold advance. rewrite S.
    destruct (sg_data g).
    + destruct (sg_step g), (sg_progress g); cbn [existsb is_packet orb li_st li_err set_progress]; rewrite ?S;
        (split; [intros Q; exfalso; exact (EI2 Q) |]); intros _; repeat split; lia.
    + cbn [existsb orb]. rewrite S. split; [intros Q; exfalso; exact (EI2 Q) |]. intros _. repeat split.
      destruct (N.min max64 limit <? _) eqn:E2; [lia |]. apply N.ltb_ge in E2. lia.
Qed.

(** The closing period is not shortened. *)
Definition held (T r0 pr ti : N) (id : N) (x : life) : Prop :=
  li_st x = Closing /\ li_progress x = pr /\ li_timer x = ti /\ li_idle x = id /\ r0 <= li_receive x /\ small (li_receive x).
Lemma closing_frames_none l : existsb is_close_frame l = false -> closing_frames l <> Some true.
Proof.
  induction l as [| f r IH]; [discriminate |]. cbn [existsb closing_frames].
  destruct f; cbn [is_close_frame orb]; intros H; try discriminate; exact (IH H).
Qed.
Lemma held_step c x e T r0 pr ti id : held T r0 pr ti id x -> abrupt e = false -> sane_rto e ->
  T <= pr + 3 * ti -> T <= r0 + id -> pr + 3 * ti < two64 ->
  at_time (fun t => r0 <= t /\ t < T) e -> small T ->
  held T r0 pr ti id (fst (fst (lstep c x e))).
Proof.
  intros [S [P [Ti [I [R SR]]]]] A RT T1 T2 B AT ST.
  assert (U : exit_time x = pr + 3 * ti) by (unfold exit_time; rewrite P, Ti; exact (u64_exit _ _ B)).
  assert (G : forall now, now < T -> (exit_time x <=? now) = false) by (intros now Hn; rewrite U; apply N.leb_gt; lia).
  assert (H : held T r0 pr ti id x) by (repeat split; assumption).
  assert (PS : forall g w, sg_now g < T -> held T r0 pr ti id (fst (fst (prepare_segment x g w)))).
  { intros g w Hg. unfold prepare_segment, prepare_closing. rewrite S, (G _ Hg).
    destruct (u64 (li_sent x + li_smoothed x) <=? sg_now g); [destruct (li_ack x) |]; cbn [fst]; exact H. }
  destruct e as [[code|] now|e f|[ep frs tl co] one now| | | |k1' k2'|tt_ ss_ mm_ ii_|g rto others|g|];
    cbv [abrupt] in A; try discriminate; cbv [at_time sane_rto] in *.
  - unfold held in *. cbn. rewrite S. cbn. exact H.
  - unfold held in *. cbn. rewrite S. cbn. repeat split; try assumption; apply H.
  - cbn [lstep fst]. unfold incoming. cbn [pk_ep pk_frames].
    assert (D : forall y, held T r0 pr ti id y -> held T r0 pr ti id (set_receive y now)).
    { intros y [Y1 [Y2 [Y3 [Y4 [Y5 Y6]]]]]. unfold held. cbn. unfold small in *. repeat split; try assumption; lia. }
    assert (D2 : forall y b, held T r0 pr ti id y -> held T r0 pr ti id (set_hs y b)) by (intros y b Hy; exact Hy).
    assert (D3 : forall y b, held T r0 pr ti id y -> held T r0 pr ti id (set_ack y b)) by (intros y b Hy; exact Hy).
    destruct ep, (li_client x) eqn:C; unfold server_initial, client_initial, server_handshake, client_handshake, incoming_0rtt, incoming_1rtt;
      rewrite ?S; cbn [num]; nc; cbn [orb negb andb pk_frames]; try rewrite S; cbn [num]; nc; cbn [andb]; cbv beta iota; try exact H;
      try (cbn [andb fst]; rewrite ?S; first [exact H | apply D, H | apply D2, D, H]);
      pose proof (closing_frames_none frs A) as NC; destruct (closing_frames frs) as [[|]|]; try (exfalso; apply NC; reflexivity);
      cbn [andb fst]; try exact H;
      cbn [li_st set_ack]; rewrite S; apply D, D3, H.
  - cbn [lstep fst]. unfold version_negotiation. rewrite S. exact H.
  - cbn [lstep fst]. unfold retry. rewrite S. exact H.
  - exact H.
  - cbn [lstep fst]. rewrite S. exact H.
  - cbn [lstep]. unfold poll. destruct (idle_time c x rto <=? sg_now g) eqn:EI.
    + exfalso. apply N.leb_le in EI. rewrite idle_at_least in EI by (rewrite ?S; cbn; assumption || lia).
      unfold small, max64 in *. lia.
    + specialize (PS g (if idle_time c x rto <? N.min (if 240000 <? lc_max_idle c
        then u64 (li_receive x + u64 (lc_max_idle c * 1000)) else u64 (li_receive x + 240000000)) others then idle_time c x rto
        else N.min (if 240000 <? lc_max_idle c then u64 (li_receive x + u64 (lc_max_idle c * 1000))
          else u64 (li_receive x + 240000000)) others) (proj2 AT)).
      destruct (prepare_segment x g _) as [[x1 o] w1]. exact PS.
  - cbn [lstep]. specialize (PS g 0 (proj2 AT)). destruct (prepare_segment x g 0) as [[x1 o] w1]. exact PS.
Qed.
Lemma holds c x l T : li_st x = Closing -> small (li_receive x) -> small T ->
  li_progress x + 3 * li_timer x < two64 ->
  T <= li_progress x + 3 * li_timer x -> T <= li_receive x + li_idle x ->
  Forall (fun e => abrupt e = false /\ sane_rto e /\ at_time (fun t => li_receive x <= t /\ t < T) e) l ->
  li_st (fst (lrun c x l)) = Closing.
Proof.
  intros S SR ST B T1 T2 F.
  pose proof (lrun_inv (held T (li_receive x) (li_progress x) (li_timer x) (li_idle x)) (fun _ => True)
    (fun e => abrupt e = false /\ sane_rto e /\ at_time (fun t => li_receive x <= t /\ t < T) e) c) as H.
  refine (proj1 (proj1 (H _ l x _ F))).
  - intros y e Hy [A [R AT]]. split; [| apply forall_true]. exact (held_step c y e _ _ _ _ _ Hy A R T1 T2 B AT ST).
  - repeat split; try assumption. lia.
Qed.

(** The idle timeout agreed. *)
Lemma negotiated local remote : local < 18446744073709551 -> remote < 18446744073709551 ->
  negotiated_idle local remote = match agreed local remote with Some t => t | None => max64 end.
Proof.
  intros L R. unfold negotiated_idle, agreed.
  rewrite (u64_id (remote * 1000)), (u64_id (local * 1000)) by (unfold two64; lia).
  destruct (N.eqb_spec local 0) as [-> | NL].
  - cbn [orb]. destruct (N.eqb_spec remote 0) as [-> | NR]; [reflexivity |].
    cbv zeta. destruct (N.eqb_spec (remote * 1000) 0); lia.
  - cbn [orb]. destruct (N.eqb_spec remote 0) as [-> | NR].
    + cbn [andb N.ltb]. change (0 <? 0) with false. cbv beta iota zeta. cbn [andb].
      destruct (N.eqb_spec (local * 1000) 0); lia.
    + assert (0 < remote) as P by lia. rewrite (proj2 (N.ltb_lt _ _) P). cbn [andb].
      destruct (N.ltb_spec remote local); cbv zeta.
      * destruct (N.eqb_spec (remote * 1000) 0); lia.
      * destruct (N.eqb_spec (local * 1000) 0); lia.
Qed.
