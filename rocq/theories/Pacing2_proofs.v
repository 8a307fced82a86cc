(** Pacing across changes of parameters. *)
From Verif Require Import Base Pacing_model Pacing_spec Pacing_proofs.
Open Scope Z_scope.

Lemma sent_total : forall log, sent_bytes log = total log.
Proof. induction log as [| [t l] log IH]; cbn; congruence. Qed.

Definition new_packet (pt rtt : N) : Z := Z.max 1 (Z.min (Z.of_N pt) (Z.of_N rtt * 1000)).
Definition new_max (pt qt rtt : N) : Z := if (0 <? qt)%N then Z.of_N qt else 16 * new_packet pt rtt.

Lemma params_eq : forall p pt qt rtt, (0 < rtt)%N -> (rtt * 1000 <= 17592186044416)%N ->
  (pt <= 17592186044416)%N -> (qt <= 2305843009213693952)%N ->
  update_parameters p pt qt rtt
  = mk_pacing (pc_eval p) (Z.min (new_max pt qt rtt) (pc_bucket p)) (new_max pt qt rtt) (new_packet pt rtt) (pc_pause p).
Proof.
  intros p pt qt rtt Hr0 Hr Hp Hq. unfold update_parameters, u64. cbv zeta.
  rewrite (N.mod_small (rtt * 1000)) by (unfold two64; lia).
  rewrite (s64_id (Z.of_N pt)) by lia. rewrite (s64_id (Z.of_N qt)) by lia.
  rewrite (s64_id (Z.of_N (rtt * 1000))) by lia.
  assert (E : (if Z.of_N pt <=? 0 then 1 else if (rtt * 1000 <? Z.to_N (Z.of_N pt))%N then Z.of_N (rtt * 1000) else Z.of_N pt)
              = new_packet pt rtt).
  { unfold new_packet. rewrite N2Z.id. destruct (Z.leb_spec (Z.of_N pt) 0); [lia |].
    destruct (N.ltb_spec (rtt * 1000) pt); lia. }
  rewrite E. assert (B : 1 <= new_packet pt rtt <= 17592186044416) by (unfold new_packet; lia).
  rewrite (s64_id (16 * new_packet pt rtt)) by lia.
  assert (E2 : (if Z.of_N qt <=? 0 then 16 * new_packet pt rtt else Z.of_N qt) = new_max pt qt rtt).
  { unfold new_max. destruct (Z.leb_spec (Z.of_N qt) 0); destruct (N.ltb_spec 0 qt); lia. }
  rewrite E2. f_equal. destruct (Z.ltb_spec (new_max pt qt rtt) (pc_bucket p)); lia.
Qed.

Lemma small_eq : forall p rtt, (rtt * 1000 <= 17592186044416)%N ->
  small_window p rtt
  = mk_pacing (pc_eval p) (Z.min (Z.of_N rtt * 1000) (pc_bucket p)) (Z.of_N rtt * 1000) 1 (pc_pause p).
Proof.
  intros p rtt H. unfold small_window. cbv zeta. rewrite s64_id by lia.
  f_equal; [| lia]. destruct (Z.ltb_spec (Z.of_N (rtt * 1000)) (pc_bucket p)); lia.
Qed.

(** What a change does: same evaluation time, credit not increased. *)
Lemma change_eq : forall mtu p e, sane_pacing p -> sane_event mtu e = true ->
  (exists o, e = POp o) \/
  exists p', pestep mtu p e = Some (p', []) /\ sane_pacing p' /\ pc_eval p' = pc_eval p /\
    pc_bucket p' <= pc_bucket p /\ (forall P M, within_params P M e -> P <= pc_packet p' /\ pc_max p' <= M).
Proof.
  intros mtu p e H He. destruct e as [o | rtt | pt qt rtt]; [left; eauto | right | right]; cbn [sane_event pestep] in *.
  - unfold sane_rtt in He. rewrite small_eq by lia. eexists. split; [reflexivity |].
    destruct H as (H1 & H2 & H3 & H4). unfold sane_pacing. cbn [pc_eval pc_packet pc_max pc_bucket].
    split; [lia |]. split; [reflexivity |]. split; [lia |]. intros P M (A & B). lia.
  - unfold sane_rtt in He. rewrite params_eq by lia. eexists. split; [reflexivity |].
    destruct H as (H1 & H2 & H3 & H4). unfold sane_pacing. cbn [pc_eval pc_packet pc_max pc_bucket].
    assert (B : 1 <= new_packet pt rtt <= 17592186044416) by (unfold new_packet; lia).
    assert (B2 : 0 <= new_max pt qt rtt <= 2305843009213693952) by (unfold new_max; destruct (0 <? qt)%N; lia).
    split; [lia |]. split; [reflexivity |]. split; [lia |]. intros P M (X & Y). unfold new_max, new_packet. lia.
Qed.

Lemma changes_sane : forall mtu es p, sane_pacing p -> (0 < mtu < 65536)%N ->
  forallb (sane_event mtu) es = true ->
  exists p' log, perun mtu p es = Some (p', log) /\ pc_bucket p' <= pc_max p' /\ 0 < pc_packet p' /\ sane_pacing p'.
Proof.
  intros mtu es. induction es as [| e es IH]; intros p H Hm Hs; cbn [perun forallb] in *.
  - exists p, []. split; [reflexivity |]. destruct H as (H1 & H2 & H3 & H4). unfold sane_pacing. lia.
  - apply andb_true_iff in Hs. destruct Hs as (He & Hs).
    assert (X : exists p1 g, pestep mtu p e = Some (p1, g) /\ sane_pacing p1).
    { destruct (change_eq mtu p e H He) as [(o & ->) | (p1 & E & S & _)]; [| eauto].
      cbn [sane_event] in He. apply andb_true_iff in He.
      destruct (pstep_eq mtu p o H Hm (proj1 He) (proj2 He)) as (p1 & g & E & S & _). cbn [pestep]. eauto. }
    destruct X as (p1 & g & E & S). rewrite E.
    destruct (IH p1 S Hm Hs) as (p2 & g2 & -> & R). exists p2, (g ++ g2). split; [reflexivity | exact R].
Qed.

Lemma accounting_changes : forall mtu es p p' log t1 P M, sane_pacing p -> (0 < mtu < 65536)%N ->
  forallb (sane_event mtu) es = true -> Forall (before t1) es -> (pc_eval p <= t1)%N ->
  0 <= P <= pc_packet p -> pc_max p <= M -> Forall (within_params P M) es ->
  perun mtu p es = Some (p', log) ->
  P * total log <= Z.of_N mtu * (Z.max 0 (pc_bucket p) + 1000 * (Z.of_N t1 - Z.of_N (pc_eval p))).
Proof.
  intros mtu es. induction es as [| e es IH]; intros p p' log t1 P M H Hm Hs Hf He HP HM Hw E; cbn [perun forallb] in *.
  - injection E as <- <-. cbn [total]. rewrite Z.mul_0_r. apply Z.mul_nonneg_nonneg; lia.
  - apply andb_true_iff in Hs. destruct Hs as (Hs0 & Hs). inversion Hf as [| ? ? F1 F2]; subst.
    inversion Hw as [| ? ? W1 W2]; subst.
    destruct (change_eq mtu p e H Hs0) as [(o & ->) | (p1 & E1 & S1 & V1 & B1 & Q1)].
    + cbn [sane_event before pestep] in *. apply andb_true_iff in Hs0. destruct Hs0 as (Ht & Hl).
      destruct (pstep_eq mtu p o H Hm Ht Hl) as (p1 & g & E1 & S1 & V1 & M1 & K1 & G). rewrite E1 in E.
      destruct (perun mtu p1 es) as [[p2 g2] |] eqn:E2; [| discriminate]. injection E as <- <-.
      assert (T : (p_time o < 4503599627370496)%N) by (unfold sane_time in Ht; lia).
      destruct (update_bucket_eq p (p_time o) H T) as (U1 & U2 & _ & U3 & U4 & U5).
      pose proof (IH p1 p2 g2 t1 P M S1 Hm Hs F2 ltac:(lia) ltac:(lia) ltac:(lia) W2 E2) as B. rewrite total_app.
      set (up := pc_bucket (update_bucket p (p_time o))) in *.
      assert (Hup : Z.max 0 up + 1000 * (Z.of_N t1 - Z.of_N (pc_eval p1)) <= Z.max 0 (pc_bucket p) + 1000 * (Z.of_N t1 - Z.of_N (pc_eval p))).
      { rewrite V1, U3. destruct H as (_ & Hp & Hx & _). destruct (N.ltb_spec (pc_eval p) (p_time o)); lia. }
      destruct G as [(-> & G) | (len & -> & L & G1 & G2)].
      * cbn [total]. eapply Z.le_trans; [rewrite Z.add_0_l; exact B |]. apply Z.mul_le_mono_nonneg_l; lia.
      * destruct H as (_ & Hp & _ & _). destruct (cost_bounds p len mtu ltac:(lia) ltac:(lia)) as (C1 & C2 & C3 & _).
        specialize (C3 L). cbn [total]. rewrite Z.add_0_r, Z.mul_add_distr_l.
        assert (Hmm : Z.of_N mtu * (Z.max 0 (pc_bucket p1) + 1000 * (Z.of_N t1 - Z.of_N (pc_eval p1)) + cost p len mtu) <=
                      Z.of_N mtu * (Z.max 0 (pc_bucket p) + 1000 * (Z.of_N t1 - Z.of_N (pc_eval p)))).
        { apply Z.mul_le_mono_nonneg_l; [lia |]. lia. }
        assert (PL : P * Z.of_N len <= pc_packet p * Z.of_N len) by (apply Z.mul_le_mono_nonneg_r; lia).
        rewrite Z.mul_add_distr_l in Hmm. lia.
    + rewrite E1 in E. destruct (perun mtu p1 es) as [[p2 g2] |] eqn:E2; [| discriminate]. injection E as <- <-.
      destruct (Q1 P M W1) as (Q2 & Q3).
      pose proof (IH p1 p2 g2 t1 P M S1 Hm Hs F2 ltac:(lia) ltac:(lia) ltac:(lia) W2 E2) as B.
      cbn [app]. eapply Z.le_trans; [exact B |]. apply Z.mul_le_mono_nonneg_l; lia.
Qed.

Lemma rate_across_changes : forall mtu es p p' log t1 P M, sane_pacing p -> (0 < mtu < 65536)%N ->
  forallb (sane_event mtu) es = true -> Forall (before t1) es -> (pc_eval p <= t1)%N ->
  0 <= P <= pc_packet p -> pc_max p <= M -> Forall (within_params P M) es ->
  perun mtu p es = Some (p', log) ->
  P * sent_bytes log <= Z.of_N mtu * (M + 1000 * (Z.of_N t1 - Z.of_N (pc_eval p))).
Proof.
  intros mtu es p p' log t1 P M H Hm Hs Hf He HP HM Hw E. rewrite sent_total.
  eapply Z.le_trans; [eapply (accounting_changes mtu es p p' log t1 P M); eassumption |].
  destruct H as (_ & _ & H3 & H4). apply Z.mul_le_mono_nonneg_l; lia.
Qed.
