(** Lemmas about the times of acknowledgements: the delay and the gap. *)
From Verif Require Import Base Tac Varint_model Varint_spec Varint_proofs
  Sack_model Sack_spec Sack_proofs Ack_model Ack_spec Ack_proofs Ack2_proofs Delay_model Delay_spec
  Delay_proofs Delay2_proofs Delay3_proofs Delay4_proofs.

Definition knobs (s : dly) := (d_gap s, d_delay s, d_ignore s, d_seq s, d_neg s).

Lemma record_knobs : forall s pn now, knobs (record_number s pn now) = knobs s.
Proof. intros. unfold record_number. destruct (sl_items (d_sl s)); [reflexivity|]. destruct (_ <? pn); reflexivity. Qed.

Lemma needed_knobs : forall s now imm, knobs (set_ack_needed s now imm) = knobs s.
Proof. intros. unfold set_ack_needed. destruct (d_needed s); reflexivity. Qed.

Lemma write_knobs : forall s ecn now room s2 b m, write_ack s ecn now room = (s2, b, m) -> knobs s2 = knobs s.
Proof.
  intros s ecn now room s2 b m H. unfold write_ack in H.
  destruct (format_ack_frame _ _ _ _ _ _ _) as [[x y] z]. destruct x; inversion H; reflexivity.
Qed.

Lemma poll_knobs : forall s c ecn now wake s2 b m w, poll s c ecn now wake = (s2, b, m, w) -> knobs s2 = knobs s.
Proof.
  intros s c ecn now wake s2 b m w H. destruct c as [room| |room]; cbn [poll] in H.
  - destruct (256 <? room); [|inversion H; reflexivity].
    destruct (write_ack s ecn now room) as [[s1 b1] mo] eqn:E. inversion H; subst. eapply write_knobs. exact E.
  - inversion H; reflexivity.
  - destruct (is_ack_needed s now wake) as [[nd s1] wk] eqn:E.
    assert (K : knobs s1 = knobs s) by (apply is_ack_needed_state in E; destruct E as [->| ->]; reflexivity).
    destruct nd; [|inversion H; subst; exact K].
    destruct (write_ack s1 ecn now room) as [[s3 b1] mo] eqn:E2. inversion H; subst. rewrite <- K.
    eapply write_knobs. exact E2.
Qed.

Lemma knobs_gap : forall a b, knobs a = knobs b -> d_gap a = d_gap b /\ d_delay a = d_delay b /\
  d_ignore a = d_ignore b /\ d_seq a = d_seq b /\ d_neg a = d_neg b.
Proof. intros a b H. unfold knobs in H. inversion H. auto. Qed.

(** without the extension *)
Lemma decode_plain : forall fs s now s2, decode_frames s fs now = Some s2 -> d_neg s = false -> knobs s2 = knobs s.
Proof.
  induction fs as [|f fs IH]; intros s now s2 H Hn; cbn [decode_frames] in H.
  - apply some_inj in H. subst. reflexivity.
  - match type of H with match ?w with _ => _ end = _ => destruct w as [s1|] eqn:E; [|discriminate] end.
    assert (K : knobs s1 = knobs s).
    { destruct f; [apply some_inj in E; subst; reflexivity..| |].
      - unfold immediate_ack in E. destruct fs; [apply some_inj in E; subst; reflexivity|].
        rewrite Hn in E. discriminate.
      - unfold ack_frequency in E. rewrite Hn in E. discriminate. }
    rewrite <- K. eapply IH; [exact H|]. apply knobs_gap in K. destruct K as (_ & _ & _ & _ & ->). exact Hn.
Qed.

Lemma delay_bounds : forall nb s0 h s, start nb false s0 -> reach s0 h s ->
  d_neg s = false /\ d_ignore s = false /\ 1000 <= d_delay s <= 10000 /\ 1 <= d_gap s.
Proof.
  intros nb s0 h s Hs H.
  assert (Hmove : forall a b, knobs b = knobs a ->
    d_neg a = false /\ d_ignore a = false /\ 1000 <= d_delay a <= 10000 /\ 1 <= d_gap a ->
    d_neg b = false /\ d_ignore b = false /\ 1000 <= d_delay b <= 10000 /\ 1 <= d_gap b).
  { intros a b K. apply knobs_gap in K. destruct K as (-> & -> & -> & _ & ->). auto. }
  induction H as [|h s pn fs now s2 Hr IH Hpn Hok Hnow Hrec H|h s c ecn now wake s2 m w Hr IH He Hnow Hrec H
    |h s c ecn now wake s2 bytes m w Hr IH He Hnow Hrec H Hb|h s a b bytes m n t Hr IH Hin Hrg|h s v s2 Hr IH Hv H].
  - destruct Hs as (min & exp & max & ->). cbn. unfold ack_delay_min. repeat split; lia.
  - unfold receive in H. destruct (is_pn_already_received (d_sl s) pn); [inversion H|].
    destruct (decode_frames s fs now) as [s1|] eqn:Ef; [|discriminate].
    apply some_inj in H. apply (f_equal fst) in H. cbn [fst] in H. subst s2.
    apply decode_plain in Ef; [|apply IH]. apply (Hmove s); [|exact IH].
    rewrite record_knobs. destruct (existsb elicits fs); [rewrite needed_knobs|]; exact Ef.
  - apply poll_knobs in H. apply (Hmove s); assumption.
  - apply poll_knobs in H. apply (Hmove s); assumption.
  - apply (Hmove s); [reflexivity|exact IH].
  - apply tune_spec in H. destruct H as [->|(Hn & g & d & -> & H)]; [exact IH|].
    apply compute_bounds in H; [|congruence]. cbn [d_neg d_ignore d_delay d_gap].
    destruct IH as (A & B & _). repeat split; try assumption; lia.
Qed.

Lemma tune_total : forall s v, v_neg v = d_neg s -> 0 < v_mtu v -> exists s2, tune s v = Some s2.
Proof.
  intros s v Hv Hm. unfold tune. destruct (d_neg s) eqn:E; [eexists; reflexivity|].
  destruct (tuned_bounds v (v_rttmin v) ack_delay_min (v_rcvmax v)) as (g & d & -> & _); try assumption;
    [unfold ack_delay_min; lia..|]. eexists; reflexivity.
Qed.

Lemma ten_ms : forall nb s0 h s, start nb false s0 -> reach s0 h s -> calm h ->
  forall q t, waiting h q t ->
  forall ecn now wake room, ecn_ok ecn -> now < 2 ^ 62 -> 600 <= room ->
  (length (sl_items (d_sl s)) <= 33)%nat ->
  t + 10000 <= now ->
  exists s2 bytes, poll s (CNew room) ecn now wake = (s2, bytes, false, now) /\
    forall q2 t2, waiting h q2 t2 -> names bytes q2.
Proof.
  intros nb s0 h s Hs Hr Hc q t Hw ecn now wake room He Hnow Hroom Hlen Hdue.
  destruct (delay_bounds _ _ _ _ Hs Hr) as (_ & _ & Hd & _).
  eapply due_is_acked; try eassumption. lia.
Qed.

(** with the extension *)
Definition knob_of (best : option (N * (N * N * bool))) (s : dly) : Prop :=
  match best with
  | None => d_gap s = 2 /\ d_delay s = 1000 /\ d_ignore s = false /\ d_seq s = max64
  | Some (q, (p, m, r)) => d_gap s = p /\ d_delay s = m /\ d_ignore s = r /\ d_seq s = q /\ q < 2 ^ 62
  end.

Lemma knob_same : forall best a b, knobs b = knobs a -> knob_of best a -> knob_of best b.
Proof.
  intros best a b K. apply knobs_gap in K. destruct K as (K1 & K2 & K3 & K4 & _). unfold knob_of.
  destruct best as [[q [[p m] r]]|]; rewrite K1, K2, K3, K4; auto.
Qed.

Lemma later_small : forall a b, a < 2 ^ 62 -> b < 2 ^ 62 -> later a b = (b <? a).
Proof.
  intros a b Ha Hb. unfold later. change (2 ^ 62) with 4611686018427387904 in *. cbv zeta.
  destruct (N.lt_ge_cases b a) as [L|L].
  - replace (a + two64 - b) with (two64 + (a - b)) by (unfold two64; lia).
    unfold u64. rewrite N.add_comm. replace (a - b + two64) with (a - b + 1 * two64) by lia.
    rewrite N.mod_add by discriminate. rewrite N.mod_small by (unfold two64; lia).
    replace (b <? a) with true by (symmetry; apply N.ltb_lt; exact L).
    apply andb_true_iff. split; apply N.ltb_lt; lia.
  - replace (b <? a) with false by (symmetry; apply N.ltb_ge; exact L).
    destruct (N.eq_dec a b) as [->|Hne].
    + replace (b + two64 - b) with two64 by lia. reflexivity.
    + rewrite u64_small by (unfold two64; lia). apply andb_false_iff. right. apply N.ltb_ge. unfold two64. lia.
Qed.

Lemma later_first : forall a, a < 2 ^ 62 -> later a max64 = true.
Proof.
  intros a Ha. unfold later. change (2 ^ 62) with 4611686018427387904 in *. cbv zeta.
  replace (a + two64 - max64) with (a + 1) by (unfold two64, max64; lia).
  rewrite u64_small by (unfold two64; lia). apply andb_true_iff. split; apply N.ltb_lt; lia.
Qed.

Lemma decode_knob : forall fs s now s2 best, decode_frames s fs now = Some s2 -> Forall frame_ok fs ->
  knob_of best s -> knob_of (newest best (requests fs)) s2.
Proof.
  induction fs as [|f fs IH]; intros s now s2 best H Hok Hk; cbn [decode_frames] in H.
  - apply some_inj in H. subst. exact Hk.
  - apply Forall_cons_iff in Hok. destruct Hok as [Hf Hok].
    match type of H with match ?w with _ => _ end = _ => destruct w as [s1|] eqn:E; [|discriminate] end.
    destruct f; cbn [requests];
      [apply some_inj in E; subst s1; eapply IH; [exact H|exact Hok|exact Hk]..| |].
    + eapply IH; [exact H|exact Hok|]. unfold immediate_ack in E.
      destruct fs; [apply some_inj in E; subst; exact Hk|].
      destruct (d_neg s); [|discriminate]. apply some_inj in E. subst.
      eapply knob_same; [|exact Hk]. apply needed_knobs.
    + cbn [newest]. eapply IH; [exact H|exact Hok|]. cbn [frame_ok] in Hf. destruct Hf as (F1 & F2 & F3 & F4).
      unfold ack_frequency in E. destruct (negb (d_neg s) || _ || _); [discriminate|].
      destruct best as [[q [[p m] r]]|]; cbn [knob_of fst] in *.
      * destruct Hk as (K1 & K2 & K3 & K4 & K5). rewrite K4, later_small in E by assumption.
        destruct (q <? seq); apply some_inj in E; subst s1; cbn [knob_of d_gap d_delay d_ignore d_seq];
          repeat split; assumption || reflexivity.
      * destruct Hk as (K1 & K2 & K3 & K4). rewrite K4, later_first in E by assumption.
        apply some_inj in E; subst s1; cbn [knob_of d_gap d_delay d_ignore d_seq];
          repeat split; assumption || reflexivity.
Qed.

Lemma newest_app : forall l1 l2 best, newest best (l1 ++ l2) = newest (newest best l1) l2.
Proof. induction l1 as [|x l1 IH]; intros l2 best; [reflexivity|]. cbn [app newest]. apply IH. Qed.

Lemma requests_snoc : forall h o, all_requests (h ++ [o]) =
  all_requests h ++ match o with ORecv _ fs _ => requests fs | _ => [] end.
Proof. intros. unfold all_requests. rewrite flat_map_app. cbn [flat_map]. rewrite app_nil_r. reflexivity. Qed.

Lemma frequency_latest : forall nb s0 h s, start nb true s0 -> reach s0 h s ->
  match newest None (all_requests h) with
  | None => d_gap s = 2 /\ d_delay s = 1000 /\ d_ignore s = false
  | Some (_, (packets, microsec, ignore)) => d_gap s = packets /\ d_delay s = microsec /\ d_ignore s = ignore
  end.
Proof.
  intros nb s0 h s Hs H.
  enough (K : d_neg s = true /\ knob_of (newest None (all_requests h)) s).
  { destruct K as [_ K]. unfold knob_of in K. destruct (newest None (all_requests h)) as [[q [[p m] r]]|]; tauto. }
  induction H as [|h s pn fs now s2 Hr IH Hpn Hok Hnow Hrec H|h s c ecn now wake s2 m w Hr IH He Hnow Hrec H
    |h s c ecn now wake s2 bytes m w Hr IH He Hnow Hrec H Hb|h s a b bytes m n t Hr IH Hin Hrg|h s v s2 Hr IH Hv H].
  - destruct Hs as (min & exp & max & ->). cbn. auto.
  - destruct IH as [Hn IH]. unfold receive in H. destruct (is_pn_already_received (d_sl s) pn); [inversion H|].
    destruct (decode_frames s fs now) as [s1|] eqn:Ef; [|discriminate].
    apply some_inj in H. apply (f_equal fst) in H. cbn [fst] in H. subst s2.
    assert (Hk : knobs (record_number (if existsb elicits fs then set_ack_needed s1 now false else s1) pn now) = knobs s1).
    { rewrite record_knobs. destruct (existsb elicits fs); [apply needed_knobs|reflexivity]. }
    split.
    + apply knobs_gap in Hk. destruct Hk as (_ & _ & _ & _ & ->).
      pose proof (decode_frames_core _ _ _ _ Ef Hok) as C.
      destruct C as ((_ & _ & _ & _ & _ & _ & C & _) & _).
      { eapply v_small. eapply reach_inv; [exact Hr|exists nb, true; exact Hs]. }
      congruence.
    + rewrite requests_snoc, newest_app. eapply knob_same; [exact Hk|]. eapply decode_knob; eassumption.
  - destruct IH as [Hn IH]. apply poll_knobs in H. split; [apply knobs_gap in H; destruct H as (_ & _ & _ & _ & ->); exact Hn|].
    eapply knob_same; eassumption.
  - destruct IH as [Hn IH]. apply poll_knobs in H. split; [apply knobs_gap in H; destruct H as (_ & _ & _ & _ & ->); exact Hn|].
    rewrite requests_snoc, app_nil_r. eapply knob_same; eassumption.
  - destruct IH as [Hn IH]. split; [exact Hn|]. eapply knob_same; [|exact IH]. reflexivity.
  - destruct IH as [Hn IH]. unfold tune in H. rewrite Hn in H. apply some_inj in H. subst. auto.
Qed.
