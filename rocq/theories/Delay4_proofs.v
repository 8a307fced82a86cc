(** Lemmas about the times of acknowledgements: when a poll writes one. *)
From Verif Require Import Base Tac Varint_model Varint_spec Varint_proofs
  Sack_model Sack_spec Sack_proofs Ack_model Ack_spec Ack_proofs Ack2_proofs Delay_model Delay_spec
  Delay_proofs Delay2_proofs Delay3_proofs.

Lemma receive_inv : forall h s pn fs now s2, dinv h s ->
  pn < 2 ^ 62 -> Forall frame_ok fs -> now < 2 ^ 62 -> recent h now ->
  receive s pn fs now = Some (s2, true) -> dinv (h ++ [ORecv pn fs now]) s2.
Proof.
  intros h s pn fs now s2 I Hpn Hok Hnow Hrec H. unfold receive in H.
  destruct (is_pn_already_received (d_sl s) pn) eqn:Ed; [inversion H|].
  destruct (decode_frames s fs now) as [s1|] eqn:Ef; [|discriminate].
  apply some_inj in H. apply (f_equal fst) in H. cbn [fst] in H. subst s2.
  apply decode_frames_core in Ef; [|exact Hok|exact (v_small _ _ I)]. destruct Ef as (C & F & S).
  apply (record_number_inv h s); try assumption.
  - destruct (existsb elicits fs); [|exact C]. eapply core_trans; [exact C|apply set_needed_core].
  - destruct (existsb elicits fs); [|exact F]. eapply flagged_trans; [exact F|apply set_needed_flagged].
  - destruct (existsb elicits fs); [|exact S]. apply set_needed_small. exact S.
  - intros E. rewrite E. apply set_needed_flagged.
Qed.

Lemma compute_mtu : forall v rtt rm rate g d, compute_gap_and_delay v rtt rm rate = Some (g, d) -> 0 < v_mtu v.
Proof.
  intros v rtt rm rate g d H. unfold compute_gap_and_delay, packets_in_window in H.
  destruct (v_mtu v =? 0) eqn:E; [discriminate|]. apply N.eqb_neq in E. lia.
Qed.

Lemma compute_bounds : forall v g d, v_neg v = false ->
  compute_gap_and_delay v (v_rttmin v) ack_delay_min (v_rcvmax v) = Some (g, d) ->
  1 <= g < 20000000000001 /\ 1000 <= d <= 10000.
Proof.
  intros v g d Hn H. pose proof (compute_mtu _ _ _ _ _ _ H) as Hm.
  destruct (tuned_bounds v (v_rttmin v) ack_delay_min (v_rcvmax v) Hn Hm) as (g2 & d2 & E & Hg & Hd);
    [unfold ack_delay_min; lia|unfold ack_delay_min; lia|].
  rewrite H in E. apply some_inj in E. inversion E; subst. unfold ack_delay_min in Hd. split; assumption.
Qed.

Lemma tune_inv : forall h s v s2, dinv h s -> v_neg v = d_neg s -> tune s v = Some s2 -> dinv h s2.
Proof.
  intros h s v s2 I Hv H. apply tune_spec in H. destruct H as [->|(Hn & g & d & -> & H)]; [exact I|].
  apply compute_bounds in H; [|congruence].
  destruct I as [Iops Ismall Istamp Ioldest Isent Ikeep Ine Ihigh Ihigh0 Ihigh1 Ilast Icov Iold Ineed Iooo Irecv].
  constructor; try assumption. split; cbn [d_gap d_delay]; change (2 ^ 62) with 4611686018427387904; lia.
Qed.

Lemma reach_inv : forall s0 h s, reach s0 h s -> (exists nb neg, start nb neg s0) -> dinv h s.
Proof.
  intros s0 h s H (nb & neg & Hs). induction H.
  - eapply start_inv. exact Hs.
  - eapply receive_inv; eassumption.
  - match goal with P : poll _ _ _ _ _ = _ |- _ => eapply poll_spec in P; [|eassumption..] end.
    destruct H3 as [[_ I]|[X _]]; [exact I|congruence].
  - match goal with P : poll _ _ _ _ _ = _ |- _ => eapply poll_spec in P; [|eassumption..] end.
    destruct H3 as [[X _]|[_ [I _]]]; [congruence|exact I].
  - eapply ack_of_ack_inv; eassumption.
  - eapply tune_inv; eassumption.
Qed.

(** ** What a poll does *)
Definition wants (s : dly) (now : N) : Prop :=
  d_imm s = true \/ d_fin s = true \/ (d_ooo s = true /\ d_ignore s = false) \/
  d_high s + gap_now s <= sack_list_last (d_sl s) \/ d_oldest s + d_delay s <= now.

Lemma gap_now_small : forall s, small s -> gap_now s < 2 ^ 62.
Proof. intros s [A _]. unfold gap_now. destruct (_ <? _); [reflexivity|exact A]. Qed.

Lemma last_small : forall h s, dinv h s -> sack_list_last (d_sl s) < 2 ^ 62.
Proof.
  intros h s I. destruct (ops_facts _ (v_ops _ _ I)) as (Hd & Hw & H62 & _).
  assert (Hdec : sl_items (d_sl s) = [] \/ sl_items (d_sl s) <> []) by (destruct (sl_items (d_sl s)); [left; reflexivity|right; discriminate]).
  destruct Hdec as [E|E].
  - unfold sack_list_last. rewrite E. reflexivity.
  - destruct (last_covers (d_sl s) Hw E) as [(it & Hin & Hb) _].
    specialize (H62 it Hin). change (2 ^ 62) with two62. lia.
Qed.

Lemma is_ack_needed_true : forall h s now wake, dinv h s -> d_needed s = true -> wants s now ->
  exists s1, is_ack_needed s now wake = (true, s1, wake) /\ d_needed s1 = true /\ (s1 = s \/ s1 = clear_fin s).
Proof.
  intros h s now wake I Hn Hw. unfold is_ack_needed. rewrite Hn.
  destruct (d_imm s) eqn:E1; [exists s; auto|]. destruct (d_fin s) eqn:E2; [exists (clear_fin s); auto|].
  destruct (d_ooo s && negb (d_ignore s)) eqn:E3; [exists s; auto|].
  pose proof (v_small _ _ I) as Hsm. pose proof (gap_now_small _ Hsm) as Hg. destruct Hsm as [_ Hd].
  pose proof (v_oldest _ _ I) as Ho. pose proof (last_small _ _ I) as Hl. pose proof (v_last _ _ I) as Hh.
  rewrite !u64_small by (unfold two64; change (2 ^ 62) with 4611686018427387904 in *; lia).
  exists s. destruct Hw as [X|[X|[[X Y]|[X|X]]]]; try congruence.
  - rewrite X, Y in E3. discriminate.
  - apply N.leb_le in X. rewrite X. auto.
  - apply N.leb_le in X. rewrite X, orb_true_r. auto.
Qed.

Lemma is_ack_needed_false : forall h s now wake s1 w, dinv h s -> d_needed s = true ->
  is_ack_needed s now wake = (false, s1, w) -> w <= d_oldest s + d_delay s /\ w <= wake.
Proof.
  intros h s now wake s1 w I Hn H. unfold is_ack_needed in H. rewrite Hn in H.
  destruct (d_imm s) eqn:E1; [inversion H|]. destruct (d_fin s) eqn:E2; [inversion H|].
  destruct (d_ooo s && negb (d_ignore s)) eqn:E3; [inversion H|].
  destruct (v_small _ _ I) as [_ Hd]. pose proof (v_oldest _ _ I) as Ho.
  destruct (_ || _); [inversion H|].
  rewrite u64_small in H by (unfold two64; change (2 ^ 62) with 4611686018427387904 in *; lia).
  apply (f_equal snd) in H. cbn [snd] in H. subst w. destruct (_ <? wake) eqn:E; lia.
Qed.

Lemma write_needed : forall h s ecn now room, dinv h s -> ecn_ok ecn -> now < 2 ^ 62 -> 600 <= room ->
  d_needed s = true -> sl_items (d_sl s) <> [] -> (length (sl_items (d_sl s)) <= 33)%nat ->
  exists s2 bytes, write_ack s ecn now room = (s2, bytes, false) /\ bytes <> [] /\
    forall q t, waiting h q t -> names bytes q.
Proof.
  intros h s ecn now room I He Hnow Hr Hn Hne Hlen.
  destruct (write_ack s ecn now room) as [[s2 bytes] m] eqn:E.
  apply (write_ack_spec h) in E; try assumption.
  destruct E as [(_ & _ & [X|[X|X]])|(A & B & C & D)]; [contradiction|congruence|lia|].
  rewrite (C Hr) in *. exists s2, bytes. split; [reflexivity|]. split; [exact A|]. apply D; [reflexivity|exact Hlen].
Qed.

Lemma waiting_ne : forall h s q t, dinv h s -> waiting h q t -> sl_items (d_sl s) <> [].
Proof.
  intros h s q t I ((fs & Hin & _) & _). apply (v_ne _ _ I). intro E. rewrite E in Hin. destruct Hin.
Qed.

Lemma poll_wants : forall h s q t ecn now wake room, dinv h s -> calm h -> waiting h q t ->
  ecn_ok ecn -> now < 2 ^ 62 -> 600 <= room -> (length (sl_items (d_sl s)) <= 33)%nat ->
  wants s now ->
  exists s2 bytes, poll s (CNew room) ecn now wake = (s2, bytes, false, now) /\
    forall q2 t2, waiting h q2 t2 -> names bytes q2.
Proof.
  intros h s q t ecn now wake room I Hc Hw He Hnow Hr Hlen Hwn.
  destruct (v_need _ _ I Hc q t Hw) as [Hn _].
  destruct (is_ack_needed_true h s now wake I Hn Hwn) as (s1 & E & Hn1 & Hs1).
  assert (I1 : dinv h s1) by (destruct Hs1 as [->| ->]; [exact I|apply clear_fin_inv; exact I]).
  assert (Esl : d_sl s1 = d_sl s) by (destruct Hs1 as [->| ->]; reflexivity).
  destruct (write_needed h s1 ecn now room I1 He Hnow Hr Hn1) as (s2 & bytes & E2 & Hb & Hnm).
  - rewrite Esl. eapply waiting_ne; eassumption.
  - rewrite Esl. exact Hlen.
  - exists s2, bytes. cbn [poll]. rewrite E, E2. split; [|exact Hnm]. destruct bytes; [congruence|reflexivity].
Qed.

(** ** Theorems *)
Lemma due_is_acked : forall nb neg s0 h s, start nb neg s0 -> reach s0 h s -> calm h ->
  forall q t, waiting h q t ->
  forall ecn now wake room, ecn_ok ecn -> now < 2 ^ 62 -> 600 <= room ->
  (length (sl_items (d_sl s)) <= 33)%nat ->
  t + d_delay s <= now ->
  exists s2 bytes, poll s (CNew room) ecn now wake = (s2, bytes, false, now) /\
    forall q2 t2, waiting h q2 t2 -> names bytes q2.
Proof.
  intros nb neg s0 h s Hs Hr Hc q t Hw ecn now wake room He Hnow Hroom Hlen Hdue.
  assert (I : dinv h s) by (eapply reach_inv; [exact Hr|exists nb, neg; exact Hs]).
  eapply poll_wants; try eassumption. destruct (v_need _ _ I Hc q t Hw) as [_ Ho].
  right; right; right; right. lia.
Qed.

Lemma wake_in_time : forall nb neg s0 h s, start nb neg s0 -> reach s0 h s -> calm h ->
  forall q t, waiting h q t ->
  forall ecn now wake room s2 bytes m w, ecn_ok ecn -> now < 2 ^ 62 -> 600 <= room ->
  (length (sl_items (d_sl s)) <= 33)%nat ->
  poll s (CNew room) ecn now wake = (s2, bytes, m, w) ->
  (forall q2 t2, waiting h q2 t2 -> names bytes q2) \/
  (bytes = [] /\ w <= t + d_delay s /\ w <= wake).
Proof.
  intros nb neg s0 h s Hs Hr Hc q t Hw ecn now wake room s2 bytes m w He Hnow Hroom Hlen H.
  assert (I : dinv h s) by (eapply reach_inv; [exact Hr|exists nb, neg; exact Hs]).
  destruct (v_need _ _ I Hc q t Hw) as [Hn Ho].
  cbn [poll] in H. destruct (is_ack_needed s now wake) as [[nd s1] wk] eqn:E. destruct nd.
  - left. assert (Hs1 : s1 = s \/ s1 = clear_fin s) by (eapply is_ack_needed_state; exact E).
    assert (I1 : dinv h s1) by (destruct Hs1 as [->| ->]; [exact I|apply clear_fin_inv; exact I]).
    assert (Esl : d_sl s1 = d_sl s) by (destruct Hs1 as [->| ->]; reflexivity).
    assert (Hn1 : d_needed s1 = true) by (destruct Hs1 as [->| ->]; exact Hn).
    destruct (write_needed h s1 ecn now room I1 He Hnow Hroom Hn1) as (s3 & b3 & E2 & Hb & Hnm).
    + rewrite Esl. eapply waiting_ne; eassumption.
    + rewrite Esl. exact Hlen.
    + rewrite E2 in H. inversion H; subst. exact Hnm.
  - right. inversion H; subst. apply (is_ack_needed_false h) in E; try assumption. split; [reflexivity|]. lia.
Qed.

(** a packet below one that was acknowledged, or behind a hole *)
Lemma reordering : forall nb neg s0 h s, start nb neg s0 -> reach s0 h s -> calm h -> d_ignore s = false ->
  forall q t, waiting h q t ->
  (exists n, named h n /\ q < n) \/
  (any_frame h /\ exists k, ~ received h k /\ k < q /\ forall n, named h n -> n < k) ->
  forall ecn now wake room, ecn_ok ecn -> now < 2 ^ 62 -> 600 <= room ->
  (length (sl_items (d_sl s)) <= 33)%nat ->
  exists s2 bytes, poll s (CNew room) ecn now wake = (s2, bytes, false, now) /\
    forall q2 t2, waiting h q2 t2 -> names bytes q2.
Proof.
  intros nb neg s0 h s Hs Hr Hc Hig q t Hw Hor ecn now wake room He Hnow Hroom Hlen.
  assert (I : dinv h s) by (eapply reach_inv; [exact Hr|exists nb, neg; exact Hs]).
  eapply poll_wants; try eassumption. right; right; left. split; [|exact Hig].
  destruct Hor as [(n & Hn & Hlt)|(Ha & k & Hk & Hkq & Hall)].
  - assert (Ha : any_frame h) by (destruct Hn as (b & m & l & t2 & Hin & _); exists b, m, l, t2; exact Hin).
    destruct (v_ooo _ _ I Hc q t Hw Ha) as [X|X]; [|exact X].
    pose proof (v_high _ _ I n Hn). lia.
  - destruct (v_cov _ _ I Ha) as [X|X]; [exact X|]. exfalso. apply Hk. apply (v_recv _ _ I). apply X.
    split; [apply Hall; apply (v_high1 _ _ I Ha)|].
    assert (Hq : covers (sl_items (d_sl s)) q).
    { destruct Hw as ((fs & Hin & _) & Hn). apply (v_keep _ _ I q fs t Hin Hn). }
    destruct (ops_facts _ (v_ops _ _ I)) as (_ & Hwf & _ & _).
    assert (Hne : sl_items (d_sl s) <> []) by (eapply waiting_ne; eassumption).
    apply (proj2 (last_covers _ Hwf Hne)) in Hq. lia.
Qed.

Lemma above : forall (l : list N) b, NoDup l -> (forall x, In x l -> b < x) -> l <> [] ->
  exists x, In x l /\ b + N.of_nat (length l) <= x.
Proof.
  intros l b Hd Hb Hne.
  destruct (Exists_dec (fun x => b + N.of_nat (length l) <= x) l) as [E|E].
  - intro x. destruct (N.leb_spec0 (b + N.of_nat (length l)) x) as [L|L]; [left; exact L|right; exact L].
  - apply Exists_exists in E. exact E.
  - exfalso. set (m := map (fun k => b + 1 + N.of_nat k) (seq 0 (length l - 1))).
    assert (Hi : incl l m).
    { intros x Hx. unfold m. apply in_map_iff. exists (N.to_nat (x - b - 1)). pose proof (Hb x Hx) as Hbx.
      assert (x < b + N.of_nat (length l)).
      { apply N.lt_nge. intro L. apply E. apply Exists_exists. exists x. split; assumption. }
      split; [lia|]. apply in_seq. lia. }
    pose proof (NoDup_incl_length Hd Hi) as Hl. unfold m in Hl. rewrite map_length, seq_length in Hl.
    destruct l; [congruence|]. cbn [length] in Hl. lia.
Qed.

(** as many packets as the gap *)
Lemma enough_packets : forall nb neg s0 h s, start nb neg s0 -> reach s0 h s -> calm h -> d_ignore s = false ->
  any_frame h ->
  forall l g, NoDup l -> l <> [] -> (forall q, In q l -> exists t, waiting h q t) ->
  (d_nb s < 128 -> g = 2) -> (128 <= d_nb s -> g = d_gap s) -> g <= N.of_nat (length l) ->
  forall ecn now wake room, ecn_ok ecn -> now < 2 ^ 62 -> 600 <= room ->
  (length (sl_items (d_sl s)) <= 33)%nat ->
  exists s2 bytes, poll s (CNew room) ecn now wake = (s2, bytes, false, now) /\
    forall q2 t2, waiting h q2 t2 -> names bytes q2.
Proof.
  intros nb neg s0 h s Hs Hr Hc Hig Ha l g Hd Hne Hl Hg1 Hg2 Hlen2 ecn now wake room He Hnow Hroom Hlen.
  assert (I : dinv h s) by (eapply reach_inv; [exact Hr|exists nb, neg; exact Hs]).
  assert (Hq0 : exists q t, waiting h q t).
  { destruct l as [|q l]; [congruence|]. destruct (Hl q) as (t & Hw); [left; reflexivity|]. exists q, t. exact Hw. }
  destruct Hq0 as (q0 & t0 & Hw0).
  eapply poll_wants; try eassumption.
  destruct (d_ooo s) eqn:Eo; [right; right; left; auto|]. right; right; right; left.
  destruct (above l (d_high s) Hd) as (x & Hx & Hle); [|exact Hne|].
  - intros x Hx. destruct (Hl x Hx) as (t & Hw). destruct (v_ooo _ _ I Hc x t Hw Ha) as [X|X]; [exact X|congruence].
  - destruct (Hl x Hx) as (t & ((fs & Hin & He2) & Hn)).
    pose proof (v_keep _ _ I x fs t Hin Hn) as Hcx.
    destruct (ops_facts _ (v_ops _ _ I)) as (_ & Hwf & _ & _).
    assert (Hne2 : sl_items (d_sl s) <> []) by (eapply waiting_ne; eassumption).
    apply (proj2 (last_covers _ Hwf Hne2)) in Hcx.
    assert (gap_now s = g).
    { unfold gap_now. destruct (d_nb s <? 128) eqn:E; [rewrite Hg1; lia|rewrite Hg2; lia]. }
    lia.
Qed.

(** the end of a stream *)
Lemma decode_fin : forall fs s now s2, decode_frames s fs now = Some s2 ->
  d_fin s = true \/ In FFin fs -> d_fin s2 = true.
Proof.
  induction fs as [|f fs IH]; intros s now s2 H Hf; cbn [decode_frames] in H.
  - apply some_inj in H. subst. destruct Hf as [X|[]]. exact X.
  - match type of H with match ?w with _ => _ end = _ => destruct w as [s1|] eqn:E; [|discriminate] end.
    apply IH in H; [exact H|]. destruct Hf as [X|[->|X]]; [| |right; exact X].
    + left. destruct f; [apply some_inj in E; subst; first [exact X|reflexivity]..| |].
      * unfold immediate_ack in E. destruct fs; [apply some_inj in E; subst; exact X|].
        destruct (d_neg s); [|discriminate]. apply some_inj in E. subst. unfold set_ack_needed.
        destruct (d_needed s); exact X.
      * unfold ack_frequency in E. destruct (negb (d_neg s) || _ || _); [discriminate|].
        destruct (later seq (d_seq s)); apply some_inj in E; subst; exact X.
    + left. apply some_inj in E. subst. reflexivity.
Qed.

Lemma record_fin : forall s pn now, d_fin (record_number s pn now) = d_fin s.
Proof. intros. unfold record_number. destruct (sl_items (d_sl s)); [reflexivity|]. destruct (_ <? pn); reflexivity. Qed.

Lemma receive_fin : forall s pn fs now s2, receive s pn fs now = Some (s2, true) -> In FFin fs -> d_fin s2 = true.
Proof.
  intros s pn fs now s2 H Hin. unfold receive in H.
  destruct (is_pn_already_received (d_sl s) pn) eqn:Ed; [inversion H|].
  destruct (decode_frames s fs now) as [s1|] eqn:Ef; [|discriminate].
  apply some_inj in H. apply (f_equal fst) in H. cbn [fst] in H. subst s2.
  rewrite record_fin. apply decode_fin in Ef; [|right; exact Hin].
  destruct (existsb elicits fs); [|exact Ef]. unfold set_ack_needed. destruct (d_needed s1); exact Ef.
Qed.

Lemma fin_is_acked : forall nb neg s0 h s, start nb neg s0 -> reach s0 h s -> calm h ->
  forall pn fs t s1, pn < 2 ^ 62 -> Forall frame_ok fs -> t < 2 ^ 62 -> recent h t ->
  receive s pn fs t = Some (s1, true) -> In FFin fs -> ~ named h pn ->
  forall ecn now wake room, ecn_ok ecn -> now < 2 ^ 62 -> 600 <= room ->
  (length (sl_items (d_sl s1)) <= 33)%nat ->
  exists s2 bytes, poll s1 (CNew room) ecn now wake = (s2, bytes, false, now) /\ names bytes pn /\
    forall q2 t2, waiting h q2 t2 -> names bytes q2.
Proof.
  intros nb neg s0 h s Hs Hr Hc pn fs t s1 Hpn Hok Ht Hrec H Hfin Hnm ecn now wake room He Hnow Hroom Hlen.
  assert (Hr1 : reach s0 (h ++ [ORecv pn fs t]) s1) by (eapply reach_packet; eassumption).
  assert (I : dinv (h ++ [ORecv pn fs t]) s1) by (eapply reach_inv; [exact Hr1|exists nb, neg; exact Hs]).
  assert (Hw : waiting (h ++ [ORecv pn fs t]) pn t).
  { split.
    - exists fs. split; [apply in_or_app; right; left; reflexivity|]. apply existsb_exists. exists FFin. split; [exact Hfin|reflexivity].
    - intro X. apply named_recv in X. contradiction. }
  assert (Hc1 : calm (h ++ [ORecv pn fs t])).
  { intros b m n t2 Hin. apply in_app_or in Hin. destruct Hin as [Hin|[E|[]]]; [|discriminate]. apply (Hc b m n t2 Hin). }
  destruct (poll_wants _ s1 pn t ecn now wake room I Hc1 Hw He Hnow Hroom Hlen) as (s2 & bytes & E & Hb).
  - right; left. eapply receive_fin; eassumption.
  - exists s2, bytes. split; [exact E|]. split; [apply (Hb pn t Hw)|]. intros q2 t2 ((fs2 & Hin & He2) & Hn).
    apply (Hb q2 t2). split.
    + exists fs2. split; [apply in_or_app; left; exact Hin|exact He2].
    + intro X. apply named_recv in X. contradiction.
Qed.

(** what is named was received *)
Lemma named_received : forall nb neg s0 h s, start nb neg s0 -> reach s0 h s ->
  forall q, named h q -> received h q.
Proof.
  intros nb neg s0 h s Hs H. assert (Hse : exists nb neg, start nb neg s0) by (exists nb, neg; exact Hs).
  induction H as [|h s pn fs now s2 Hr IH Hpn Hok Hnow Hrec H|h s c ecn now wake s2 m w Hr IH He Hnow Hrec H
    |h s c ecn now wake s2 bytes m w Hr IH He Hnow Hrec H Hb|h s a b bytes m n t Hr IH Hin Hrg|h s v s2 Hr IH Hv H]; try assumption.
  - intros q (b & m & n & t & [] & _).
  - intros q Hq. apply named_recv in Hq. destruct (IH q Hq) as (fs2 & t & Hin). exists fs2, t. apply in_or_app. left. exact Hin.
  - intros q Hq. assert (Hup : received h q -> received (h ++ [OFrame bytes m (length (sl_items (d_sl s))) now]) q).
    { intros (fs2 & t & Hin). exists fs2, t. apply in_or_app. left. exact Hin. }
    apply Hup. apply named_frame in Hq. destruct Hq as [Hq|Hq]; [apply IH; exact Hq|].
    pose proof (reach_inv _ _ _ Hr Hse) as I.
    destruct (ops_facts _ (v_ops _ _ I)) as (Hd & Hw & H62 & Hcnt).
    assert (Hwa : exists s1 room mo s3, d_sl s1 = d_sl s /\ write_ack s1 ecn now room = (s3, bytes, mo)).
    { destruct c as [room| |room]; cbn [poll] in H.
      - destruct (256 <? room); [|inversion H; congruence].
        destruct (write_ack s ecn now room) as [[s1 b] mo] eqn:E. inversion H; subst. exists s, room, m, s2. auto.
      - inversion H; congruence.
      - destruct (is_ack_needed s now wake) as [[nd s1] wk] eqn:E. destruct nd; [|inversion H; congruence].
        destruct (write_ack s1 ecn now room) as [[s3 b] mo] eqn:E2. inversion H; subst.
        exists s1, room, m, s2. split; [|exact E2]. apply is_ack_needed_state in E. destruct E as [->| ->]; reflexivity. }
    destruct Hwa as (s1 & room & mo & s3 & Es & E). unfold write_ack in E.
    destruct (format_ack_frame (d_sl s1) false (d_needed s1) ecn None (delay_field s1 now) room) as [[b sl2] mo2] eqn:Ef.
    rewrite Es in Ef.
    apply format_ack_plus in Ef; [|exact Hcnt|exact Hw|exact H62|apply delay_field_small; exact Hnow|exact He].
    destruct Ef as [(-> & _)|(ty & first & blocks & ecns & rs & Hf & Hb2 & Ht & Hrr & Hi & _)]; [inversion E; congruence|].
    destruct b as [|b0 b]; [congruence|]. inversion E; subst bytes; clear E.
    apply (names_iff _ _ _ _ _ _ _ _ Hf Ht Hrr) in Hq. destruct Hq as (x & y & Hin & Hxy). apply Hi in Hin.
    apply (v_recv _ _ I). unfold ranges in Hin. apply in_map_iff in Hin.
    destruct Hin as (it & E2 & Hit). inversion E2; subst. exists it. split; assumption.
Qed.
