(** Lemmas about the times of acknowledgements: all executions keep the
    invariant. *)
From Verif Require Import Base Tac Varint_model Varint_spec Varint_proofs
  Sack_model Sack_spec Sack_proofs Ack_model Ack_spec Ack_proofs Ack2_proofs Delay_model Delay_spec
  Delay_proofs Delay2_proofs.

Lemma forall2_right : forall A B (R : A -> B -> Prop) l l2 y, Forall2 R l l2 -> In y l2 ->
  exists x, In x l /\ R x y.
Proof.
  intros A B R l l2 y H. induction H as [|x z l l2 Hx H IH]; intros Hin; [destruct Hin|].
  destruct Hin as [<-|Hin]; [exists x; split; [left; reflexivity|exact Hx]|].
  destruct (IH Hin) as (w & Hw & Hr). exists w. split; [right; exact Hw|exact Hr].
Qed.

Lemma forall2_left : forall A B (R : A -> B -> Prop) l l2 x, Forall2 R l l2 -> In x l ->
  exists y, In y l2 /\ R x y.
Proof.
  intros A B R l l2 x H. induction H as [|w z l l2 Hx H IH]; intros Hin; [destruct Hin|].
  destruct Hin as [<-|Hin]; [exists z; split; [left; reflexivity|exact Hx]|].
  destruct (IH Hin) as (y & Hw & Hr). exists y. split; [right; exact Hw|exact Hr].
Qed.

Lemma kept_rng : forall rs it it2, kept rs it it2 -> ss it2 = ss it /\ se it2 = se it.
Proof. intros rs it it2 [->|[-> _]]; split; reflexivity. Qed.

Lemma kept_covers : forall rs l l2 q, Forall2 (kept rs) l l2 -> (covers l2 q <-> covers l q).
Proof.
  intros rs l l2 q H. split; intros (it & Hin & Hb).
  - destruct (forall2_right _ _ _ _ _ _ H Hin) as (x & Hx & Hk). apply kept_rng in Hk. exists x. split; [exact Hx|lia].
  - destruct (forall2_left _ _ _ _ _ _ H Hin) as (x & Hx & Hk). apply kept_rng in Hk. exists x. split; [exact Hx|lia].
Qed.

Lemma shiftr_le : forall a e, N.shiftr a e <= a.
Proof. intros a e. rewrite N.shiftr_div_pow2. apply N.div_le_upper_bound; [apply N.pow_nonzero; lia|].
  assert (1 <= 2 ^ e) by (change 1 with (2 ^ 0); apply N.pow_le_mono_r; lia).
  set (k := 2 ^ e) in *. clearbody k. rewrite <- (N.mul_1_l a) at 1. apply N.mul_le_mono_r. exact H.
Qed.

Lemma delay_field_small : forall s now, now < 2 ^ 62 -> delay_field s now < two62.
Proof.
  intros s now H. unfold delay_field. destruct (d_stamp s <? now); [|reflexivity].
  pose proof (shiftr_le (now - d_stamp s) (d_exp s)) as L.
  set (k := N.shiftr (now - d_stamp s) (d_exp s)) in *. clearbody k. change two62 with (2 ^ 62).
  change (2 ^ 62) with 4611686018427387904 in *. lia.
Qed.

(** the ranges that a frame names *)
Lemma names_iff : forall bytes ty largest delay first blocks ecn rs,
  ack_frame ty None largest delay first blocks ecn bytes ->
  ((ty = 2 /\ ecn = []) \/ (ty = 3 /\ length ecn = 3%nat)) ->
  rfc_ranges largest first blocks = Some rs ->
  forall q, names bytes q <-> in_ranges rs q.
Proof.
  intros bytes ty largest delay first blocks ecn rs H Ht Hr q. split.
  - intros (ty2 & l2 & d2 & f2 & b2 & e2 & rs2 & H2 & Ht2 & Hr2 & Hq).
    destruct (ack_frame_unique _ _ _ _ _ _ _ _ _ _ _ _ _ H H2) as (-> & -> & ->).
    rewrite Hr in Hr2. apply some_inj in Hr2. subst rs2. exact Hq.
  - intros Hq. exists ty, largest, delay, first, blocks, ecn, rs. auto.
Qed.

Lemma rfc_blocks_order : forall blocks sm rs, rfc_blocks sm blocks = Some rs -> forall a b, In (a, b) rs -> a <= b.
Proof.
  induction blocks as [|[g l] blocks IH]; intros sm rs H a b Hin; cbn [rfc_blocks] in H.
  - apply some_inj in H. subst rs. destruct Hin.
  - destruct (g + 2 + l <=? sm) eqn:E; [|discriminate].
    destruct (rfc_blocks (sm - g - 2 - l) blocks) as [rs'|] eqn:E2; [|discriminate].
    apply some_inj in H. subst rs. destruct Hin as [Hin|Hin].
    + inversion Hin; subst. lia.
    + eapply IH; eassumption.
Qed.

Lemma has_range_named : forall bytes a b, has_range bytes a b ->
  a <= b /\ forall q, a <= q <= b -> names bytes q.
Proof.
  intros bytes a b (ty & largest & delay & first & blocks & ecn & rs & H & Ht & Hr & Hin). split.
  - unfold rfc_ranges in Hr. destruct (first <=? largest) eqn:E; [|discriminate].
    destruct (rfc_blocks (largest - first) blocks) as [rs'|] eqn:E2; [|discriminate].
    apply some_inj in Hr. subst rs. destruct Hin as [Hin|Hin].
    + inversion Hin; subst. lia.
    + eapply rfc_blocks_order; eassumption.
  - intros q Hq. exists ty, largest, delay, first, blocks, ecn, rs.
    refine (conj H (conj Ht (conj Hr _))). exists a, b. split; assumption.
Qed.

Lemma ops_sents : forall ops sents, Forall op62 ops -> Forall is_sent sents -> Forall op62 (ops ++ sents).
Proof.
  intros ops sents H1 H2. apply Forall_app. split; [exact H1|]. eapply Forall_impl; [|exact H2].
  intros [a b t|a b|r k] Hs; cbn [is_sent op62] in *; tauto.
Qed.

Definition is_short (s : dly) (ecn : option (N * N * N)) (now room : N) : Prop :=
  sl_items (d_sl s) = [] \/ d_needed s = false \/ room < 600.

Lemma write_ack_spec : forall h s ecn now room s2 bytes m, dinv h s ->
  ecn_ok ecn -> now < 2 ^ 62 ->
  write_ack s ecn now room = (s2, bytes, m) ->
  (bytes = [] /\ s2 = s /\ is_short s ecn now room) \/
  (bytes <> [] /\ dinv (h ++ [OFrame bytes m (length (sl_items (d_sl s))) now]) s2 /\
   (600 <= room -> m = false) /\
   (m = false -> (length (sl_items (d_sl s)) <= 33)%nat -> forall q t, waiting h q t -> names bytes q)).
Proof.
  intros h s ecn now room s2 bytes m I He Hnow H. unfold write_ack in H.
  destruct I as [Iops Ismall Istamp Ioldest Isent Ikeep Ine Ihigh Ihigh0 Ihigh1 Ilast Icov Iold Ineed Iooo Irecv].
  destruct (ops_facts _ Iops) as (Hd & Hw & H62 & Hcnt).
  destruct (format_ack_frame (d_sl s) false (d_needed s) ecn None (delay_field s now) room) as [[b sl2] mo] eqn:Ef.
  pose proof (format_ack_frame_history _ _ _ _ _ _ _ _ _ _ Ef) as (sents & Hsent & Esl).
  apply format_ack_plus in Ef; [|exact Hcnt|exact Hw|exact H62|apply delay_field_small; exact Hnow|exact He].
  destruct Ef as [(-> & -> & Hs)|(ty & first & blocks & ecns & rs & Hf & Hb & Ht & Hr & Hi & Hne & Hk & Hl & Hall & Hm)].
  - inversion H; subst. left. split; [reflexivity|]. split; [reflexivity|].
    unfold is_short. destruct Hs as [[Hs|Hs]|Hs]; auto.
  - right. destruct b as [|b0 b]; [congruence|]. inversion H; subst bytes s2 m; clear H.
    split; [discriminate|].
    set (bytes := b0 :: b) in *.
    pose proof (names_iff _ _ _ _ _ _ _ _ Hf Ht Hr) as Hnm.
    set (fr := OFrame bytes mo (length (sl_items (d_sl s))) now) in *.
    assert (Hall2 : mo = false -> (length (sl_items (d_sl s)) <= 33)%nat -> forall q t, waiting h q t -> names bytes q).
    { intros Hmo Hlen q t ((fs & Hin & Hel) & Hn). apply Hnm.
      destruct (Ikeep q fs t Hin Hn) as (it & Hit & Hq).
      assert (Hz : nb0 it = 0).
      { destruct (N.eq_dec (nb0 it) 0) as [Z|Z]; [exact Z|]. exfalso. apply Hn. apply (Isent it q Hit Z Hq). }
      exists (ss it), (se it). split; [|exact Hq]. apply (Hall Hmo Hlen it Hit Hz). }
    split; [|split; [exact Hm|exact Hall2]].
    assert (Htop : names bytes (sack_list_last (d_sl s))).
    { apply Hnm. apply rfc_ranges_top in Hr. exact Hr. }
    assert (Hne2 : sl_items sl2 <> []).
    { intro E. rewrite E in Hk. inversion Hk as [X|]. symmetry in X. contradiction. }
    assert (Hno : forall q t, calm (h ++ [fr]) -> ~ waiting (h ++ [fr]) q t).
    { intros q t Hc ((fs & Hin & Hel) & Hn). apply in_app_or in Hin. destruct Hin as [Hin|[E|[]]]; [|discriminate].
      apply Hn. apply named_this. destruct (Hc bytes mo (length (sl_items (d_sl s))) now) as [Hmo Hlen].
      { apply in_or_app. right. left. reflexivity. }
      apply (Hall2 Hmo Hlen q t). split; [exists fs; split; assumption|].
      intro X. apply Hn. apply named_snoc. exact X. }
    constructor; cbn [d_sl d_gap d_delay d_stamp d_oldest d_high d_needed d_ooo]; try assumption.
    + destruct Iops as (ops & Ho & Es). exists (ops ++ sents). split; [apply ops_sents; assumption|].
      unfold sack_run. rewrite fold_left_app. fold (sack_run 0 ops). rewrite <- Es. exact Esl.
    + intros it2 q Hin Hz Hq. destruct (forall2_right _ _ _ _ _ _ Hk Hin) as (it & Hit & Hkk).
      destruct Hkk as [->|[-> Hrs]].
      * apply named_snoc. apply (Isent it q Hit Hz Hq).
      * apply named_this. apply Hnm. exists (ss it), (se it). split; [exact Hrs|exact Hq].
    + intros q fs t Hin Hn. apply (kept_covers _ _ _ _ Hk). apply in_app_or in Hin. destruct Hin as [Hin|[E|[]]]; [|discriminate].
      apply (Ikeep q fs t Hin). intro X. apply Hn. apply named_snoc. exact X.
    + intros _. exact Hne2.
    + intros q Hq. rewrite Hl. apply named_frame in Hq. destruct Hq as [Hq|Hq].
      * specialize (Ihigh q Hq). lia.
      * apply Hnm in Hq. destruct Hq as (x & y & Hin & Hxy). apply Hi in Hin.
        apply (proj2 (last_covers _ Hw Hne)). unfold ranges in Hin. apply in_map_iff in Hin.
        destruct Hin as (it & E & Hit). inversion E; subst. exists it. split; assumption.
    + right. rewrite Hl. apply named_this. exact Htop.
    + intros _. rewrite Hl. apply named_this. exact Htop.
    + lia.
    + intros _. right. intros q Hq. lia.
    + discriminate.
    + intros Hc q t Hwt. destruct (Hno q t Hc Hwt).
    + intros Hc q t Hwt. destruct (Hno q t Hc Hwt).
    + intros q Hq. apply (kept_covers _ _ _ _ Hk) in Hq. destruct (Irecv q Hq) as (fs & t & Hin).
      exists fs, t. apply in_or_app. left. exact Hin.
Qed.

Lemma clear_fin_inv : forall h s, dinv h s -> dinv h (clear_fin s).
Proof.
  intros h s [Iops Ismall Istamp Ioldest Isent Ikeep Ine Ihigh Ihigh0 Ihigh1 Ilast Icov Iold Ineed Iooo Irecv].
  constructor; assumption.
Qed.

Lemma is_ack_needed_state : forall s now wake b s1 w, is_ack_needed s now wake = (b, s1, w) -> s1 = s \/ s1 = clear_fin s.
Proof.
  intros s now wake b s1 w H. unfold is_ack_needed in H.
  destruct (d_needed s).
  - destruct (d_imm s); [inversion H; auto|]. destruct (d_fin s); [inversion H; auto|].
    destruct (d_ooo s && negb (d_ignore s)); [inversion H; auto|].
    destruct (_ || _); inversion H; auto.
  - destruct (_ && _); inversion H; auto.
Qed.

Lemma poll_spec : forall h s c ecn now wake s2 bytes m w, dinv h s ->
  ecn_ok ecn -> now < 2 ^ 62 ->
  poll s c ecn now wake = (s2, bytes, m, w) ->
  (bytes = [] /\ dinv h s2) \/
  (bytes <> [] /\ dinv (h ++ [OFrame bytes m (length (sl_items (d_sl s))) now]) s2 /\
   (m = false -> (length (sl_items (d_sl s)) <= 33)%nat -> forall q t, waiting h q t -> names bytes q)).
Proof.
  intros h s c ecn now wake s2 bytes m w I He Hnow H. destruct c as [room| |room]; cbn [poll] in H.
  - destruct (256 <? room); [|inversion H; subst; left; auto].
    destruct (write_ack s ecn now room) as [[s1 b] mo] eqn:E. inversion H; subst; clear H.
    apply (write_ack_spec h) in E; try assumption. destruct E as [(-> & -> & _)|(A & B & C & D)]; [left; auto|right; auto].
  - inversion H; subst. left; auto.
  - destruct (is_ack_needed s now wake) as [[nd s1] wk] eqn:E.
    assert (I1 : dinv h s1 /\ d_sl s1 = d_sl s).
    { apply is_ack_needed_state in E. destruct E as [->| ->]; split; try reflexivity; [exact I|apply clear_fin_inv; exact I]. }
    destruct I1 as [I1 E1].
    destruct nd; [|inversion H; subst; left; auto].
    destruct (write_ack s1 ecn now room) as [[s3 b] mo] eqn:E2. inversion H; subst; clear H.
    apply (write_ack_spec h) in E2; try assumption. rewrite E1 in E2.
    destruct E2 as [(-> & -> & _)|(A & B & C & D)]; [left; auto|right; auto].
Qed.

Lemma ack_of_ack_inv : forall h s a b bytes m n t, dinv h s ->
  In (OFrame bytes m n t) h -> has_range bytes a b -> dinv h (ack_of_ack s a b).
Proof.
  intros h s a b bytes m n t I Hin Hr.
  destruct I as [Iops Ismall Istamp Ioldest Isent Ikeep Ine Ihigh Ihigh0 Ihigh1 Ilast Icov Iold Ineed Iooo Irecv].
  destruct (ops_facts _ Iops) as (Hd & Hw & H62 & Hcnt).
  apply has_range_named in Hr. destruct Hr as [Hab Hnm].
  assert (Hnamed : forall q, a <= q <= b -> named h q).
  { intros q Hq. exists bytes, m, n, t. split; [exact Hin|apply Hnm; exact Hq]. }
  assert (Hb : b <= d_high s) by (apply Ihigh; apply Hnamed; lia).
  destruct (ack_of_ack_items (sl_items (d_sl s)) (sl_rc (d_sl s)) (sl_delay (d_sl s)) a b) as [l2 c2] eqn:E.
  assert (Hsl : process_ack_of_ack_range (d_sl s) a b = mk_sl l2 (sl_horizon (d_sl s)) (sl_delay (d_sl s)) c2).
  { unfold process_ack_of_ack_range. rewrite E. reflexivity. }
  rewrite Hd in E. pose proof (ack_of_ack_sub _ _ _ _ _ _ Hw Hab E) as Hsub.
  apply ack_of_ack_items_spec in E; [|exact Hw|exact Hab].
  destruct E as (W2 & S1 & S2 & S3).
  assert (Hne : sl_items (d_sl s) <> []).
  { apply Ine. intro X. rewrite X in Hin. destruct Hin. }
  destruct (last_covers _ Hw Hne) as [Hl1 Hl2].
  pose proof (S3 _ Hl1 Hl2) as Hl3.
  assert (Hlast : sack_list_last (process_ack_of_ack_range (d_sl s) a b) = sack_list_last (d_sl s)).
  { rewrite Hsl. apply last_max; [exact W2|exact Hl3|]. intros q Hq. apply Hl2. apply S1. exact Hq. }
  constructor; cbn [ack_of_ack d_sl d_gap d_delay d_stamp d_oldest d_high d_needed d_ooo]; try assumption.
  - destruct Iops as (ops & Ho & Es). exists (ops ++ [OpAckOfAck a b]). split.
    + apply Forall_app. split; [exact Ho|]. constructor; [exact Hab|constructor].
    + rewrite run_snoc. cbn [sack_step]. rewrite Es. reflexivity.
  - intros it q Hit Hz Hq. rewrite Hsl in Hit. cbn [sl_items] in Hit.
    destruct (Hsub it Hit) as (it0 & H0 & L1 & L2 & Ez). apply (Isent it0 q H0); [congruence|lia].
  - intros q fs t2 Hq Hn. rewrite Hsl. cbn [sl_items]. apply S2; [apply (Ikeep q fs t2 Hq Hn)|].
    destruct (N.lt_ge_cases q a) as [L|L]; [left; exact L|].
    destruct (N.lt_ge_cases b q) as [L2|L2]; [right; exact L2|].
    exfalso. apply Hn. apply Hnamed. lia.
  - intros _. rewrite Hsl. cbn [sl_items]. intro X. rewrite X in Hl3. destruct (covers_nil _ Hl3).
  - rewrite Hlast. exact Ilast.
  - intros Hf. destruct (Icov Hf) as [X|X]; [left; exact X|]. right. intros q Hq. rewrite Hlast in Hq.
    rewrite Hsl. cbn [sl_items]. apply S2; [apply X; exact Hq|]. right. lia.
  - intros q Hq. rewrite Hsl in Hq. cbn [sl_items] in Hq. apply Irecv. apply S1. exact Hq.
Qed.

(** ** The values chosen without ACK_FREQUENCY *)
Lemma u64_lt : forall x, u64 x < 18446744073709551616.
Proof. intro x. unfold u64, two64. apply N.mod_lt. discriminate. Qed.

Lemma u64_le : forall x, u64 x <= x.
Proof. intro x. unfold u64. apply N.mod_le. discriminate. Qed.

Lemma div_le : forall a b, a / b <= a.
Proof. intros a b. destruct (N.eq_dec b 0) as [->|H]; [destruct a; cbn; lia|].
  apply N.div_le_upper_bound; [exact H|]. rewrite <- (N.mul_1_l a) at 1. apply N.mul_le_mono_r. lia. Qed.

Lemma packets_bound : forall v rate nb, v_neg v = false -> packets_in_window v rate = Some nb ->
  2 <= nb /\ nb < 20000000000000.
Proof.
  intros v rate nb Hn H. unfold packets_in_window in H. rewrite Hn in H.
  destruct (v_mtu v =? 0) eqn:E; [discriminate|]. apply some_inj in H.
  pose proof (u64_lt (u64 (rate * v_srtt v) / v_mtu v + 999999)) as L.
  set (x := u64 (u64 (rate * v_srtt v) / v_mtu v + 999999)) in *. clearbody x.
  assert (x / 1000000 < 20000000000000).
  { apply N.div_lt_upper_bound; [discriminate|]. lia. }
  set (y := x / 1000000) in *. clearbody y. destruct (y <? 2) eqn:E2; lia.
Qed.

Lemma delay_max_bound : forall v rtt rm, rm <= 10000 -> rm <= compute_ack_delay_max v rtt rm <= 10000.
Proof.
  intros v rtt rm H. unfold compute_ack_delay_max, ack_delay_max.
  set (d := if negb (v_neg v) && negb (v_ss v) then rtt / 4 / 2 else rtt / 4). clearbody d.
  destruct (10000 <? d) eqn:E; [destruct (10000 <? rm) eqn:E2; lia|]. destruct (d <? rm) eqn:E2; lia.
Qed.

Lemma gap_bound : forall v rate nb, v_neg v = false -> 2 <= compute_ack_gap v rate nb <= 64.
Proof.
  intros v rate nb Hn. unfold compute_ack_gap.
  set (nbx := if v_rttmin v <? 4 * ack_delay_min then _ else _). clearbody nbx.
  set (g := u64 (nbx + 3) / 4). clearbody g.
  set (gm := if 2000000 <? rate then if 100000 <? v_rttmin v then 10 else 4 else 2).
  assert (2 <= gm <= 10) by (unfold gm; destruct (_ <? rate); [destruct (_ <? v_rttmin v)|]; lia).
  clearbody gm. destruct (g <? gm) eqn:E1; [lia|]. destruct (32 <? g) eqn:E2; [|lia].
  destruct (v_few v); [lia|].
  set (x := u64 (32 + u64 (nbx + two64 - 128) / 8)). 
  assert (32 <= x).
  { unfold x. pose proof (u64_lt (nbx + two64 - 128)) as L. set (y := u64 (nbx + two64 - 128)) in *. clearbody y.
    assert (y / 8 < 2305843009213693953) by (apply N.div_lt_upper_bound; [discriminate|]; lia).
    set (z := y / 8) in *. clearbody z. rewrite u64_small by (unfold two64; lia). lia. }
  clearbody x. destruct (64 <? x) eqn:E3; lia.
Qed.

Lemma tuned_bounds : forall v rtt rm rate, v_neg v = false -> 0 < v_mtu v -> 1 <= rm -> rm <= 10000 ->
  exists g d, compute_gap_and_delay v rtt rm rate = Some (g, d) /\
    1 <= g < 20000000000001 /\ rm <= d <= 10000.
Proof.
  intros v rtt rm rate Hn Hm H1 Hrm. unfold compute_gap_and_delay.
  destruct (packets_in_window v rate) as [nb|] eqn:E.
  2:{ unfold packets_in_window in E. replace (v_mtu v =? 0) with false in E by (symmetry; apply N.eqb_neq; lia). discriminate. }
  apply packets_bound in E; [|exact Hn].
  pose proof (delay_max_bound v rtt rm Hrm) as Hd. pose proof (gap_bound v rate nb Hn) as Hg.
  set (d := compute_ack_delay_max v rtt rm) in *. clearbody d.
  set (g := compute_ack_gap v rate nb) in *. clearbody g.
  assert (Hfix : forall g0 d0, 1 <= g0 < 20000000000001 -> rm <= d0 <= 10000 ->
    exists g d, Some (let '(x, y) := (g0, d0) in ((if (v_rttmin v <? u64 (y * 4)) && (32 <? x) then 32 else x), y)) = Some (g, d) /\
    1 <= g < 20000000000001 /\ rm <= d <= 10000).
  { intros g0 d0 A B. destruct (_ && _); eexists _, _; (split; [reflexivity|]); lia. }
  cbv zeta.
  destruct (u64 (3 * v_rttmin v) <? u64 (2 * v_srtt v)); [|apply Hfix; lia].
  set (back := if v_neg v then v_rcvmax v else v_bw v). clearbody back.
  destruct (0 <? back); [|apply Hfix; lia].
  set (at_ := 115000000 / back). clearbody at_.
  set (d2 := if d <? at_ then if ack_delay_max <? at_ then ack_delay_max else at_ else d).
  assert (Hd2 : rm <= d2 <= 10000).
  { unfold d2, ack_delay_max. destruct (d <? at_) eqn:E1; [|lia]. destruct (10000 <? at_) eqn:E2; lia. }
  clearbody d2.
  set (nbx := if v_ss v then if nb <? 2 then 2 else nb else (if nb <? 2 then 2 else nb) / 2).
  assert (Hnbx : 1 <= nbx <= nb).
  { unfold nbx. replace (nb <? 2) with false by (symmetry; apply N.ltb_ge; lia). destruct (v_ss v); [lia|].
    split; [apply N.div_le_lower_bound; lia|apply div_le]. }
  clearbody nbx.
  destruct (u64 (v_srtt v + v_rttmin v) / 2 <? _); [|apply Hfix; lia].
  replace (d2 =? 0) with false by (symmetry; apply N.eqb_neq; lia).
  destruct (v_srtt v / d2 <=? 1) eqn:E1; [apply Hfix; lia|].
  set (most := v_srtt v / d2) in *. clearbody most.
  assert (Hle : u64 (nbx + most - 1) / most <= nb + 1).
  { apply N.div_le_upper_bound; [lia|]. pose proof (u64_le (nbx + most - 1)) as L.
    set (z := u64 (nbx + most - 1)) in *. clearbody z.
    assert (nbx <= most * nb).
    { apply N.le_trans with (1 * nb); [lia|]. apply N.mul_le_mono_r. lia. }
    rewrite N.mul_add_distr_l, N.mul_1_r. lia. }
  set (least := u64 (nbx + most - 1) / most) in *. clearbody least.
  apply Hfix; [|lia]. destruct (g <? least) eqn:E2; lia.
Qed.

Lemma tune_spec : forall s v s2, tune s v = Some s2 ->
  s2 = s \/ (d_neg s = false /\ exists g d, s2 = mk_dly (d_needed s) (d_fin s) (d_ooo s) (d_imm s) (d_oldest s) (d_high s) (d_high_time s) (d_stamp s)
         (d_sl s) (d_nb s) g d (d_ignore s) (d_seq s) (d_neg s) (d_min s) (d_exp s) (d_max s) /\
         compute_gap_and_delay v (v_rttmin v) ack_delay_min (v_rcvmax v) = Some (g, d)).
Proof.
  intros s v s2 H. unfold tune in H. destruct (d_neg s) eqn:En; [apply some_inj in H; left; congruence|].
  destruct (compute_gap_and_delay v (v_rttmin v) ack_delay_min (v_rcvmax v)) as [[g d]|] eqn:E; [|discriminate].
  apply some_inj in H. right. split; [reflexivity|]. exists g, d. split; [rewrite <- H; reflexivity|reflexivity].
Qed.
