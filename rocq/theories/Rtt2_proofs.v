(** Proofs about the retransmission delay. *)
From Verif Require Import Base Tac Rtt_model Rtt_spec Rtt_proofs.

Lemma mul_u64 t k : t * 288 < two64 -> k <= 288 -> u64 (t * k) = t * k.
Proof.
  intros H1 H2. apply u64_small. eapply N.le_lt_trans; [ | exact H1]. apply N.mul_le_mono_l. exact H2.
Qed.

(** One line of the table of factors. *)
Lemma step_factor t n1 k r f : t * 288 < two64 -> 2 ^ (2 + n1 / 4) = 4 * k -> N.land n1 3 = r -> k <= 16 -> r <= 3 -> f = k * (4 + r) ->
  (let r1 := u64 (N.shiftl t (2 + n1 / 4)) in u64 (r1 + N.shiftr (u64 (N.land n1 3 * r1)) 2)) = t * f.
Proof.
  intros Ht Hq Hr Hk Hr3 ->. rewrite Hr. cbv zeta.
  rewrite N.shiftl_mul_pow2, Hq. rewrite (mul_u64 t (4 * k) Ht) by lia.
  assert (Hkr : k * r <= 16 * 3) by (apply N.mul_le_mono; assumption).
  assert (E1 : r * (t * (4 * k)) = t * (k * r * 4)).
  { rewrite (N.mul_comm r), <- N.mul_assoc. f_equal. rewrite <- (N.mul_comm r), N.mul_assoc, (N.mul_comm r 4), <- N.mul_assoc, (N.mul_comm r k). lia. }
  rewrite E1. rewrite (mul_u64 t (k * r * 4) Ht) by lia.
  rewrite N.shiftr_div_pow2. change (2 ^ 2) with 4. rewrite (N.mul_assoc t (k * r) 4), N.div_mul by discriminate.
  rewrite <- N.mul_add_distr_l. replace (4 * k + k * r) with (k * (4 + r)) by (rewrite N.mul_add_distr_l; lia).
  apply mul_u64; [exact Ht | ]. rewrite N.mul_add_distr_l. lia.
Qed.

Lemma factor_large n : 20 <= n -> factor n = 96.
Proof.
  intros H. unfold factor. apply nth_overflow. cbn [length]. lia.
Qed.

Lemma factor_exact t n : t * 288 < two64 -> 0 < n ->
  (if n <? 3 then u64 (N.shiftl t n)
    else let n1 := if 18 <? n - 2 then 18 else n - 2 in
         let r1 := u64 (N.shiftl t (2 + n1 / 4)) in u64 (r1 + N.shiftr (u64 (N.land n1 3 * r1)) 2)) = t * factor n.
Proof.
  intros Ht Hn.
  assert (Hc : n = 1 \/ n = 2 \/ n = 3 \/ n = 4 \/ n = 5 \/ n = 6 \/ n = 7 \/ n = 8 \/ n = 9 \/ n = 10 \/ n = 11 \/ n = 12 \/
    n = 13 \/ n = 14 \/ n = 15 \/ n = 16 \/ n = 17 \/ n = 18 \/ n = 19 \/ 20 <= n) by lia.
  destruct Hc as [-> | [-> | Hc]].
  - change (1 <? 3) with true. cbv iota. rewrite N.shiftl_mul_pow2. apply mul_u64; [exact Ht | vm_compute; discriminate].
  - change (2 <? 3) with true. cbv iota. rewrite N.shiftl_mul_pow2. apply mul_u64; [exact Ht | vm_compute; discriminate].
  - assert (H3 : (n <? 3) = false) by (clear Ht; lia). rewrite H3. cbv zeta. cbv iota.
    set (n1 := if 18 <? n - 2 then 18 else n - 2).
    assert (H1 : n1 = N.min (n - 2) 18) by (unfold n1; clear Ht; destruct (18 <? n - 2) eqn:E; lia).
    clearbody n1.
    apply (step_factor t n1 (2 ^ (2 + n1 / 4) / 4) (N.land n1 3) (factor n) Ht); [ | reflexivity | | | ].
    all: subst n1; clear Ht; repeat (destruct Hc as [-> | Hc]; [vm_compute; (reflexivity || discriminate) | ]).
    all: replace (N.min (n - 2) 18) with 18 by lia.
    all: try (vm_compute; (reflexivity || discriminate)).
    rewrite (factor_large n Hc). reflexivity.
Qed.

Lemma backoff_exact t n idle : t * 288 < two64 -> 0 < n ->
  backoff_timer t n idle = (if 15 <? idle then N.min (idle / 16) (t * factor n) else t * factor n).
Proof.
  intros Ht Hn. unfold backoff_timer. replace (0 <? n) with true by (clear Ht; lia).
  pose proof (factor_exact t n Ht Hn) as F. cbv zeta in F |- *. rewrite F. rewrite N.shiftr_div_pow2. change (2 ^ 4) with 16.
  destruct (15 <? idle); [ | reflexivity]. clear Ht. set (x := t * factor n). clearbody x.
  destruct (idle / 16 <? x) eqn:E; lia.
Qed.

Lemma factor_mono n m : n <= m -> factor n <= factor m.
Proof.
  intros H. destruct (N.le_gt_cases 20 m) as [Hm | Hm].
  - rewrite (factor_large m Hm). destruct (N.le_gt_cases 20 n) as [Hn | Hn]; [rewrite (factor_large n Hn); lia | ].
    assert (Hall : forallb (fun k => factor (N.of_nat k) <=? 96) (seq 0 20) = true) by (vm_compute; reflexivity).
    rewrite forallb_forall in Hall. specialize (Hall (N.to_nat n)). rewrite N2Nat.id in Hall.
    apply N.leb_le, Hall. apply in_seq. lia.
  - assert (Hall : forallb (fun k => forallb (fun j => negb (j <=? k)%nat || (factor (N.of_nat j) <=? factor (N.of_nat k))) (seq 0 20)) (seq 0 20) = true) by (vm_compute; reflexivity).
    rewrite forallb_forall in Hall. specialize (Hall (N.to_nat m) ltac:(apply in_seq; lia)).
    rewrite forallb_forall in Hall. specialize (Hall (N.to_nat n) ltac:(apply in_seq; lia)).
    rewrite !N2Nat.id in Hall. apply orb_prop in Hall. destruct Hall as [Hall | Hall]; [ | apply N.leb_le; exact Hall].
    apply negb_true_iff, Nat.leb_gt in Hall. lia.
Qed.

Lemma factor_strict n : n < 20 -> factor n < factor (n + 1).
Proof.
  intros H.
  assert (Hall : forallb (fun k => factor (N.of_nat k) <? factor (N.of_nat k + 1)) (seq 0 20) = true) by (vm_compute; reflexivity).
  rewrite forallb_forall in Hall. specialize (Hall (N.to_nat n) ltac:(apply in_seq; lia)).
  rewrite N2Nat.id in Hall. apply N.ltb_lt. exact Hall.
Qed.

(** The cap on an established connection, as a function of the delay before it. *)
Lemma ready_cap p r : rt_smoothed p * 3 < two64 -> regular p ->
  (if 2000000 <? r then
    let alt := if 610000 <? rt_min p then N.shiftr (u64 (rt_smoothed p * 3)) 1 else 2000000 in
    (if alt <? r then alt else r)
  else r) = N.min r (if 610000 <? rt_min p then rt_smoothed p * 3 / 2 else 2000000).
Proof.
  intros Hs Hr. rewrite (u64_small _ Hs), N.shiftr_div_pow2. change (2 ^ 1) with 2. cbv zeta. unfold regular in Hr.
  set (a := rt_smoothed p * 3 / 2) in *. clearbody a.
  destruct (610000 <? rt_min p) eqn:E1.
  - destruct (2000000 <? r) eqn:E2; [destruct (a <? r) eqn:E3; lia | lia].
  - destruct (2000000 <? r) eqn:E2; lia.
Qed.

Lemma timer_ready p nb idle mi : rt_smoothed p * 3 < two64 -> regular p ->
  current_timer p nb idle false mi =
  Some (N.min (backoff_timer (rt_timer p) nb idle) (if 610000 <? rt_min p then rt_smoothed p * 3 / 2 else 2000000)).
Proof.
  intros Hs Hr. unfold current_timer.
  pose proof (ready_cap p (backoff_timer (rt_timer p) nb idle) Hs Hr) as H. cbv zeta in H |- *.
  rewrite <- H. destruct (2000000 <? backoff_timer (rt_timer p) nb idle); reflexivity.
Qed.

(** On an established connection the delay never shrinks from one timeout to the
    next. *)
Lemma delay_grows p idle mi n m a b : rt_smoothed p * 3 < two64 -> rt_timer p * 288 < two64 -> regular p ->
  (0 < n \/ idle <= 15 \/ rt_timer p <= idle / 16) -> n <= m ->
  current_timer p n idle false mi = Some a -> current_timer p m idle false mi = Some b -> a <= b.
Proof.
  intros Hs Ht Hr Hn Hnm Ha Hb. rewrite (timer_ready _ _ _ _ Hs Hr) in Ha. rewrite (timer_ready _ _ _ _ Hs Hr) in Hb.
  apply some_inj in Ha. apply some_inj in Hb. subst a b.
  apply N.min_le_compat_r.
  destruct (N.eq_dec m 0) as [-> | Hm0]; [replace n with 0 by (clear - Hnm; lia); lia | ].
  rewrite (backoff_exact _ m _ Ht) by (clear - Hm0; lia).
  assert (Hf : rt_timer p * factor n <= rt_timer p * factor m) by (apply N.mul_le_mono_l, factor_mono; exact Hnm).
  destruct (N.eq_dec n 0) as [-> | Hn0].
  - change (backoff_timer (rt_timer p) 0 idle) with (rt_timer p). change (factor 0) with 1 in Hf.
    set (x := rt_timer p * factor m) in *. clearbody x. clear Ht Hs.
    destruct (15 <? idle) eqn:Ei; lia.
  - rewrite (backoff_exact _ n _ Ht) by (clear - Hn0; lia).
    set (x := rt_timer p * factor m) in *. set (y := rt_timer p * factor n) in *. clearbody x y. clear Ht Hs.
    destruct (15 <? idle) eqn:Ei; lia.
Qed.

(** It grows strictly until its cap or the twentieth timeout. *)
Lemma delay_strict p idle mi n a b : rt_smoothed p * 3 < two64 -> rt_timer p * 288 < two64 -> regular p ->
  0 < rt_timer p -> 0 < n < 20 ->
  current_timer p n idle false mi = Some a -> current_timer p (n + 1) idle false mi = Some b ->
  a < b \/ b = delay_cap p idle.
Proof.
  intros Hs Ht Hr Hp Hn Ha Hb. rewrite (timer_ready _ _ _ _ Hs Hr) in Ha. rewrite (timer_ready _ _ _ _ Hs Hr) in Hb.
  apply some_inj in Ha. apply some_inj in Hb. subst a b. unfold delay_cap.
  rewrite (backoff_exact _ n _ Ht) by (clear - Hn; lia). rewrite (backoff_exact _ (n + 1) _ Ht) by (clear - Hn; lia).
  assert (Hf : rt_timer p * factor n < rt_timer p * factor (n + 1)) by (apply N.mul_lt_mono_pos_l; [exact Hp | apply factor_strict; apply Hn]).
  set (x := rt_timer p * factor n) in *. set (y := rt_timer p * factor (n + 1)) in *.
  set (c := if 610000 <? rt_min p then _ else _). clearbody x y c. clear Ht Hs.
  destruct (15 <? idle) eqn:Ei; lia.
Qed.

(** Its cap, for any estimates. *)
Lemma delay_capped p idle mi n a : rt_smoothed p * 3 < two64 -> rt_timer p * 288 < two64 -> 0 < n ->
  current_timer p n idle false mi = Some a ->
  a <= 2000000 \/ (610000 < rt_min p /\ a <= rt_smoothed p * 3 / 2).
Proof.
  intros Hs Ht Hn. unfold current_timer. cbv zeta. rewrite (u64_small _ Hs), N.shiftr_div_pow2. change (2 ^ 1) with 2.
  set (r := backoff_timer _ _ _). clearbody r.
  destruct (2000000 <? r) eqn:E1; intros H; apply some_inj in H; subst a; [ | lia].
  destruct (610000 <? rt_min p) eqn:E2.
  - right. split; [lia | ]. set (x := rt_smoothed p * 3 / 2). clearbody x. destruct (x <? r) eqn:E3; lia.
  - left. destruct (2000000 <? r) eqn:E3; lia.
Qed.

Lemma idle_capped p idle mi n a : rt_timer p * 288 < two64 -> 0 < n -> 15 < idle ->
  current_timer p n idle false mi = Some a -> a <= idle / 16.
Proof.
  intros Ht Hn Hi. unfold current_timer. cbv zeta.
  assert (Hr : backoff_timer (rt_timer p) n idle <= idle / 16).
  { rewrite (backoff_exact _ _ _ Ht Hn). replace (15 <? idle) with true by (clear - Hi; lia). lia. }
  set (r := backoff_timer _ _ _) in *. clearbody r. set (alt := if 610000 <? _ then _ else _). clearbody alt.
  clear Ht. destruct (2000000 <? r) eqn:E1; intros H; apply some_inj in H; subst a; [ | exact Hr].
  destruct (alt <? r) eqn:E2; lia.
Qed.

(** During the handshake. *)
Lemma handshake_delay p idle mi n : mi <= 30000 -> exists a, current_timer p n idle true mi = Some a /\ a <= 1000000.
Proof.
  intros Hm. unfold current_timer. replace (30000 <? mi) with false by lia.
  eexists. split; [reflexivity | ]. destruct (1000000 <? _) eqn:E; lia.
Qed.

Lemma handshake_grows p idle mi n m a b : rt_timer p * 288 < two64 -> mi <= 30000 ->
  (0 < n \/ idle <= 15 \/ N.min 1000000 (rt_timer p) <= idle / 16) -> n <= m ->
  current_timer p n idle true mi = Some a -> current_timer p m idle true mi = Some b -> a <= b.
Proof.
  intros Ht Hmi Hn Hnm. unfold current_timer. replace (30000 <? mi) with false by lia.
  intros Ha Hb. apply some_inj in Ha, Hb.
  assert (Hc : N.min (backoff_timer (rt_timer p) n idle) 1000000 <= N.min (backoff_timer (rt_timer p) m idle) 1000000).
  { destruct (N.eq_dec m 0) as [-> | Hm0]; [replace n with 0 by (clear - Hnm; lia); lia | ].
    rewrite (backoff_exact _ m _ Ht) by (clear - Hm0; lia).
    assert (Hf : rt_timer p * factor n <= rt_timer p * factor m) by (apply N.mul_le_mono_l, factor_mono; exact Hnm).
    destruct (N.eq_dec n 0) as [-> | Hn0].
    - change (backoff_timer (rt_timer p) 0 idle) with (rt_timer p). change (factor 0) with 1 in Hf.
      set (x := rt_timer p * factor m) in *. clearbody x. clear Ht Ha Hb.
      destruct (15 <? idle) eqn:Ei; lia.
    - rewrite (backoff_exact _ n _ Ht) by (clear - Hn0; lia).
      set (x := rt_timer p * factor m) in *. set (y := rt_timer p * factor n) in *. clearbody x y. clear Ht Ha Hb.
      destruct (15 <? idle) eqn:Ei; lia. }
  set (x := backoff_timer (rt_timer p) n idle) in *. set (y := backoff_timer (rt_timer p) m idle) in *. clearbody x y. clear Ht.
  subst a b. destruct (1000000 <? x) eqn:E1, (1000000 <? y) eqn:E2; lia.
Qed.

(** During the handshake with a long local idle timeout: doubling up to a tenth of
    that timeout. *)
Lemma handshake_long p idle mi n : 30000 < mi -> mi * 100 < two64 -> rt_timer p * 2 ^ n < two64 -> n < 64 ->
  current_timer p n idle true mi = Some (N.min (rt_timer p * 2 ^ n) (mi * 100)).
Proof.
  intros Hm Hmi Ht Hn. unfold current_timer, shl64. replace (30000 <? mi) with true by (clear - Hm; lia).
  replace (n <? 64) with true by (clear - Hn; lia). rewrite N.shiftl_mul_pow2, (u64_small _ Ht), (u64_small _ Hmi). f_equal.
  set (x := rt_timer p * 2 ^ n). clearbody x. destruct (mi * 100 <? x) eqn:E; lia.
Qed.
