(** Proofs about pacing. *)
From Verif Require Import Base Pacing_model Pacing_spec.
Open Scope Z_scope.

Lemma s64_id : forall x, - 9223372036854775808 <= x < 9223372036854775808 -> s64 x = x.
Proof. intros x H. unfold s64. destruct (Z.ltb_spec (x mod 18446744073709551616) 9223372036854775808); lia. Qed.

(** The bucket brought up to date. *)
Lemma update_bucket_eq : forall p now, sane_pacing p -> (now < 4503599627370496)%N ->
  pc_max (update_bucket p now) = pc_max p /\ pc_packet (update_bucket p now) = pc_packet p /\
  pc_pause (update_bucket p now) = pc_pause p /\
  pc_eval (update_bucket p now) = N.max (pc_eval p) now /\
  - pc_packet p <= pc_bucket (update_bucket p now) <= pc_max p /\
  pc_bucket (update_bucket p now) =
    (if (pc_eval p <? now)%N
     then Z.min (pc_max p) (Z.max (pc_bucket p) (- pc_packet p) + 1000 * (Z.of_N now - Z.of_N (pc_eval p)))
     else Z.max (pc_bucket p) (- pc_packet p)).
Proof.
  intros p now (He & Hp & Hm & Hb) Hn. unfold update_bucket, pc_set.
  destruct (N.ltb_spec (pc_eval p) now) as [H | H]; cbn [pc_eval pc_bucket pc_max pc_packet pc_pause];
    destruct (Z.ltb_spec (pc_bucket p) (- pc_packet p)) as [Hl | Hl].
  - rewrite s64_id by lia. destruct (Z.ltb_spec (pc_max p) (- pc_packet p + Z.of_N ((now - pc_eval p) * 1000))); repeat split; lia.
  - rewrite s64_id by lia. destruct (Z.ltb_spec (pc_max p) (pc_bucket p + Z.of_N ((now - pc_eval p) * 1000))); repeat split; lia.
  - repeat split; lia.
  - repeat split; lia.
Qed.

Lemma sane_update : forall p now, sane_pacing p -> (now < 4503599627370496)%N -> sane_pacing (update_bucket p now).
Proof.
  intros p now H Hn. destruct (update_bucket_eq p now H Hn) as (E1 & E2 & _ & E3 & E4 & _).
  destruct H as (He & Hp & Hm & Hb). unfold sane_pacing. rewrite E1, E2, E3. lia.
Qed.

Lemma update_idem : forall p now t, sane_pacing p -> (now < 4503599627370496)%N -> (t <= N.max (pc_eval p) now)%N ->
  update_bucket (update_bucket p now) t = update_bucket p now.
Proof.
  intros p now t H Hn Ht. destruct (update_bucket_eq p now H Hn) as (E1 & E2 & E0 & E3 & E4 & _).
  unfold update_bucket at 1. destruct (N.ltb_spec (pc_eval (update_bucket p now)) t) as [L | L]; [lia |].
  rewrite E2. destruct (Z.ltb_spec (pc_bucket (update_bucket p now)) (- pc_packet p)); [lia |].
  unfold pc_set. destruct (update_bucket p now); reflexivity.
Qed.

(** What a question changes: only the bucket, as by [update_bucket], and the pause
    flag. *)
Lemma authorized_state : forall p now next train p1 n1 ok, is_authorized p now next train = (p1, n1, ok) ->
  pc_eval p1 = pc_eval (update_bucket p now) /\ pc_bucket p1 = pc_bucket (update_bucket p now) /\
  pc_max p1 = pc_max (update_bucket p now) /\ pc_packet p1 = pc_packet (update_bucket p now) /\
  ok = (pc_packet (update_bucket p now) <=? pc_bucket (update_bucket p now)).
Proof.
  intros p now next train p1 n1 ok E. unfold is_authorized in E.
  destruct (Z.ltb_spec (pc_bucket (update_bucket p now)) (pc_packet (update_bucket p now))) as [L | L].
  - match type of E with (if ?b then _ else _) = _ => destruct b end; injection E as <- <- <-;
      cbn [pc_eval pc_bucket pc_max pc_packet]; repeat split; lia.
  - injection E as <- <- <-. repeat split; lia.
Qed.

(** Cost of a packet. *)
Definition cost (p : pacing) (len mtu : N) : Z := (pc_packet p * Z.of_N len + (Z.of_N mtu - 1)) / Z.of_N mtu.

Lemma cost_bounds : forall p len mtu, 0 < pc_packet p -> (0 < mtu)%N ->
  0 <= cost p len mtu /\ pc_packet p * Z.of_N len <= Z.of_N mtu * cost p len mtu /\
  ((len <= mtu)%N -> cost p len mtu <= pc_packet p) /\ cost p len mtu <= pc_packet p * Z.of_N len.
Proof.
  intros p len mtu Hp Hm. unfold cost. set (a := pc_packet p * Z.of_N len). set (m := Z.of_N mtu).
  assert (0 <= a) by (unfold a; apply Z.mul_nonneg_nonneg; lia). assert (0 < m) by (unfold m; lia).
  repeat split.
  - apply Z.div_pos; lia.
  - pose proof (Z.div_mod (a + (m - 1)) m ltac:(lia)) as D. pose proof (Z.mod_pos_bound (a + (m - 1)) m ltac:(lia)). lia.
  - intros L. enough ((a + (m - 1)) / m < pc_packet p + 1) by lia. apply Z.div_lt_upper_bound; [lia |].
    assert (a <= m * pc_packet p); [| lia]. unfold a, m. rewrite (Z.mul_comm (Z.of_N mtu)). apply Z.mul_le_mono_nonneg_l; lia.
  - destruct (Z.eq_dec a 0) as [Ha | Ha].
    + rewrite Z.div_small by lia. lia.
    + enough ((a + (m - 1)) / m < a + 1) by lia. apply Z.div_lt_upper_bound; [lia |].
      enough (1 * a <= m * a) by lia. apply Z.mul_le_mono_nonneg_r; lia.
Qed.

Lemma after_send_eq : forall p len mtu now, sane_pacing p -> (now < 4503599627370496)%N -> (len < 65536)%N ->
  (0 < mtu < 65536)%N ->
  exists p', after_send p len mtu now = Some p' /\ sane_pacing p' /\
    pc_eval p' = pc_eval (update_bucket p now) /\ pc_max p' = pc_max p /\ pc_packet p' = pc_packet p /\
    pc_bucket p' = pc_bucket (update_bucket p now) - cost p len mtu.
Proof.
  intros p len mtu now H Hn Hl Hm. unfold after_send.
  destruct (update_bucket_eq p now H Hn) as (E1 & E2 & _ & E3 & E4 & _). pose proof (sane_update p now H Hn) as H1.
  destruct H as (He & Hp & Hx & Hb). destruct (N.eqb_spec mtu 0); [lia |].
  destruct (cost_bounds p len mtu ltac:(lia) ltac:(lia)) as (C1 & _ & _ & C2).
  assert (Hc : pc_packet p * Z.of_N len <= 17592186044416 * 65535) by (apply Z.mul_le_mono_nonneg; lia).
  assert (Hc0 : 0 <= pc_packet p * Z.of_N len) by (apply Z.mul_nonneg_nonneg; lia).
  rewrite E2, (Z.mod_small (pc_packet p)) by lia. rewrite Z.mod_small by lia.
  change ((pc_packet p * Z.of_N len + (Z.of_N mtu - 1)) / Z.of_N mtu) with (cost p len mtu).
  rewrite s64_id by lia. eexists. split; [reflexivity |]. unfold pc_set, sane_pacing.
  cbn [pc_eval pc_bucket pc_max pc_packet]. rewrite E1, E2. repeat split; lia.
Qed.

(** One operation. *)
Lemma pstep_eq : forall mtu p o, sane_pacing p -> (0 < mtu < 65536)%N -> sane_time o = true -> sane_len mtu o = true ->
  exists p' g, pstep mtu p o = Some (p', g) /\ sane_pacing p' /\
    pc_eval p' = pc_eval (update_bucket p (p_time o)) /\ pc_max p' = pc_max p /\ pc_packet p' = pc_packet p /\
    ((g = [] /\ pc_bucket p' <= pc_bucket (update_bucket p (p_time o))) \/
     (exists len, g = [(p_time o, len)] /\ (len <= mtu)%N /\
        pc_packet p <= pc_bucket (update_bucket p (p_time o)) /\
        pc_bucket p' = pc_bucket (update_bucket p (p_time o)) - cost p len mtu)).
Proof.
  intros mtu p o H Hm Ht Hl. unfold sane_time in Ht. apply N.ltb_lt in Ht.
  destruct (update_bucket_eq p (p_time o) H Ht) as (E1 & E2 & _ & E3 & E4 & _).
  pose proof (sane_update p (p_time o) H Ht) as H1. destruct o as [t n tr | t len | t n tr len]; cbn [p_time sane_len pstep] in *.
  - destruct (is_authorized p t n tr) as [[p1 n1] ok] eqn:E. destruct (authorized_state _ _ _ _ _ _ _ E) as (A1 & A2 & A3 & A4 & _).
    exists p1, []. cbn [fst]. split; [reflexivity |]. split; [unfold sane_pacing in *; rewrite A1, A2, A3, A4; exact H1 |].
    repeat split; try congruence. left. split; [reflexivity | lia].
  - apply N.ltb_lt in Hl. destruct (after_send_eq p len mtu t H Ht Hl Hm) as (p' & -> & S & A1 & A2 & A3 & A4).
    exists p', []. split; [reflexivity |]. split; [exact S |]. repeat split; try assumption. left. split; [reflexivity |].
    destruct H as (_ & Hp & _). destruct (cost_bounds p len mtu ltac:(lia) ltac:(lia)) as (C1 & _). lia.
  - apply N.leb_le in Hl. destruct (is_authorized p t n tr) as [[p1 n1] ok] eqn:E.
    destruct (authorized_state _ _ _ _ _ _ _ E) as (A1 & A2 & A3 & A4 & A5).
    assert (S1 : sane_pacing p1) by (unfold sane_pacing in *; rewrite A1, A2, A3, A4; exact H1).
    destruct ok.
    + destruct (after_send_eq p1 len mtu t S1 Ht ltac:(lia) Hm) as (p' & -> & S & B1 & B2 & B3 & B4).
      assert (U : pc_bucket (update_bucket p1 t) = pc_bucket p1 /\ pc_eval (update_bucket p1 t) = pc_eval p1).
      { destruct (update_bucket_eq p1 t S1 Ht) as (_ & _ & _ & U1 & _ & U2). rewrite U1, U2.
        destruct (N.ltb_spec (pc_eval p1) t); lia. }
      destruct U as (U1 & U2).
      exists p', [(t, len)]. split; [reflexivity |]. split; [exact S |]. repeat split; try congruence. right. exists len.
      split; [reflexivity |]. split; [exact Hl |]. split; [rewrite E2 in A5; lia |]. rewrite B4, U1, A2. unfold cost. rewrite A4, E2. reflexivity.
    + exists p1, []. split; [reflexivity |]. split; [exact S1 |]. repeat split; try congruence. left. split; [reflexivity | lia].
Qed.

(** Histories keep the parameters and the bucket below its maximum. *)
Lemma prun_sane : forall mtu ops p, sane_pacing p -> (0 < mtu < 65536)%N ->
  forallb sane_time ops = true -> forallb (sane_len mtu) ops = true ->
  exists p' log, prun mtu p ops = Some (p', log) /\ sane_pacing p' /\ pc_max p' = pc_max p /\ pc_packet p' = pc_packet p.
Proof.
  intros mtu ops. induction ops as [| o ops IH]; intros p H Hm Ht Hl; cbn [prun forallb] in *.
  - exists p, []. auto.
  - apply andb_true_iff in Ht. apply andb_true_iff in Hl.
    destruct (pstep_eq mtu p o H Hm (proj1 Ht) (proj1 Hl)) as (p1 & g & -> & S1 & _ & M1 & K1 & _).
    destruct (IH p1 S1 Hm (proj2 Ht) (proj2 Hl)) as (p2 & g2 & -> & S2 & M2 & K2).
    exists p2, (g ++ g2). split; [reflexivity |]. split; [exact S2 |]. split; congruence.
Qed.

Theorem bucket_bounded : forall mtu ops p p' log, sane_pacing p -> (0 < mtu < 65536)%N ->
  forallb sane_time ops = true -> forallb (sane_len mtu) ops = true -> prun mtu p ops = Some (p', log) ->
  pc_bucket p' <= pc_max p.
Proof.
  intros mtu ops p p' log H Hm Ht Hl E. destruct (prun_sane mtu ops p H Hm Ht Hl) as (p2 & g2 & E2 & S & M & _).
  rewrite E in E2. injection E2 as -> ->. destruct S as (_ & _ & _ & B). lia.
Qed.

(** Total of the log. *)
Fixpoint total (log : list (N * N)) : Z := match log with [] => 0 | (_, len) :: r => Z.of_N len + total r end.

Lemma total_app : forall a b, total (a ++ b) = total a + total b.
Proof. induction a as [| [t l] a IH]; intros b; cbn [total app]; [reflexivity | rewrite IH; lia]. Qed.

(** The central accounting: from a state, up to a time. *)
Lemma accounting : forall mtu ops p p' log t1, sane_pacing p -> (0 < mtu < 65536)%N ->
  forallb sane_time ops = true -> forallb (sane_len mtu) ops = true ->
  Forall (fun o => (p_time o <= t1)%N) ops -> (pc_eval p <= t1)%N -> prun mtu p ops = Some (p', log) ->
  pc_packet p * total log <= Z.of_N mtu * (Z.max 0 (pc_bucket p) + 1000 * (Z.of_N t1 - Z.of_N (pc_eval p))).
Proof.
  intros mtu ops. induction ops as [| o ops IH]; intros p p' log t1 H Hm Ht Hl Hf He E; cbn [prun forallb] in *.
  - injection E as <- <-. cbn [total]. rewrite Z.mul_0_r. apply Z.mul_nonneg_nonneg; lia.
  - apply andb_true_iff in Ht. apply andb_true_iff in Hl. inversion Hf as [| x y F1 F2]; subst.
    destruct (pstep_eq mtu p o H Hm (proj1 Ht) (proj1 Hl)) as (p1 & g & E1 & S1 & V1 & M1 & K1 & G). rewrite E1 in E.
    destruct (prun mtu p1 ops) as [[p2 g2] |] eqn:E2; [| discriminate]. injection E as <- <-.
    assert (T : (p_time o < 4503599627370496)%N) by (destruct Ht as [Ht _]; unfold sane_time in Ht; lia).
    destruct (update_bucket_eq p (p_time o) H T) as (U1 & U2 & _ & U3 & U4 & U5).
    pose proof (IH p1 p2 g2 t1 S1 Hm (proj2 Ht) (proj2 Hl) F2 ltac:(lia) E2) as B. rewrite total_app, K1 in *.
    set (up := pc_bucket (update_bucket p (p_time o))) in *.
    assert (Hup : Z.max 0 up + 1000 * (Z.of_N t1 - Z.of_N (pc_eval p1)) <= Z.max 0 (pc_bucket p) + 1000 * (Z.of_N t1 - Z.of_N (pc_eval p))).
    { rewrite V1, U3. destruct H as (_ & Hp & Hx & _). destruct (N.ltb_spec (pc_eval p) (p_time o)); lia. }
    destruct G as [(-> & G) | (len & -> & L & G1 & G2)].
    + cbn [total]. eapply Z.le_trans; [rewrite Z.add_0_l; exact B |]. apply Z.mul_le_mono_nonneg_l; lia.
    + destruct H as (_ & Hp & _ & _). destruct (cost_bounds p len mtu ltac:(lia) ltac:(lia)) as (C1 & C2 & C3 & _).
      specialize (C3 L). cbn [total]. rewrite Z.add_0_r, Z.mul_add_distr_l.
      assert (Hmm : Z.of_N mtu * (Z.max 0 (pc_bucket p1) + 1000 * (Z.of_N t1 - Z.of_N (pc_eval p1)) + cost p len mtu) <=
                    Z.of_N mtu * (Z.max 0 (pc_bucket p) + 1000 * (Z.of_N t1 - Z.of_N (pc_eval p)))).
      { apply Z.mul_le_mono_nonneg_l; [lia |]. lia. }
      rewrite Z.mul_add_distr_l in Hmm. lia.
Qed.

Lemma ordered_forall : forall ops t, ordered t ops = true -> Forall (fun o => (t <= p_time o)%N) ops.
Proof.
  induction ops as [| o ops IH]; intros t H; cbn [ordered] in H; constructor; apply andb_true_iff in H.
  - apply N.leb_le. tauto.
  - destruct H as [H1 H2]. apply N.leb_le in H1. specialize (IH _ H2). clear - IH H1.
    induction IH; constructor; [lia | assumption].
Qed.

(** Bytes of an interval: the operations before, inside and after it. *)
Lemma between_after : forall mtu ops p p' log t0 t1, prun mtu p ops = Some (p', log) ->
  Forall (fun o => (t1 < p_time o)%N) ops -> bytes_between t0 t1 log = 0%N.
Proof.
  intros mtu ops. induction ops as [| o ops IH]; intros p p' log t0 t1 E F; cbn [prun] in E.
  - injection E as <- <-. reflexivity.
  - inversion F as [| x y F1 F2]; subst. destruct (pstep mtu p o) as [[p1 g] |] eqn:E1; [| discriminate].
    destruct (prun mtu p1 ops) as [[p2 g2] |] eqn:E2; [| discriminate]. injection E as <- <-.
    assert (G : g = [] \/ exists len, g = [(p_time o, len)]).
    { destruct o as [t n tr | t len | t n tr len]; cbn [pstep p_time] in *.
      - injection E1 as <- <-. auto.
      - destruct (after_send p len mtu t); [| discriminate]. injection E1 as <- <-. auto.
      - destruct (is_authorized p t n tr) as [[q n1] ok]. destruct ok.
        + destruct (after_send q len mtu t); [| discriminate]. injection E1 as <- <-. eauto.
        + injection E1 as <- <-. auto. }
    pose proof (IH _ _ _ t0 t1 E2 F2) as B. destruct G as [-> | (len & ->)]; cbn [app bytes_between]; [exact B |].
    rewrite B. destruct (N.leb_spec (p_time o) t1); [lia |]. rewrite andb_false_r. reflexivity.
Qed.

Lemma between_total : forall t0 t1 log, Z.of_N (bytes_between t0 t1 log) <= total log.
Proof.
  intros t0 t1 log. induction log as [| [t l] log IH]; cbn [bytes_between total]; [lia |].
  destruct ((t0 <=? t) && (t <=? t1))%N%bool; lia.
Qed.

Lemma step_log : forall mtu p o p1 g, pstep mtu p o = Some (p1, g) -> g = [] \/ exists len, g = [(p_time o, len)].
Proof.
  intros mtu p o p1 g E1. destruct o as [t n tr | t len | t n tr len]; cbn [pstep p_time] in *.
  - injection E1 as <- <-. auto.
  - destruct (after_send p len mtu t); [| discriminate]. injection E1 as <- <-. auto.
  - destruct (is_authorized p t n tr) as [[q n1] ok]. destruct ok.
    + destruct (after_send q len mtu t); [| discriminate]. injection E1 as <- <-. eauto.
    + injection E1 as <- <-. auto.
Qed.

(** The part of a history up to a time. *)
Lemma cut_after : forall mtu ops p p' log t0 t1, prun mtu p ops = Some (p', log) ->
  (forall t, ordered t ops = true ->
   exists ops1 p1 log1, prun mtu p ops1 = Some (p1, log1) /\ bytes_between t0 t1 log = bytes_between t0 t1 log1 /\
     incl ops1 ops /\ ordered t ops1 = true /\ Forall (fun o => (p_time o <= t1)%N) ops1).
Proof.
  intros mtu ops. induction ops as [| o ops IH]; intros p p' log t0 t1 E t Ho.
  - injection E as <- <-. exists [], p, []. repeat split; [apply incl_refl | constructor].
  - destruct (N.leb_spec (p_time o) t1) as [L | L].
    + cbn [prun ordered] in *. destruct (pstep mtu p o) as [[p1 g] |] eqn:E1; [| discriminate].
      destruct (prun mtu p1 ops) as [[p2 g2] |] eqn:E2; [| discriminate]. injection E as <- <-.
      apply andb_true_iff in Ho. destruct (IH p1 p2 g2 t0 t1 E2 _ (proj2 Ho)) as (o1 & q1 & l1 & A1 & A2 & A3 & A4 & A5).
      exists (o :: o1), q1, (g ++ l1). cbn [prun ordered]. rewrite E1, A1. repeat split.
      * destruct (step_log _ _ _ _ _ E1) as [-> | (len & ->)]; cbn [app bytes_between]; congruence.
      * intros x [-> | I]; [left; reflexivity | right; apply A3; exact I].
      * apply andb_true_iff. tauto.
      * constructor; assumption.
    + exists [], p, []. repeat split; [| intros x [] | constructor]. cbn [bytes_between].
      eapply between_after; [exact E |]. constructor; [exact L |]. cbn [ordered] in Ho. apply andb_true_iff in Ho.
      pose proof (ordered_forall _ _ (proj2 Ho)) as F. clear - F L. induction F; constructor; [lia | assumption].
Qed.

(** The first operation of the interval. *)
Lemma interval_start : forall mtu ops p p' log t0 t1, sane_pacing p -> (0 < mtu < 65536)%N ->
  forallb sane_time ops = true -> forallb (sane_len mtu) ops = true -> ordered (pc_eval p) ops = true ->
  Forall (fun o => (p_time o <= t1)%N) ops -> (t0 <= t1)%N -> prun mtu p ops = Some (p', log) ->
  pc_packet p * Z.of_N (bytes_between t0 t1 log) <= Z.of_N mtu * (pc_max p + 1000 * (Z.of_N t1 - Z.of_N t0)).
Proof.
  intros mtu ops. induction ops as [| o ops IH]; intros p p' log t0 t1 H Hm Ht Hl Ho Hf H01 E; cbn [prun forallb ordered] in *.
  - injection E as <- <-. cbn [bytes_between]. rewrite Z.mul_0_r. destruct H as (_ & _ & Hx & _). apply Z.mul_nonneg_nonneg; lia.
  - pose proof Ht as Ht0. pose proof Hl as Hl0. apply andb_true_iff in Ht. apply andb_true_iff in Hl. apply andb_true_iff in Ho.
    inversion Hf as [| x y F1 F2]; subst. destruct Ho as [Ho1 Ho2]. apply N.leb_le in Ho1.
    destruct (pstep_eq mtu p o H Hm (proj1 Ht) (proj1 Hl)) as (p1 & g & E1 & S1 & V1 & M1 & K1 & G). rewrite E1 in E.
    destruct (prun mtu p1 ops) as [[p2 g2] |] eqn:E2; [| discriminate]. injection E as <- <-.
    assert (T : (p_time o < 4503599627370496)%N) by (destruct Ht as [Ht _]; unfold sane_time in Ht; lia).
    destruct (update_bucket_eq p (p_time o) H T) as (U1 & U2 & _ & U3 & U4 & U5).
    destruct (N.leb_spec t0 (p_time o)) as [L | L].
    + (* everything from here on, with a bucket that is at most full at a time not before t0 *)
      pose proof (between_total t0 t1 (g ++ g2)) as BT.
      pose proof (accounting mtu ops p1 p2 g2 t1 S1 Hm (proj2 Ht) (proj2 Hl) F2 ltac:(lia) E2) as B.
      rewrite K1 in B. rewrite total_app in BT. destruct H as (He & Hp & Hx & Hb).
      destruct (cost_bounds p 0 mtu ltac:(lia) ltac:(lia)) as (_ & _ & _ & _).
      assert (Hg : pc_packet p * total g + Z.of_N mtu * Z.max 0 (pc_bucket p1) <= Z.of_N mtu * pc_max p).
      { destruct G as [(-> & G) | (len & -> & L2 & G1 & G2)].
        - cbn [total]. rewrite Z.mul_0_r. apply Z.mul_le_mono_nonneg_l; lia.
        - destruct (cost_bounds p len mtu ltac:(lia) ltac:(lia)) as (C1 & C2 & C3 & _). specialize (C3 L2). cbn [total].
          rewrite Z.add_0_r. assert (Z.of_N mtu * (cost p len mtu + Z.max 0 (pc_bucket p1)) <= Z.of_N mtu * pc_max p).
          { apply Z.mul_le_mono_nonneg_l; lia. } rewrite Z.mul_add_distr_l in *. lia. }
      assert (Ht1 : Z.of_N mtu * (1000 * (Z.of_N t1 - Z.of_N (pc_eval p1))) <= Z.of_N mtu * (1000 * (Z.of_N t1 - Z.of_N t0))).
      { apply Z.mul_le_mono_nonneg_l; lia. }
      assert (BM : pc_packet p * Z.of_N (bytes_between t0 t1 (g ++ g2)) <= pc_packet p * (total g + total g2)).
      { apply Z.mul_le_mono_nonneg_l; lia. }
      rewrite Z.mul_add_distr_l in *. lia.
    + assert (G0 : bytes_between t0 t1 (g ++ g2) = bytes_between t0 t1 g2).
      { destruct G as [(-> & _) | (len & -> & _)]; cbn [app bytes_between]; [reflexivity |].
        destruct (N.leb_spec t0 (p_time o)); [lia |]. reflexivity. }
      rewrite G0, <- K1, <- M1. apply (IH p1 p2 g2 t0 t1 S1 Hm (proj2 Ht) (proj2 Hl)); try assumption.
      rewrite V1, U3. replace (N.max (pc_eval p) (p_time o)) with (p_time o) by lia. exact Ho2.
Qed.

Theorem interval_bound : forall mtu ops p p' log t0 t1, sane_pacing p -> (0 < mtu < 65536)%N ->
  forallb sane_time ops = true -> forallb (sane_len mtu) ops = true -> ordered (pc_eval p) ops = true ->
  (t0 <= t1)%N -> prun mtu p ops = Some (p', log) ->
  pc_packet p * Z.of_N (bytes_between t0 t1 log) <= Z.of_N mtu * (pc_max p + 1000 * (Z.of_N t1 - Z.of_N t0)).
Proof.
  intros mtu ops p p' log t0 t1 H Hm Ht Hl Ho H01 E.
  destruct (cut_after mtu ops p p' log t0 t1 E _ Ho) as (o1 & q1 & l1 & A1 & A2 & A3 & A4 & A5). rewrite A2.
  apply (interval_start mtu o1 p q1 l1 t0 t1 H Hm); try assumption.
  - rewrite forallb_forall in *. intros x I. apply Ht, A3, I.
  - rewrite forallb_forall in *. intros x I. apply Hl, A3, I.
Qed.

(** When the answer is no, waiting until the time given makes it yes. *)
Theorem wait_enough : forall p now next train p1 n1 t next2 train2, sane_pacing p -> pc_packet p <= pc_max p ->
  (now < 4503599627370496)%N -> (pc_eval p <= now)%N -> is_authorized p now next train = (p1, n1, false) ->
  (n1 < next)%N -> (n1 <= t < 4503599627370496)%N ->
  snd (is_authorized p1 t next2 train2) = true.
Proof.
  intros p now next train p1 n1 t next2 train2 H Hq Hn He E Hc Ht.
  pose proof (authorized_state _ _ _ _ _ _ _ E) as (A1 & A2 & A3 & A4 & A5). symmetry in A5. apply Z.leb_gt in A5.
  destruct (update_bucket_eq p now H Hn) as (U1 & U2 & U0 & U3 & U4 & U5). pose proof (sane_update p now H Hn) as H1.
  assert (S1 : sane_pacing p1) by (unfold sane_pacing in *; rewrite A1, A2, A3, A4; exact H1).
  destruct (is_authorized p1 t next2 train2) as [[p2 n2] ok] eqn:E2. cbn [snd].
  destruct (authorized_state _ _ _ _ _ _ _ E2) as (_ & _ & _ & _ & B5). rewrite B5. apply Z.leb_le.
  destruct (update_bucket_eq p1 t S1 ltac:(lia)) as (W1 & W2 & _ & W3 & W4 & W5). rewrite W2, W5.
  unfold is_authorized in E. rewrite U0 in E. set (up := pc_bucket (update_bucket p now)) in *. rewrite U1, U2 in *.
  destruct (Z.ltb_spec up (pc_packet p)) as [L | L]; [| discriminate].
  destruct H as (_ & Hp & Hx & Hb).
  set (req := if train || pc_pause p then _ else _) in E.
  assert (Hr : pc_packet p - up <= req <= 9223372036854775807).
  { unfold req. destruct (train || pc_pause p).
    - rewrite (s64_id (10 * pc_packet p)) by lia. destruct (Z.ltb_spec (10 * pc_packet p) (pc_max p)) as [Q | Q]; rewrite s64_id by lia; lia.
    - rewrite s64_id by lia. lia. }
  match type of E with (if ?b then _ else _) = _ => destruct b eqn:Eb end; [| injection E as <- <-; lia].
  injection E as E1 E3. rewrite <- E3 in *. rewrite Z.quot_div_nonneg in * by lia.
  rewrite Z.mod_small in * by lia. rewrite <- E1 in *. cbn [pc_eval pc_bucket pc_max pc_packet] in *.
  destruct (N.ltb_spec (pc_eval (update_bucket p now)) t); lia.
Qed.

(** A round trip of zero blocks everything. *)
Lemma zero_rtt_never : forall p now next train t, sane_pacing p -> (now < 4503599627370496)%N -> t = 0%N ->
  snd (is_authorized (small_window p t) now next train) = false.
Proof.
  intros p now next train t H Hn ->.
  destruct (is_authorized (small_window p 0) now next train) as [[p2 n2] ok] eqn:E2. cbn [snd].
  destruct (authorized_state _ _ _ _ _ _ _ E2) as (_ & _ & _ & _ & B5). rewrite B5. apply Z.leb_gt.
  destruct H as (He & Hp & Hx & Hb).
  assert (S : sane_pacing (small_window p 0)).
  { unfold small_window, sane_pacing. cbn [pc_eval pc_bucket pc_max pc_packet]. change (s64 (Z.of_N (0 * 1000))) with 0.
    destruct (Z.ltb_spec 0 (pc_bucket p)); lia. }
  destruct (update_bucket_eq (small_window p 0) now S Hn) as (E1 & E3 & _ & _ & E4 & _).
  rewrite E3. unfold small_window in *. cbn [pc_eval pc_bucket pc_max pc_packet] in *. change (s64 (Z.of_N (0 * 1000))) with 0 in *. lia.
Qed.

Lemma zero_rtt_blocked : forall ops p mtu, sane_pacing p -> (0 < mtu < 65536)%N ->
  forallb sane_time ops = true -> forallb (sane_len mtu) ops = true ->
  exists p', prun mtu (small_window p 0) ops = Some (p', []).
Proof.
  intros ops p mtu H Hm Ht Hl.
  assert (G : forall ops q, pc_packet q = 1 -> pc_max q = 0 -> sane_pacing q ->
    forallb sane_time ops = true -> forallb (sane_len mtu) ops = true -> exists p', prun mtu q ops = Some (p', [])).
  { clear - Hm. induction ops as [| o ops IH]; intros q K M S Ht Hl; [exists q; reflexivity |].
    cbn [forallb] in *. apply andb_true_iff in Ht. apply andb_true_iff in Hl. cbn [prun].
    destruct (pstep_eq mtu q o S Hm (proj1 Ht) (proj1 Hl)) as (p1 & g & E1 & S1 & _ & M1 & K1 & G). rewrite E1.
    assert (T : (p_time o < 4503599627370496)%N) by (destruct Ht as [Ht _]; unfold sane_time in Ht; lia).
    destruct (update_bucket_eq q (p_time o) S T) as (_ & _ & _ & _ & U4 & _).
    destruct G as [(-> & _) | (len & _ & _ & G1 & _)]; [| lia].
    destruct (IH p1 ltac:(congruence) ltac:(congruence) S1 (proj2 Ht) (proj2 Hl)) as (p2 & ->). exists p2. reflexivity. }
  apply G; try assumption; try reflexivity. destruct H as (He & Hp & Hx & Hb).
  unfold small_window, sane_pacing. cbn [pc_eval pc_bucket pc_max pc_packet]. change (s64 (Z.of_N (0 * 1000))) with 0.
  destruct (Z.ltb_spec 0 (pc_bucket p)); lia.
Qed.

Lemma zero_rtt_stuck : exists p, sane_pacing p /\
  forall ops mtu, (0 < mtu < 65536)%N -> forallb sane_time ops = true -> forallb (sane_len mtu) ops = true ->
  exists p', prun mtu (small_window p 0) ops = Some (p', []).
Proof.
  exists (pacing_init 1000). assert (S : sane_pacing (pacing_init 1000)) by (unfold sane_pacing, pacing_init; cbn [pc_eval pc_packet pc_max pc_bucket]; lia).
  split; [exact S |]. intros ops mtu Hm Ht Hl. apply zero_rtt_blocked; assumption.
Qed.
