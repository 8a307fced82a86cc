(** Proofs about key updates: the limit on failures, and reordered packets. *)
From Verif Require Import Base Tac Send_model Keys_model Keys_spec Keys_proofs Keys2_proofs Keys3_proofs.

(** ** The limit on failures *)

Definition all_sealed (w : world) : Prop := forall s p, In p (sent_by w s) -> p_gen p <> None.

Lemma step_sealed w e w' o : all_gens w -> all_sealed w -> step w e = Some (w', o) -> all_sealed w'.
Proof.
  intros A L St.
  assert (RT : forall v s0 x o1, rotate v s0 = (x, o1) -> forall s1, sent_by x s1 = sent_by v s1).
  { intros v s0 x o1 R s1. unfold rotate in R. destruct (start_rotation (end_of v s0)); ip R; [apply sent_set | reflexivity]. }
  destruct e as [s0 path now | s0 path | s0 | s0 n now rto | s0 path pn phase now rto]; cbn [step] in St.
  - destruct (if auto_due (end_of w s0) now then rotate w s0 else (w, [])) as [w1 o1] eqn:Au.
    assert (X : forall s1, sent_by w1 s1 = sent_by w s1).
    { destruct (auto_due (end_of w s0) now); [exact (RT _ _ _ _ Au) | ip Au; reflexivity]. }
    destruct (send_packet (end_of w1 s0) path) as [[k p] | ] eqn:Sp; [ | discriminate]. apply some_pair_inj in St as (<- & _).
    unfold send_packet in Sp. destruct (k_enc (end_of w1 s0)) as [g | ]; [ | discriminate]. apply some_pair_inj in Sp as (_ & <-).
    intros s q Hq. destruct (side_cases s0 s) as [-> | ->].
    + rewrite sent_add_eq, sent_set, X in Hq. apply in_app_or in Hq as [Hq | [<- | []]]; [exact (L _ _ Hq) | discriminate].
    + rewrite sent_add_peer, sent_set, X in Hq. exact (L _ _ Hq).
  - apply some_pair_inj in St as (<- & _). intros s q Hq. rewrite sent_set in Hq. exact (L _ _ Hq).
  - apply some_inj in St. intros s q Hq. rewrite (RT _ _ _ _ St) in Hq. exact (L _ _ Hq).
  - destruct (nth_error (sent_by w (peer s0)) n) as [p | ]; [ | apply some_pair_inj in St as (<- & _); exact L].
    destruct (receive (end_of w s0) now rto p) as [[k f] | ]; [ | discriminate].
    apply some_pair_inj in St as (<- & _). intros s q Hq. rewrite sent_set in Hq. exact (L _ _ Hq).
  - destruct (receive _ _ _ _) as [[k f] | ]; [ | discriminate].
    apply some_pair_inj in St as (<- & _). intros s q Hq. rewrite sent_set in Hq. exact (L _ _ Hq).
Qed.

Definition counted (w : world) (s : side) : Prop := k_closed (end_of w s) = (k_integrity (end_of w s) <? k_fail (end_of w s)).

Lemma failures_app s t1 t2 : failures s (t1 ++ t2) = failures s t1 + failures s t2.
Proof. unfold failures. rewrite filter_app, app_length. lia. Qed.

Lemma step_fail w e w' o s : all_gens w -> all_sealed w -> step w e = Some (w', o) ->
  k_integrity (end_of w' s) = k_integrity (end_of w s) /\
  k_fail (end_of w' s) = k_fail (end_of w s) + failures s o /\ (counted w s -> counted w' s).
Proof.
  intros A SL St. unfold counted.
  assert (RT : forall v s0 x o1, rotate v s0 = (x, o1) -> forall s1, k_integrity (end_of x s1) = k_integrity (end_of v s1) /\
                 k_fail (end_of x s1) = k_fail (end_of v s1) /\ k_closed (end_of x s1) = k_closed (end_of v s1) /\ failures s1 o1 = 0).
  { intros v s0 x o1 R s1. unfold rotate in R. destruct (start_rotation (end_of v s0)) as [k1 | ] eqn:E; ip R; [ | repeat split].
    assert (k_integrity k1 = k_integrity (end_of v s0) /\ k_fail k1 = k_fail (end_of v s0) /\ k_closed k1 = k_closed (end_of v s0)) as (P1 & P2 & P3).
    { unfold start_rotation, compute_new in E. destruct (k_last _ <? k_epoch _); [discriminate | ].
      destruct (k_new_enc _), (k_new_dec _); try discriminate; apply some_inj in E; subst k1; repeat split. }
    destruct (side_cases s0 s1) as [-> | ->]; rewrite ?end_set_eq, ?end_set_peer; destruct (k_enc (end_of v s0)); repeat split; assumption. }
  assert (RC : forall s0 k p now rto f, receive (end_of w s0) now rto p = Some (k, f) -> 
      let n := match f with Failed => if match s, s0 with SA, SA | SB, SB => true | _, _ => false end then 1 else 0 | _ => 0 end in
      k_integrity (end_of (set_end w s0 k) s) = k_integrity (end_of w s) /\
      k_fail (end_of (set_end w s0 k) s) = k_fail (end_of w s) + n /\
      (counted w s -> counted (set_end w s0 k) s)).
  { intros s0 k p now rto f Re. destruct (A s0) as (ge & gd & G).
    destruct (receive_rest _ _ _ _ _ _ _ _ G Re) as (F1 & L1 & P1 & X1 & S1 & I1 & FA & CL). unfold counted.
    destruct (side_cases s0 s) as [-> | ->]; rewrite ?end_set_eq, ?end_set_peer.
    - rewrite I1, FA, CL. destruct f; destruct s0; cbn; (split; [reflexivity | ]); (split; [lia | ]); try (intros H; exact H);
        intros ->; destruct (k_integrity _ <? k_fail _) eqn:Q1; cbn [orb]; try reflexivity;
        symmetry; apply N.ltb_lt; apply N.ltb_lt in Q1; lia.
    - destruct f, s0; cbn; (split; [reflexivity | ]); (split; [lia | auto]). }
  destruct e as [s0 path now | s0 path | s0 | s0 n now rto | s0 path pn phase now rto]; cbn [step] in St.
  - destruct (if auto_due (end_of w s0) now then rotate w s0 else (w, [])) as [w1 o1] eqn:Au.
    assert (X : k_integrity (end_of w1 s) = k_integrity (end_of w s) /\ k_fail (end_of w1 s) = k_fail (end_of w s) /\
                k_closed (end_of w1 s) = k_closed (end_of w s) /\ failures s o1 = 0).
    { destruct (auto_due (end_of w s0) now); [exact (RT _ _ _ _ Au s) | ip Au; repeat split]. }
    destruct X as (X1 & X2 & X3 & X4).
    destruct (send_packet (end_of w1 s0) path) as [[k p] | ] eqn:Sp; [ | discriminate]. apply some_pair_inj in St as (<- & <-).
    rewrite end_add, failures_app, X4. unfold send_packet in Sp. destruct (k_enc (end_of w1 s0)) as [g | ]; [ | discriminate].
    apply some_pair_inj in Sp as (<- & <-). cbn [p_gen p_path]. change (failures s [OSend s0 (the_path (end_of w1 s0) path) g]) with 0.
    destruct (side_cases s0 s) as [-> | ->]; rewrite ?end_set_eq, ?end_set_peer; cbn [k_integrity k_fail k_closed with_next];
      rewrite X1, X2, X3; (split; [reflexivity | ]); (split; [lia | auto]).
  - apply some_pair_inj in St as (<- & <-). change (failures s []) with 0.
    destruct (side_cases s0 s) as [-> | ->]; rewrite ?end_set_eq, ?end_set_peer; cbn [skip_number k_integrity k_fail k_closed with_next];
      (split; [reflexivity | ]); (split; [lia | auto]).
  - apply some_inj in St. destruct (RT _ _ _ _ St s) as (X1 & X2 & X3 & X4). rewrite X1, X2, X3, X4. (split; [reflexivity | ]); (split; [lia | auto]).
  - destruct (nth_error (sent_by w (peer s0)) n) as [p | ] eqn:Nt.
    2:{ apply some_pair_inj in St as (<- & <-). change (failures s []) with 0. (split; [reflexivity | ]); (split; [lia | auto]). }
    destruct (receive (end_of w s0) now rto p) as [[k f] | ] eqn:Re; [ | discriminate]. apply some_pair_inj in St as (<- & <-).
    destruct (RC _ _ _ _ _ _ Re) as (R1 & R2 & R3). split; [exact R1 | ]. split; [ | exact R3]. rewrite R2. f_equal.
    apply nth_error_In in Nt. destruct (p_gen p) as [g | ] eqn:PG; [ | destruct (SL _ _ Nt PG)].
    destruct f, s, s0; reflexivity.
  - destruct (receive (end_of w s0) now rto _) as [[k f] | ] eqn:Re; [ | discriminate]. apply some_pair_inj in St as (<- & <-).
    destruct (RC _ _ _ _ _ _ Re) as (R1 & R2 & R3). split; [exact R1 | ]. split; [ | exact R3]. rewrite R2. f_equal.
    destruct f, s, s0; reflexivity.
Qed.

Lemma run_fail w l w' tr s : all_gens w -> all_sealed w -> run w l = Some (w', tr) ->
  k_integrity (end_of w' s) = k_integrity (end_of w s) /\
  k_fail (end_of w' s) = k_fail (end_of w s) + failures s tr /\ (counted w s -> counted w' s).
Proof.
  revert w tr. induction l as [ | e l IH]; intros w tr A L H; cbn [run] in H.
  - apply some_pair_inj in H as (<- & <-). change (failures s []) with 0. (split; [reflexivity | ]); (split; [lia | auto]).
  - destruct (step w e) as [[v1 o1] | ] eqn:St; [ | discriminate].
    destruct (run v1 l) as [[v2 o2] | ] eqn:Rn; [ | discriminate]. apply some_pair_inj in H as (<- & <-).
    destruct (step_all w e A) as (v1' & o1' & St' & A1). rewrite St in St'. apply some_pair_inj in St' as (<- & _).
    destruct (IH v1 o2 A1 (step_sealed _ _ _ _ A L St) Rn) as (P1 & P2 & P3).
    destruct (step_fail _ _ _ _ s A L St) as (Q1 & Q2 & Q3).
    rewrite P1, P2, Q1, Q2, failures_app. (split; [reflexivity | ]); (split; [lia | auto]).
Qed.

Lemma closed_when mp maxa maxb inta intb senta sentb l w tr s :
  run (init_w mp maxa maxb inta intb senta sentb) l = Some (w, tr) ->
  k_closed (end_of w s) = true <-> match s with SA => inta | SB => intb end < failures s tr.
Proof.
  intros H. assert (SL : all_sealed (init_w mp maxa maxb inta intb senta sentb)) by (intros [] p []).
  destruct (run_fail _ _ _ _ s (init_all mp maxa maxb inta intb senta sentb) SL H) as (P1 & P2 & P3).
  unfold counted in P3. rewrite P3, P1, P2.
  - destruct s; cbn [init_w end_of init_k k_integrity k_fail w_a w_b]; rewrite N.ltb_lt; rewrite N.add_0_l; reflexivity.
  - destruct s; cbn [init_w end_of init_k k_integrity k_fail k_closed w_a w_b]; symmetry; apply N.ltb_ge; lia.
Qed.

(** ** Packets that arrive late *)

Definition keeps (s : side) (t o : N) (k : kst) : Prop := k_guard k = t /\ k_old k = Some o.

Lemma keeps_step s t g w e w' o B E D tr mp :
  inv mp B w tr E D -> D s = g + 1 -> keeps s t g (end_of w s) -> step w e = Some (w', o) ->
  none_by s o -> newest s o <= g + 1 -> keeps s t g (end_of w' s).
Proof.
  intros I HD K St No Ne. pose proof (i_g _ _ _ _ _ _ I) as G.
  assert (RT : forall x o1, rotate w s = (x, o1) -> (forall z, In z o1 -> In z o) -> x = w).
  { intros x o1 R Hi. unfold rotate in R. destruct (start_rotation (end_of w s)); ip R; [ | reflexivity].
    exfalso. rewrite (gn_enc _ _ _ (G s)) in Hi. apply (No (E s)). apply Hi. left. reflexivity. }
  assert (RP : forall x o1, rotate w (peer s) = (x, o1) -> end_of x s = end_of w s).
  { intros x o1 R. unfold rotate in R. destruct (start_rotation _); ip R; [ | reflexivity].
    pose proof (end_set_peer w (peer s) k) as X. rewrite peer_peer in X. exact X. }
  destruct e as [s0 path now | s0 path | s0 | s0 n now rto | s0 path pn phase now rto]; cbn [step] in St.
  - destruct (if auto_due (end_of w s0) now then rotate w s0 else (w, [])) as [w1 o1] eqn:Au.
    destruct (send_packet (end_of w1 s0) path) as [[k p] | ] eqn:Sp; [ | discriminate]. apply some_pair_inj in St as (<- & Ho).
    rewrite end_add.
    assert (X : end_of w1 s = end_of w s).
    { destruct (auto_due (end_of w s0) now); [ | ip Au; reflexivity]. destruct (side_cases s s0) as [-> | ->].
      - rewrite (RT _ _ Au); [reflexivity | ]. intros z Hz. rewrite <- Ho. apply in_or_app. auto.
      - exact (RP _ _ Au). }
    unfold send_packet in Sp. destruct (k_enc (end_of w1 s0)); [ | discriminate]. apply some_pair_inj in Sp as (<- & _).
    destruct (side_cases s s0) as [-> | ->].
    + rewrite end_set_eq. unfold keeps in *. cbn. rewrite X. exact K.
    + pose proof (end_set_peer w1 (peer s)) as Y. rewrite peer_peer in Y. rewrite Y, X. exact K.
  - apply some_pair_inj in St as (<- & _). destruct (side_cases s s0) as [-> | ->].
    + rewrite end_set_eq. exact K.
    + pose proof (end_set_peer w (peer s)) as Y. rewrite peer_peer in Y. rewrite Y. exact K.
  - apply some_inj in St. destruct (side_cases s s0) as [-> | ->].
    + rewrite (RT _ _ St); [exact K | auto].
    + rewrite (RP _ _ St). exact K.
  - destruct (nth_error (sent_by w (peer s0)) n) as [p | ]; [ | apply some_pair_inj in St as (<- & _); exact K].
    destruct (receive (end_of w s0) now rto p) as [[k f] | ] eqn:Re; [ | discriminate]. apply some_pair_inj in St as (<- & Ho).
    destruct (side_cases s s0) as [-> | ->].
    2:{ pose proof (end_set_peer w (peer s)) as Y. rewrite peer_peer in Y. rewrite Y. exact K. }
    rewrite end_set_eq. destruct K as (K1 & K2).
    destruct (receive_spec _ now rto p _ _ (G s)) as (k' & f' & Re' & R & _). rewrite Re in Re'. apply some_pair_inj in Re' as (<- & <-).
    inversion R; subst; unfold keeps; try (split; congruence).
    exfalso. match goal with X : p_gen p = Some _ |- _ => rewrite X in Ne; rewrite HD in Ne end. destruct s; cbn in Ne; lia.
  - destruct (side_cases s s0) as [-> | ->].
    + destruct (receive_forged (end_of w s) now rto (mk_pkt (the_path (end_of w s) path) pn phase None) _ _ (G s) eq_refl)
        as (k & f & Re & Hf & Gk & R' & U' & O' & _). rewrite Re in St. apply some_pair_inj in St as (<- & _).
      rewrite end_set_eq. destruct K. split; congruence.
    + destruct (receive _ _ _ _) as [[k f] | ]; [ | discriminate]. apply some_pair_inj in St as (<- & _).
      pose proof (end_set_peer w (peer s)) as Y. rewrite peer_peer in Y. rewrite Y. exact K.
Qed.

Lemma none_app_r s t1 t2 : none_by s (t1 ++ t2) -> none_by s t2.
Proof. intros H g I. apply (H g). apply in_or_app. right. exact I. Qed.

Lemma keeps_run s t g l : forall w w' o B E D tr mp,
  inv mp B w tr E D -> B + N.of_nat (length l) < max64 -> D s = g + 1 -> keeps s t g (end_of w s) -> run w l = Some (w', o) ->
  disciplined (tr ++ o) -> none_by s o -> newest s o <= g + 1 ->
  exists E' D', inv mp (B + N.of_nat (length l)) w' (tr ++ o) E' D' /\ D' s = g + 1 /\ keeps s t g (end_of w' s).
Proof.
  induction l as [ | e l IH]; intros w w' o B E D tr mp I HB HD K H Di No Ne; cbn [run length] in *.
  - apply some_pair_inj in H as (<- & <-). rewrite app_nil_r. exists E, D. rewrite N.add_0_r. auto.
  - destruct (step w e) as [[v1 o1] | ] eqn:St; [ | discriminate].
    destruct (run v1 l) as [[v2 o2] | ] eqn:Rn; [ | discriminate]. apply some_pair_inj in H as (<- & <-).
    rewrite app_assoc in Di |- *. pose proof (disciplined_app _ _ Di) as Di1.
    rewrite newest_app in Ne.
    destruct (inv_step _ _ _ _ _ _ _ _ _ I ltac:(lia) St (disciplined_step _ _ _ _ _ _ _ _ _ I St Di1)) as (E1 & D1 & I1).
    assert (HD1 : D1 s = g + 1).
    { rewrite <- (i_new _ _ _ _ _ _ I1 s), newest_app, (i_new _ _ _ _ _ _ I s). lia. }
    replace (B + N.of_nat (S (length l))) with (B + 1 + N.of_nat (length l)) by lia.
    apply (IH _ _ _ _ _ _ _ _ I1); try assumption; try lia.
    + eapply keeps_step; [exact I | exact HD | exact K | exact St | exact (none_app _ _ _ No) | lia].
    + exact (none_app_r _ _ _ No).
Qed.

Lemma reordered mp maxa maxb inta intb senta sentb l w tr s n t0 rto0 w1 path l2 w2 t2 m now rto w3 path' f :
  run (init_w mp maxa maxb inta intb senta sentb) l = Some (w, tr) ->
  step w (EDeliver s n t0 rto0) = Some (w1, [OFate s path (newest s tr + 1) Accepted]) -> t0 + rto0 < 2 ^ 64 ->
  run w1 l2 = Some (w2, t2) -> N.of_nat (length l) + N.of_nat (length l2) < 2 ^ 62 ->
  (let all := tr ++ [OFate s path (newest s tr + 1) Accepted] ++ t2 in confirmed all \/ exists s0, only_by s0 all) ->
  none_by s t2 -> newest s t2 <= newest s tr + 1 ->
  step w2 (EDeliver s m now rto) = Some (w3, [OFate s path' (newest s tr) f]) -> now <= t0 + rto0 ->
  f = Accepted.
Proof.
  intros R0 S0 T0 R2 L Di No Ne S3 Hn. cbv zeta in Di. rewrite app_assoc in Di.
  change (2 ^ 62) with 4611686018427387904 in L. change (2 ^ 64) with 18446744073709551616 in T0.
  pose proof (disciplined_app _ _ Di) as Di1. pose proof (disciplined_app _ _ Di1) as Di0.
  destruct (inv_run _ _ _ _ _ _ _ _ _ _ R0 ltac:(change (2 ^ 62) with 4611686018427387904; lia) Di0) as (E & D & I).
  assert (HB : N.of_nat (length l) < max64) by (unfold max64; lia).
  destruct (inv_step _ _ _ _ _ _ _ _ _ I HB S0 (disciplined_step _ _ _ _ _ _ _ _ _ I S0 Di1)) as (E1 & D1 & I1).
  pose proof (i_new _ _ _ _ _ _ I s) as ND.
  assert (HD1 : D1 s = newest s tr + 1).
  { rewrite <- (i_new _ _ _ _ _ _ I1 s), newest_app. destruct s; cbn; lia. }
  assert (K1 : keeps s (t0 + rto0) (newest s tr) (end_of w1 s)).
  { cbn [step] in S0. destruct (nth_error (sent_by w (peer s)) n) as [p | ]; [ | apply some_pair_inj in S0 as (_ & S0); discriminate].
    destruct (receive (end_of w s) t0 rto0 p) as [[k f0] | ] eqn:Re; [ | discriminate].
    apply some_pair_inj in S0 as (<- & S0). destruct (p_gen p) as [g | ] eqn:PG; [ | discriminate]. injection S0 as X1 X2 X3. subst path g f0.
    rewrite end_set_eq. destruct (receive_spec _ t0 rto0 p _ _ (i_g _ _ _ _ _ _ I s)) as (k' & f' & Re' & Rc & _).
    rewrite Re in Re'. apply some_pair_inj in Re' as (<- & <-).
    inversion Rc; subst; try congruence.
    - exfalso. match goal with X : p_gen p = Some (D s) |- _ => rewrite PG in X; apply some_inj in X end. lia.
    - exfalso. match goal with X : p_gen p = Some o |- _ => rewrite PG in X; apply some_inj in X end. lia.
    - split; [ | congruence]. match goal with X : k_guard k = _ |- _ => rewrite X end. apply N.mod_small. exact T0. }
  destruct (keeps_run s (t0 + rto0) (newest s tr) l2 _ _ _ _ _ _ _ _ I1 ltac:(unfold max64; lia) HD1 K1 R2 Di No Ne) as (E2 & D2 & I2 & HD2 & K2).
  cbn [step] in S3.
  destruct (nth_error (sent_by w2 (peer s)) m) as [p | ] eqn:Nt; [ | apply some_pair_inj in S3 as (_ & S3); discriminate].
  apply nth_error_In in Nt. destruct (i_sent _ _ _ _ _ _ I2 _ _ Nt) as (g' & PG & GL & PP & PN & P0).
  destruct (receive (end_of w2 s) now rto p) as [[k f'] | ] eqn:Re; [ | discriminate].
  rewrite PG in S3. apply some_pair_inj in S3 as (_ & S3). injection S3 as X1 X2 X3. subst path' g' f'.
  pose proof (i_next _ _ _ _ _ _ I2 (peer s) (p_path p)) as NB.
  destruct (receive_prev _ now rto p _ _ (newest s tr) (i_g _ _ _ _ _ _ I2 s) PG (eq_sym HD2) PP) as (k' & f' & X & Y & Z).
  - unfold to_old. apply orb_true_iff. right. apply N.ltb_lt.
    destruct (i_rot _ _ _ _ _ _ I2 s (p_path p)) as [(A1 & A2) | [(q & A1 & A2 & A3 & A4) | [(A1 & A2 & A3 & A4) | (A1 & A2)]]].
    + lia.
    + rewrite <- A3. destruct (N.lt_ge_cases (p_pn p) (p_pn q)) as [H | H]; [exact H | ].
      pose proof (i_mono _ _ _ _ _ _ I2 (peer s) q p _ _ A1 Nt A2 A4 PG H). lia.
    + rewrite A2. unfold max64 in *. lia.
    + exfalso. exact (A2 (P0 A1)).
  - rewrite Re in X. apply some_pair_inj in X as (<- & <-). destruct K2 as (K2 & K3). apply Z; [congruence | lia].
Qed.
