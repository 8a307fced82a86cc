(** Proofs about the values read from a block of transport parameters. *)
From Verif Require Import Base Tac Varint_model Varint_spec Varint_proofs Header_model Header_spec Header_proofs
  Lb_spec Stream_model Tparam_model Tparam_spec Tparam_proofs Tparam2_proofs Tparam3_proofs Tparam4_proofs.

Definition has (ps : list (N * list N)) (t : N) : Prop := In t (map fst ps).
Lemma has_in : forall ps t v, In (t, v) ps -> has ps t.
Proof. intros ps t v H. apply (in_map fst) in H. exact H. Qed.
Lemma in_has : forall ps t, has ps t -> exists v, In (t, v) ps.
Proof. intros ps t H. apply in_map_iff in H. destruct H as ([t' v] & E & H). cbn in E. subst t'. eauto. Qed.
Lemma has_dec : forall ps t, has ps t \/ ~ has ps t.
Proof. intros ps t. destruct (in_dec N.eq_dec t (map fst ps)); auto. Qed.

Lemma step_present : forall g r t v r1 x, effect g (mark r t) r1 t v -> (In x (r_present r1) <-> (x = t /\ t < 64) \/ In x (r_present r)).
Proof.
  intros g r t v r1 x E. rewrite (e_present _ _ _ _ _ E), mark_present. destruct (N.ltb_spec t 64) as [h|h]; cbn [In].
  - split; [intros [<-|H]; auto|intros [[-> _]|H]; auto].
  - split; [auto|]. intros [[-> H]|H]; [lia|exact H].
Qed.

Lemma steps_present : forall g r ps r', steps g r ps r' -> forall x, x < 64 -> (In x (r_present r') <-> has ps x \/ In x (r_present r)).
Proof.
  intros g r ps r' S. induction S as [r|r t v r1 ps r' Hfr G E S IH]; intros x Hx.
  - unfold has. cbn. tauto.
  - rewrite (IH x Hx), (step_present _ _ _ _ _ x E). unfold has. cbn [map fst In]. split.
    + intros [H|[[-> _]|H]]; auto.
    + intros [[<-|H]|H]; auto.
Qed.

Lemma steps_fresh : forall g r ps r', steps g r ps r' -> forall x, x < 64 -> In x (r_present r) -> ~ has ps x.
Proof.
  intros g r ps r' S. induction S as [r|r t v r1 ps r' Hfr G E S IH]; intros x Hx Hin H; [exact H|].
  destruct H as [<-|H]; [exact (Hfr Hx Hin)|]. apply (IH x Hx); [|exact H]. apply (step_present _ _ _ _ _ x E). auto.
Qed.

Lemma steps_once : forall (A : Type) (P : rx -> A) (Q : list N -> A -> Prop) g t0, t0 < 64 ->
  (forall r t v r1, effect g (mark r t) r1 t v -> if t =? t0 then Q v (P r1) else P r1 = P r) ->
  forall r ps r', steps g r ps r' -> (forall v, In (t0, v) ps -> Q v (P r')) /\ (~ has ps t0 -> P r' = P r).
Proof.
  intros A P Q g t0 H64 HE r ps r' S. induction S as [r|r t v r1 ps r' Hfr G E S IH].
  - split; [intros v []|reflexivity].
  - destruct IH as [IH1 IH2]. pose proof (HE _ _ _ _ E) as X. destruct (N.eqb_spec t t0) as [->|n].
    + assert (N1 : ~ has ps t0). { apply (steps_fresh _ _ _ _ S t0 H64). apply (step_present _ _ _ _ _ t0 E). auto. }
      split.
      * intros w [Hw|Hw]; [injection Hw as <-; rewrite (IH2 N1); exact X|]. exfalso. apply N1. exact (has_in _ _ _ Hw).
      * intro H. exfalso. apply H. left. reflexivity.
    + split.
      * intros w [Hw|Hw]; [injection Hw as -> _; congruence|exact (IH1 w Hw)].
      * intro H. rewrite IH2; [exact X|]. intro Hh. apply H. right. exact Hh.
Qed.

Lemma steps_field : forall g r ps r', steps g r ps r' -> forall f,
  (has ps (field_type f) -> exists v x, In (field_type f, v) ps /\ means f v x /\ tp_n (s_remote (r_s r')) f = cut f x) /\
  (~ has ps (field_type f) -> tp_n (s_remote (r_s r')) f = tp_n (s_remote (r_s r)) f).
Proof.
  intros g r ps r' S f. induction S as [r|r t v r1 ps r' Hfr G E S IH].
  - split; [intros []|reflexivity].
  - destruct IH as [IH1 IH2]. pose proof (e_fields _ _ _ _ _ E f) as X. rewrite mark_s in X. split.
    + intro H. destruct (has_dec ps (field_type f)) as [K|K].
      * destruct (IH1 K) as (w & x & Hw & Hm & Hx). exists w, x. split; [right; exact Hw|auto].
      * destruct H as [H|H]; [|contradiction]. cbn in H. subst t. rewrite N.eqb_refl in X. destruct X as (x & Hm & Hx).
        exists v, x. split; [left; reflexivity|]. split; [exact Hm|]. rewrite (IH2 K). exact Hx.
    + intro H. rewrite IH2; [|intro K; apply H; right; exact K].
      destruct (N.eqb_spec (field_type f) t) as [K|K]; [exfalso; apply H; left; symmetry; exact K|exact X].
Qed.

Lemma steps_version : forall g r ps r', steps g r ps r' -> index_ok (s_vi (r_s r)) -> index_ok (s_vi (r_s r')) /\
  (forall v, In (17, v) ps -> g_client g = false -> version_list false (version_of (s_vi (r_s r))) v (version_of (s_vi (r_s r')))) /\
  (g_client g = true \/ ~ has ps 17 -> s_vi (r_s r') = s_vi (r_s r)).
Proof.
  intros g r ps r' S Hi. induction S as [r|r t v r1 ps r' Hfr G E S IH].
  - split; [exact Hi|]. split; [intros v []|reflexivity].
  - destruct (IH (steps_index _ _ _ _ _ Hi E)) as (I1 & I2 & I3). split; [exact I1|].
    pose proof (e_vi _ _ _ _ _ E) as X. rewrite mark_s in X.
    assert (N1 : t = 17 -> ~ has ps 17).
    { intros ->. apply (steps_fresh _ _ _ _ S 17); [lia|]. apply (step_present _ _ _ _ _ 17 E). left. split; [reflexivity|lia]. }
    split.
    + intros w [Hw|Hw] C.
      * injection Hw as -> <-. rewrite C in X. change ((17 =? 17) && negb false) with true in X. cbv iota in X. rewrite (I3 (or_intror (N1 eq_refl))). apply X.
      * specialize (I2 w Hw C). destruct (N.eqb_spec t 17) as [->|n]; [exfalso; apply (N1 eq_refl); exact (has_in _ _ _ Hw)|]. cbn [andb] in X.
        rewrite X in I2. exact I2.
    + intros C. rewrite I3; [|destruct C as [C|C]; [left; exact C|right; intro K; apply C; right; exact K]].
      destruct C as [C|C]; [rewrite C, Bool.andb_false_r in X; exact X|].
      destruct (N.eqb_spec t 17) as [->|n]; [exfalso; apply C; left; reflexivity|]. exact X.
Qed.

(** The start. *)
Definition start (s : tst) : rx := mk_rx (rx_start s) [] [] [] [].

Lemma mark_fields : forall r t, r_ocid (mark r t) = r_ocid r /\ r_rcid (mark r t) = r_rcid r.
Proof. intros r t. unfold mark. destruct (t <? 64); split; reflexivity. Qed.

Lemma seen_has : forall g s ps r t, steps g (start s) ps r -> t < 64 -> (seen r t = true <-> has ps t).
Proof.
  intros g s ps r t S Ht. unfold seen. rewrite existsb_in, (steps_present _ _ _ _ S t Ht). cbn. tauto.
Qed.
Lemma seen_not : forall g s ps r t, steps g (start s) ps r -> t < 64 -> (seen r t = false <-> ~ has ps t).
Proof. intros g s ps r t S Ht. rewrite <- (seen_has g s ps r t S Ht). destruct (seen r t); split; congruence. Qed.

Lemma steps_ocid : forall g s ps r, steps g (start s) ps r -> forall v, In (0, v) ps -> r_ocid r = v.
Proof.
  intros g s ps r S v H.
  destruct (steps_once (list N) r_ocid (fun v a => a = v) g 0 ltac:(lia)) with (r := start s) (ps := ps) (r' := r) as [H1 _]; [|exact S|exact (H1 v H)].
  intros r0 t w r1 E. rewrite (e_ocid _ _ _ _ _ E). destruct (t =? 0); [reflexivity|apply mark_fields].
Qed.
Lemma steps_rcid : forall g s ps r, steps g (start s) ps r -> forall v, In (16, v) ps -> r_rcid r = v.
Proof.
  intros g s ps r S v H.
  destruct (steps_once (list N) r_rcid (fun v a => a = v) g 16 ltac:(lia)) with (r := start s) (ps := ps) (r' := r) as [H1 _]; [|exact S|exact (H1 v H)].
  intros r0 t w r1 E. rewrite (e_rcid _ _ _ _ _ E). destruct (t =? 16); [reflexivity|apply mark_fields].
Qed.

Lemma differs_not : forall a b, cid_differs a b = false <-> a = b.
Proof. intros a b. unfold cid_differs. destruct (list_eq_dec N.eq_dec a b); split; congruence. Qed.

Lemma blen_zero : forall l : list N, (blen l =? 0) = true <-> l = [].
Proof. intros [|x l]; [split; reflexivity|]. rewrite blen_cons. split; [intro H; apply N.eqb_eq in H; lia|discriminate]. Qed.

Lemma required_iff : forall g s ps r vi, steps g (start s) ps r ->
  (rx_required g (g_client g) r vi = true <-> required g (version_of vi) ps).
Proof.
  intros g s ps r vi S. unfold rx_required, required. fold (has ps 15) (has ps 16) (has ps 2) (has ps 13) (has ps 0).
  unfold ty_reset_token, ty_preferred, ty_original_cid, ty_retry_cid, ty_handshake_cid.
  assert (IN0 : forall c, has ps 0 -> (cid_differs c (r_ocid r) = false <-> In (0, c) ps)).
  { intros c Hh. destruct (in_has _ _ Hh) as (w & Hw). pose proof (steps_ocid _ _ _ _ S w Hw) as Eo. rewrite differs_not. split.
    - intros ->. rewrite Eo. exact Hw.
    - intro H. symmetry. exact (steps_ocid _ _ _ _ S c H). }
  assert (IN16 : forall c, has ps 16 -> (cid_differs c (r_rcid r) = false <-> In (16, c) ps)).
  { intros c Hh. destruct (in_has _ _ Hh) as (w & Hw). pose proof (steps_rcid _ _ _ _ S w Hw) as Eo. rewrite differs_not. split.
    - intros ->. rewrite Eo. exact Hw.
    - intro H. symmetry. exact (steps_rcid _ _ _ _ S c H). }
  assert (SB : forall t, t < 64 -> (seen r t = true /\ has ps t) \/ (seen r t = false /\ ~ has ps t)).
  { intros t Ht. destruct (seen r t) eqn:E; [left; split; [reflexivity|]; apply (seen_has g s ps r t S Ht); exact E
      |right; split; [reflexivity|]; apply (seen_not g s ps r t S Ht); exact E]. }
  destruct (N.eqb_spec (version_of vi) 4278190107) as [V|V].
  - destruct (g_client g); cbn [negb andb].
    + destruct (SB 15 ltac:(lia)) as [[-> H15]|[-> H15]].
      * destruct (blen (g_original g) =? 0) eqn:Z; cbn [negb].
        -- apply blen_zero in Z. rewrite Z. destruct (list_eq_dec N.eq_dec [] []) as [_|n]; [|congruence].
           destruct (SB 16 ltac:(lia)) as [[-> H16]|[-> H16]]; [split; [discriminate|intros (_ & _ & H); exfalso; tauto]|].
           destruct (SB 0 ltac:(lia)) as [[-> H0]|[-> H0]]; cbn [negb orb].
           ++ split; [intro H; apply Bool.negb_true_iff in H; apply (IN0 _ H0) in H; intuition congruence|].
              intros (_ & _ & H). apply Bool.negb_true_iff. apply (IN0 _ H0). tauto.
           ++ split; [discriminate|]. intros (_ & _ & H). exfalso. apply H0. apply (has_in _ _ (g_initial g)). tauto.
        -- assert (Z' : g_original g <> []) by (intro X; apply blen_zero in X; congruence).
           destruct (list_eq_dec N.eq_dec (g_original g) []) as [n|_]; [congruence|].
           destruct (SB 16 ltac:(lia)) as [[-> H16]|[-> H16]]; cbn [negb orb].
           2: { split; [discriminate|]. intros (_ & _ & H). exfalso. apply H16. apply (has_in _ _ (g_initial g)). tauto. }
           destruct (SB 0 ltac:(lia)) as [[-> H0]|[-> H0]]; cbn [negb orb].
           2: { split; [discriminate|]. intros (_ & _ & H). exfalso. apply H0. apply (has_in _ _ (g_original g)). tauto. }
           rewrite Bool.negb_true_iff, Bool.orb_false_iff, (IN0 _ H0), (IN16 _ H16). split; [intros H; split; [congruence|split; [congruence|auto]]|intros (_ & _ & H); auto].
      * destruct (blen (g_original g) =? 0) eqn:Z; cbn [negb andb].
        -- apply blen_zero in Z. split; [intros _|reflexivity]. split; [intros _ _ H; congruence|]. split; [congruence|tauto].
        -- assert (Z' : g_original g <> []) by (intro X; apply blen_zero in X; congruence).
           destruct (SB 0 ltac:(lia)) as [[-> H0]|[-> H0]]; cbn [negb orb].
           2: { split; [discriminate|]. intros (H & _). exfalso. apply H0. apply (has_in _ _ (g_original g)). apply H; assumption. }
           rewrite Bool.negb_true_iff, (IN0 _ H0). split; [intro H; split; [auto|split; [congruence|tauto]]|intros (H & _); apply H; assumption].
    + destruct (SB 2 ltac:(lia)) as [[-> H2]|[-> H2]]; cbn [orb]; [split; [discriminate|tauto]|].
      destruct (SB 13 ltac:(lia)) as [[-> H13]|[-> H13]]; cbn [orb]; [split; [discriminate|tauto]|].
      destruct (SB 0 ltac:(lia)) as [[-> H0]|[-> H0]]; cbn [orb]; [split; [discriminate|tauto]|].
      destruct (SB 16 ltac:(lia)) as [[-> H16]|[-> H16]]; cbn [orb]; [split; [discriminate|tauto]|].
      split; [intros _; repeat split; try assumption; congruence|reflexivity].
  - destruct (g_client g); cbn [negb andb].
    + destruct (SB 15 ltac:(lia)) as [[-> H15]|[-> H15]]; cbn [negb andb]; [|split; [discriminate|tauto]].
      destruct (blen (g_original g) =? 0) eqn:Z; cbn [negb].
      * apply blen_zero in Z. rewrite Z. destruct (list_eq_dec N.eq_dec [] []) as [_|n]; [|congruence].
        destruct (SB 16 ltac:(lia)) as [[-> H16]|[-> H16]]; [split; [discriminate|tauto]|].
        destruct (SB 0 ltac:(lia)) as [[-> H0]|[-> H0]]; cbn [negb orb].
        -- rewrite Bool.negb_true_iff, (IN0 _ H0). split; [intro H; split; [congruence|split; [auto|auto]]|intros (_ & _ & H); tauto].
        -- split; [discriminate|]. intros (_ & _ & H). exfalso. apply H0. apply (has_in _ _ (g_initial g)). tauto.
      * assert (Z' : g_original g <> []) by (intro X; apply blen_zero in X; congruence).
        destruct (list_eq_dec N.eq_dec (g_original g) []) as [n|_]; [congruence|].
        destruct (SB 16 ltac:(lia)) as [[-> H16]|[-> H16]]; cbn [negb orb].
        2: { split; [discriminate|]. intros (_ & _ & H). exfalso. apply H16. apply (has_in _ _ (g_initial g)). tauto. }
        destruct (SB 0 ltac:(lia)) as [[-> H0]|[-> H0]]; cbn [negb orb].
        2: { split; [discriminate|]. intros (_ & _ & H). exfalso. apply H0. apply (has_in _ _ (g_original g)). tauto. }
        rewrite Bool.negb_true_iff, Bool.orb_false_iff, (IN0 _ H0), (IN16 _ H16). split; [intros H; split; [congruence|split; [congruence|auto]]|intros (_ & _ & H); auto].
    + destruct (SB 2 ltac:(lia)) as [[-> H2]|[-> H2]]; cbn [orb andb negb]; [split; [discriminate|tauto]|].
      destruct (SB 13 ltac:(lia)) as [[-> H13]|[-> H13]]; cbn [orb andb negb]; [split; [discriminate|tauto]|].
      destruct (SB 0 ltac:(lia)) as [[-> H0]|[-> H0]]; cbn [orb andb negb]; [split; [discriminate|tauto]|].
      destruct (SB 16 ltac:(lia)) as [[-> H16]|[-> H16]]; cbn [orb andb negb]; [split; [discriminate|tauto]|].
      destruct (SB 15 ltac:(lia)) as [[-> H15]|[-> H15]]; cbn [negb]; [|split; [discriminate|tauto]].
      split; [intros _; repeat split; auto|reflexivity].
Qed.
