(** Proofs about the validation of tuples. *)
From Verif Require Import Base Tac Mem Varint_model Cids_model Cids_spec Cids_proofs Cids2_proofs Cids3_proofs.
From Coq Require Import Lia.

Definition has_error (o : list output) : bool := existsb (fun o => match o with OError _ => true | _ => false end) o.

Lemma run_snoc l e : forall cn, run cn (l ++ [e]) =
  match run cn l with
  | Some (c, o) => if has_error o then Some (c, o) else z <~ step c e ;; let '(c', o') := z in Some (c', o ++ o')
  | None => None
  end.
Proof.
  induction l as [| x l IH]; intros cn; cbn [app run].
  - change (has_error []) with false. cbv iota. destruct (step cn e) as [[c o] |]; [| reflexivity]. cbn [obind run].
    destruct (existsb _ o); [reflexivity |]. rewrite app_nil_r. reflexivity.
  - destruct (step cn x) as [[c o] |]; [| reflexivity]. cbn [obind]. destruct (existsb _ o) eqn:Eo.
    + unfold has_error. rewrite Eo. reflexivity.
    + rewrite IH. destruct (run c l) as [[c2 o2] |]; [| reflexivity]. cbn [obind].
      assert (Hh : has_error (o ++ o2) = has_error o2) by (unfold has_error; rewrite existsb_app, Eo; reflexivity). rewrite Hh.
      destruct (has_error o2); [reflexivity |]. destruct (step c2 e) as [[c3 o3] |]; [| reflexivity]. cbn [obind]. rewrite app_assoc. reflexivity.
Qed.

(* A tuple that comes from another one without a new challenge and without validation. *)
Definition from (t' t : tuple) : Prop := tu_addr t' = tu_addr t /\ tu_chal t' = tu_chal t /\ (tu_verified t' = true -> tu_verified t = true).

Definition mono (cn cn' : conn) : Prop :=
  (forall t', In t' (tuples cn') -> exists t, In t (tuples cn) /\ from t' t) /\ cn_next cn <= cn_next cn'.

Lemma from_refl t : from t t.
Proof. repeat split; auto. Qed.

Lemma mono_refl cn : mono cn cn.
Proof. split; [| lia]. intros t Ht. exists t. split; [exact Ht | apply from_refl]. Qed.

Lemma mono_trans a b c : mono a b -> mono b c -> mono a c.
Proof.
  intros (A1 & A2) (B1 & B2). split; [| lia]. intros t Ht. destruct (B1 t Ht) as (t1 & T1 & F1 & F2 & F3). destruct (A1 t1 T1) as (t2 & T2 & G1 & G2 & G3).
  exists t2. split; [exact T2 |]. repeat split; try congruence. auto.
Qed.

Lemma mono_same cn cn' : cn_paths cn' = cn_paths cn -> cn_next cn <= cn_next cn' -> mono cn cn'.
Proof. intros H1 H2. split; [| exact H2]. unfold tuples. rewrite H1. intros t Ht. exists t. split; [exact Ht | apply from_refl]. Qed.

Lemma in_set_nth {A} (l : list A) i x y : In y (set_nth l i x) -> y = x \/ In y l.
Proof.
  unfold set_nth. intros H. apply in_app_iff in H. destruct H as [H | [H | H]]; [right | left; auto | right].
  - rewrite <- (firstn_skipn i l). apply in_app_iff. left. exact H.
  - rewrite <- (firstn_skipn (i + 1) l). apply in_app_iff. right. exact H.
Qed.

Lemma in_tuples cn i p t : nth_error (cn_paths cn) i = Some p -> In t (pa_tuples p) -> In t (tuples cn).
Proof. intros H Ht. apply in_flat_map. exists p. split; [exact (nth_error_In _ _ H) | exact Ht]. Qed.

Lemma mono_set cn i p p' : nth_error (cn_paths cn) i = Some p ->
  (forall t', In t' (pa_tuples p') -> exists t, In t (pa_tuples p) /\ from t' t) -> mono cn (set_paths cn (set_nth (cn_paths cn) i p')).
Proof.
  intros Hp H. split; [| cbn; lia]. intros t' Ht'. apply in_flat_map in Ht'. destruct Ht' as (q & Hq & Ht').
  cbn [set_paths cn_paths] in Hq. apply in_set_nth in Hq. destruct Hq as [-> | Hq].
  - destruct (H t' Ht') as (t & T1 & T2). exists t. split; [exact (in_tuples _ _ _ _ Hp T1) | exact T2].
  - exists t'. split; [apply in_flat_map; exists q; auto | apply from_refl].
Qed.

Lemma mono_first cn i f : (forall t, from (f t) t) -> mono cn (map_first cn i f).
Proof.
  intros Hf. unfold map_first. destruct (nth_error (cn_paths cn) i) as [p |] eqn:Ep; [| apply mono_refl].
  destruct (pa_tuples p) as [| t r] eqn:Et; [apply mono_refl |]. apply (mono_set cn i p); [exact Ep |].
  rewrite Et. cbn [set_tuples pa_tuples]. intros t' [<- | Ht']; [exists t; split; [left; reflexivity | apply Hf] | exists t'; split; [right; exact Ht' | apply from_refl]].
Qed.

Lemma mono_map_rcid cn a f : mono cn (map_rcid a f cn).
Proof. apply mono_same; [reflexivity | cbn; lia]. Qed.
Lemma mono_map_stash cn p f : mono cn (map_stash p f cn).
Proof. apply mono_same; [reflexivity | cbn; lia]. Qed.
Lemma mono_retire cn p q : mono cn (add_retire cn p q).
Proof. apply mono_same; [reflexivity | cbn; lia]. Qed.
Lemma mono_retires p q : forall cn, mono cn (fold_left (fun cn x => add_retire cn p x) q cn).
Proof.
  induction q as [| x q IH]; intros cn; cbn [fold_left]; [apply mono_refl |]. eapply mono_trans; [apply mono_retire | apply IH].
Qed.

Lemma from_cid c t : from (set_cid c t) t.
Proof. repeat split; auto. Qed.

Lemma mono_dereference cn i cn' : dereference cn i = Some cn' -> mono cn cn'.
Proof.
  unfold dereference. intros H. ob H p Ep. ob H t Et. ob H c1 E1. apply some_inj in H. subst cn'.
  eapply mono_trans; [| apply mono_first; intros; apply from_cid].
  destruct (tu_cid t) as [a |]; [| apply some_inj in E1; subst; apply mono_refl]. ob E1 e Ee.
  destruct (rc_refs e <=? 1); apply some_inj in E1; subst c1; [| apply mono_map_rcid].
  apply mono_same; destruct (rc_sent e), (rc_acked e); try reflexivity; cbn; lia.
Qed.

Lemma mono_renew cn i ok cn' : renew_path cn i = Some (ok, cn') -> mono cn cn'.
Proof.
  unfold renew_path. intros H. ob H p Ep. ob H t Et. cbv zeta in H.
  destruct (find_stash cn _) as [s |]; [| apply some_pair_inj in H; destruct H as (_ & <-); apply mono_refl].
  ob H cur Ec. destruct (_ || _); [apply some_pair_inj in H; destruct H as (_ & <-); apply mono_refl |].
  destruct (get_cnxid _); [| apply some_pair_inj in H; destruct H as (_ & <-); apply mono_refl].
  destruct (match cur with Some _ => _ | None => _ end); [apply some_pair_inj in H; destruct H as (_ & <-); apply mono_refl |].
  ob H c3 E3. apply some_pair_inj in H. destruct H as (_ & <-).
  eapply mono_trans; [exact (mono_dereference _ _ _ E3) |]. eapply mono_trans; [| apply mono_map_rcid]. apply mono_first. intros; apply from_cid.
Qed.

Lemma mono_demote cn i cn' : demote_path cn i = Some cn' -> mono cn cn'.
Proof.
  unfold demote_path. intros H. ob H p Ep. destruct (pa_demoted p); [apply some_inj in H; subst; apply mono_refl |].
  set (c0 := set_paths cn _) in H.
  assert (M0 : mono cn c0).
  { apply (mono_set cn i p); [exact Ep |]. cbn [pa_tuples]. intros t Ht. exists t. split; [exact Ht | apply from_refl]. }
  cbv zeta in H. destruct (cn_mp c0); [| apply some_inj in H; subst; exact M0].
  eapply mono_trans; [exact M0 |]. clear M0. ob H z Ez. destruct z as [i2 c2].
  assert (M1 : mono c0 c2).
  { destruct i; [| apply some_pair_inj in Ez; destruct Ez as (_ & <-); apply mono_refl]. ob Ez t Et.
    destruct (tu_cid t); [| apply some_pair_inj in Ez; destruct Ez as (_ & <-); apply mono_refl].
    destruct (cn_paths c0) as [| a [| b r]] eqn:Ec; [apply some_pair_inj in Ez; destruct Ez as (_ & <-); apply mono_refl | apply some_pair_inj in Ez; destruct Ez as (_ & <-); apply mono_refl |].
    apply some_pair_inj in Ez. destruct Ez as (_ & <-). split; [| cbn; lia].
    intros t' Ht'. exists t'. split; [| apply from_refl]. unfold tuples in *. cbn [set_paths cn_paths] in Ht'. rewrite Ec. cbn [flat_map] in *.
    rewrite !in_app_iff in *. tauto. }
  eapply mono_trans; [exact M1 |]. clear M1. destruct i2; [apply some_inj in H; subst; apply mono_refl |].
  ob H p2 Ep2. destruct (pa_abandoned p2); [apply some_inj in H; subst; apply mono_refl |].
  set (c3 := match find_stash c2 (pa_id p2) with Some _ => _ | None => _ end) in H.
  assert (M2 : mono c2 c3).
  { unfold c3. destruct (find_stash c2 (pa_id p2)); [| apply mono_refl].
    eapply mono_trans; [apply mono_first; intros; apply (from_cid None) |]. apply mono_same; [reflexivity | apply N.le_refl]. }
  cbv zeta in H. ob H p3 Ep3. apply some_inj in H. subst cn'. eapply mono_trans; [exact M2 |].
  apply (mono_set c3 _ p3); [exact Ep3 |]. cbn [pa_tuples]. intros t Ht. exists t. split; [exact Ht | apply from_refl].
Qed.

Lemma mono_renew_below cn i b err cn' : renew_below cn i b = Some (err, cn') -> mono cn cn'.
Proof.
  unfold renew_below. intros H. ob H p Ep. ob H e Ee. destruct (_ && _); [| apply some_pair_inj in H; destruct H as (_ & <-); apply mono_refl].
  ob H z Ez. destruct z as [ok c1]. pose proof (mono_renew _ _ _ _ Ez) as M. destruct ok; [apply some_pair_inj in H; destruct H as (_ & <-); exact M |].
  destruct i; [apply some_pair_inj in H; destruct H as (_ & <-); exact M |]. ob H c2 E2. apply some_pair_inj in H. destruct H as (_ & <-).
  eapply mono_trans; [exact M | exact (mono_demote _ _ _ E2)].
Qed.

Lemma mono_renew_all n : forall cn i b err cn', renew_all n cn i b = Some (err, cn') -> mono cn cn'.
Proof.
  induction n as [| n IH]; intros cn i b err cn' H; cbn [renew_all] in H; [apply some_pair_inj in H; destruct H as (_ & <-); apply mono_refl |].
  destruct (_ <=? _)%nat; [apply some_pair_inj in H; destruct H as (_ & <-); apply mono_refl |].
  ob H z Ez. destruct z as [er c1]. pose proof (mono_renew_below _ _ _ _ _ Ez) as M.
  destruct (er =? 0); [| apply some_pair_inj in H; destruct H as (_ & <-); exact M]. eapply mono_trans; [exact M | exact (IH _ _ _ _ _ H)].
Qed.

Lemma mono_remove cn p b err cn' : remove_not_before cn p b = Some (err, cn') -> mono cn cn'.
Proof.
  unfold remove_not_before. intros H. destruct (find_stash cn p) as [s |]; [| apply some_pair_inj in H; destruct H as (_ & <-); apply mono_refl].
  destruct (retire_below (sh_list s) b) as [l q]. cbv zeta in H.
  set (c1 := fold_left _ q _) in H.
  assert (M : mono cn c1) by (unfold c1; eapply mono_trans; [apply (mono_map_stash cn p (fun s => mk_stash (sh_path s) (sh_before s) l)) | apply mono_retires]).
  eapply mono_trans; [exact M |]. clear M. destruct (cn_mp c1).
  - destruct (path_index _ p); [exact (mono_renew_below _ _ _ _ _ H) | apply some_pair_inj in H; destruct H as (_ & <-); apply mono_refl].
  - exact (mono_renew_all _ _ _ _ _ _ H).
Qed.

Lemma mono_add cn s b q id sc err cn' : add_remote_cnxid cn s b q id sc = Some (err, cn') -> mono cn cn'.
Proof.
  unfold add_remote_cnxid. cbv zeta. intros H. destruct (_ || _); [apply some_pair_inj in H; destruct H as (_ & <-); apply mono_refl |].
  ob H e Ee. destruct (blen _ =? 0); [apply some_pair_inj in H; destruct H as (_ & <-); apply mono_refl |].
  destruct (scan_stash _ _ _ _ _ _ _) as [er | [[[|] nb] ret]]; [apply some_pair_inj in H; destruct H as (_ & <-); apply mono_refl | apply some_pair_inj in H; destruct H as (_ & <-); apply mono_refl |].
  destruct (_ || _); [apply some_pair_inj in H; destruct H as (_ & <-); apply mono_refl |]. apply some_pair_inj in H. destruct H as (_ & <-).
  apply mono_same; [reflexivity | cbn; lia].
Qed.

Lemma mono_create cn p : mono cn (create_stash cn p).
Proof. unfold create_stash. destruct (find_stash cn p); [apply mono_refl |]. apply mono_same; [reflexivity | cbn; lia]. Qed.

Lemma mono_new cn m p q b id sc err cn' : new_connection_id cn m p q b id sc = Some (err, cn') -> mono cn cn'.
Proof.
  unfold new_connection_id. intros H. repeat (match type of H with (if ?c then _ else _) = _ => destruct c end; [apply some_pair_inj in H; destruct H as (_ & <-); apply mono_refl |]).
  cbv zeta in H. eapply mono_trans; [apply (mono_create cn p) |]. ob H s Es. ob H z Ez. destruct z as [er c1].
  eapply mono_trans; [exact (mono_add _ _ _ _ _ _ _ _ Ez) |].
  destruct (_ && _); [| apply some_pair_inj in H; destruct H as (_ & <-); apply mono_refl].
  eapply mono_trans; [apply (mono_map_stash c1 p (fun s => mk_stash (sh_path s) b (sh_list s))) | exact (mono_remove _ _ _ _ _ H)].
Qed.

Lemma mono_ack cn l : mono cn (ack_retire cn l).
Proof.
  unfold ack_retire. repeat match goal with |- context[match ?x with Some _ => _ | None => _ end] => destruct x as [[] |] || destruct x end;
  try apply mono_refl; apply mono_same; try reflexivity; cbn; lia.
Qed.

Lemma mono_delete_tuple cn i j cn' : delete_tuple cn i j = Some cn' -> mono cn cn'.
Proof.
  unfold delete_tuple. intros H. ob H p Ep. destruct j as [| j]; [apply some_inj in H; subst; apply mono_refl |].
  destruct (nth_error (pa_tuples p) (S j)) as [t |]; [| apply some_inj in H; subst; apply mono_refl].
  destruct (_ && _); apply some_inj in H; subst; [| apply mono_refl]. apply (mono_set cn i p); [exact Ep |].
  cbn [set_tuples pa_tuples]. intros t' Ht'. exists t'. split; [| apply from_refl]. apply in_app_iff in Ht'. destruct Ht' as [Ht' | Ht'].
  - rewrite <- (firstn_skipn (S j) (pa_tuples p)). apply in_app_iff. left. exact Ht'.
  - rewrite <- (firstn_skipn (S j + 1) (pa_tuples p)). apply in_app_iff. right. exact Ht'.
Qed.

Lemma mono_delete_path cn i cn' : delete_path cn i = Some cn' -> mono cn cn'.
Proof.
  unfold delete_path. intros H. ob H p Ep. destruct (_ && _); [| apply some_inj in H; subst; apply mono_refl].
  ob H c1 E1. apply some_inj in H. subst cn'. eapply mono_trans; [exact (mono_dereference _ _ _ E1) |]. split; [| cbn; lia].
  intros t' Ht'. exists t'. split; [| apply from_refl]. apply in_flat_map in Ht'. destruct Ht' as (q & Hq & Ht'). apply in_flat_map. exists q. split; [| exact Ht'].
  cbn [set_paths cn_paths] in Hq. apply in_app_iff in Hq. destruct Hq as [Hq | Hq].
  - rewrite <- (firstn_skipn i (cn_paths c1)). apply in_app_iff. left. exact Hq.
  - rewrite <- (firstn_skipn (i + 1) (cn_paths c1)). apply in_app_iff. right. exact Hq.
Qed.

(* The events that neither draw, nor send, nor answer a challenge. *)
Definition quiet (e : event) : bool :=
  match e with ETuple _ _ | EPath _ _ | ESetChallenge _ _ | EChallenge _ _ | EResponse _ _ => false | _ => true end.

Lemma quiet_step cn e cn' o : quiet e = true -> step cn e = Some (cn', o) -> mono cn cn' /\ forall t v, ~ In (OChallenge t v) o.
Proof.
  intros Hq H. destruct e as [is_mp p seq before id secret | p seq | i | i chal | pid chal | i v | i j | i chal | i | i j | i | i | i j]; try discriminate Hq; cbn [step] in H.
  - destruct (_ && _); [apply some_pair_inj in H; destruct H as (<- & <-); split; [apply mono_refl | intros t v []] |].
    ob H z Ez. destruct z as [err c1]. apply some_pair_inj in H. destruct H as (<- & <-). split; [exact (mono_new _ _ _ _ _ _ _ _ _ Ez) |].
    intros t v. destruct (err =? 0); [intros [] | intros [Hc | []]; discriminate Hc].
  - destruct (existsb _ _); apply some_pair_inj in H; destruct H as (<- & <-); (split; [first [apply mono_ack | apply mono_refl] | intros t v []]).
  - destruct (_ <? _)%nat; [| apply some_pair_inj in H; destruct H as (<- & <-); split; [apply mono_refl | intros t v []]].
    ob H z Ez. destruct z as [ok c1]. apply some_pair_inj in H. destruct H as (<- & <-). split; [exact (mono_renew _ _ _ _ Ez) | intros t v []].
  - apply some_pair_inj in H. destruct H as (<- & <-). split; [apply mono_first; intros t; repeat split; auto | intros t v []].
  - destruct (_ <? _)%nat; [| apply some_pair_inj in H; destruct H as (<- & <-); split; [apply mono_refl | intros t v []]].
    ob H c1 E1. apply some_pair_inj in H. destruct H as (<- & <-). split; [exact (mono_delete_tuple _ _ _ _ E1) | intros t v []].
  - destruct (_ <? _)%nat; [| apply some_pair_inj in H; destruct H as (<- & <-); split; [apply mono_refl | intros t v []]].
    ob H c1 E1. apply some_pair_inj in H. destruct H as (<- & <-). split; [exact (mono_demote _ _ _ E1) | intros t v []].
  - destruct (_ <? _)%nat; [| apply some_pair_inj in H; destruct H as (<- & <-); split; [apply mono_refl | intros t v []]].
    ob H c1 E1. apply some_pair_inj in H. destruct H as (<- & <-). split; [exact (mono_delete_path _ _ _ E1) | intros t v []].
  - destruct (_ <? _)%nat; [| apply some_pair_inj in H; destruct H as (<- & <-); split; [apply mono_refl | intros t v []]].
    ob H p Ep. destruct (_ <? _)%nat; [| apply some_pair_inj in H; destruct H as (<- & <-); split; [apply mono_refl | intros t v []]].
    ob H idb Eid. apply some_pair_inj in H. destruct H as (<- & <-). split; [apply mono_refl | intros t v [Hc | []]; discriminate Hc].
Qed.

(* Who has which challenges: the values that were drawn, and the tuple they were given to. *)
Record vinv (chal : N * N * N) (cn0 : conn) (h : list event) (cn : conn) (out : list output) : Prop := mk_vinv {
  v_drawn : forall t v, In t (tuples cn) -> In v (chal_list (tu_chal t)) -> In v (chal_list chal ++ flat_map drawn h);
  v_own : forall t t' v, In t (tuples cn) -> In t' (tuples cn) -> In v (chal_list (tu_chal t)) -> In v (chal_list (tu_chal t')) -> tu_addr t = tu_addr t';
  v_out : forall a v, In (OChallenge a v) out -> In v (chal_list chal ++ flat_map drawn h) /\ (forall t, In t (tuples cn) -> In v (chal_list (tu_chal t)) -> tu_addr t = a);
  v_ver : forall t, In t (tuples cn) -> tu_verified t = true -> (tu_addr t = 1 /\ tu_chal t = chal) \/ validated cn0 h (tu_chal t) (tu_addr t)
}.

Lemma validated_more cn h e c t : validated cn h c t -> validated cn (h ++ [e]) c t.
Proof.
  intros (l1 & i & v & l2 & cn1 & out1 & -> & H). exists l1, i, v, (l2 ++ [e]), cn1, out1. rewrite <- app_assoc. split; [reflexivity | exact H].
Qed.

Lemma vinv_mono chal cn0 h cn out e cn' o :
  vinv chal cn0 h cn out -> mono cn cn' -> (forall a v, ~ In (OChallenge a v) o) -> vinv chal cn0 (h ++ [e]) cn' (out ++ o).
Proof.
  intros [V1 V2 V3 V4] (M & _) Ho.
  assert (Hd : forall v, In v (chal_list chal ++ flat_map drawn h) -> In v (chal_list chal ++ flat_map drawn (h ++ [e]))).
  { intros v Hv. rewrite flat_map_app. rewrite !in_app_iff in *. tauto. }
  constructor.
  - intros t v Ht Hv. destruct (M t Ht) as (t0 & T & F1 & F2 & F3). rewrite F2 in Hv. apply Hd. exact (V1 t0 v T Hv).
  - intros t t' v Ht Ht' Hv Hv'. destruct (M t Ht) as (t0 & T & F1 & F2 & F3). destruct (M t' Ht') as (t1 & T1 & G1 & G2 & G3).
    rewrite F2 in Hv. rewrite G2 in Hv'. rewrite F1, G1. exact (V2 t0 t1 v T T1 Hv Hv').
  - intros a v Hin. apply in_app_iff in Hin. destruct Hin as [Hin | Hin]; [| exfalso; exact (Ho a v Hin)].
    destruct (V3 a v Hin) as (W1 & W2). split; [exact (Hd v W1) |]. intros t Ht Hv. destruct (M t Ht) as (t0 & T & F1 & F2 & F3).
    rewrite F2 in Hv. rewrite F1. exact (W2 t0 T Hv).
  - intros t Ht Hver. destruct (M t Ht) as (t0 & T & F1 & F2 & F3). rewrite F1, F2. destruct (V4 t0 T (F3 Hver)) as [L | R]; [left; exact L | right; apply validated_more; exact R].
Qed.

(* A tuple with new challenges. *)
Lemma vinv_fresh chal cn0 h cn out e cn' (tn : tuple) :
  vinv chal cn0 h cn out -> NoDup (chal_list chal ++ flat_map drawn (h ++ [e])) -> drawn e = chal_list (tu_chal tn) -> tu_verified tn = false ->
  (forall t', In t' (tuples cn') -> (exists t, In t (tuples cn) /\ from t' t) \/ (tu_addr t' = tu_addr tn /\ tu_chal t' = tu_chal tn /\ tu_verified t' = false)) ->
  vinv chal cn0 (h ++ [e]) cn' (out ++ []).
Proof.
  intros [V1 V2 V3 V4] Hn He Hf M. rewrite app_nil_r. rewrite flat_map_app, app_assoc in Hn. cbn [flat_map] in Hn. rewrite app_nil_r in Hn.
  set (D := chal_list chal ++ flat_map drawn h) in *.
  assert (Hx : forall v, In v D -> ~ In v (drawn e)).
  { clear - Hn. induction D as [| x D IH]; intros v Hv Hc; [exact Hv |]. cbn [app] in Hn. inversion Hn as [| y m Hy Hm]; subst.
    destruct Hv as [-> | Hv]; [apply Hy; apply in_app_iff; right; exact Hc | exact (IH Hm v Hv Hc)]. }
  rewrite He in Hx.
  assert (Hd : forall v, In v D -> In v (chal_list chal ++ flat_map drawn (h ++ [e]))).
  { intros v Hv. rewrite flat_map_app, app_assoc. apply in_app_iff. left. exact Hv. }
  assert (Hd2 : forall v, In v (chal_list (tu_chal tn)) -> In v (chal_list chal ++ flat_map drawn (h ++ [e]))).
  { intros v Hv. rewrite flat_map_app, app_assoc. apply in_app_iff. right. cbn [flat_map]. rewrite app_nil_r, He. exact Hv. }
  constructor.
  - intros t v Ht Hv. destruct (M t Ht) as [(t0 & T & F1 & F2 & F3) | (F1 & F2 & F3)]; rewrite F2 in Hv; [apply Hd; exact (V1 t0 v T Hv) | exact (Hd2 v Hv)].
  - intros t t' v Ht Ht' Hv Hv'. destruct (M t Ht) as [(t0 & T & F1 & F2 & F3) | (F1 & F2 & F3)], (M t' Ht') as [(t1 & T1 & G1 & G2 & G3) | (G1 & G2 & G3)]; rewrite F2 in Hv; rewrite G2 in Hv'.
    + rewrite F1, G1. exact (V2 t0 t1 v T T1 Hv Hv').
    + exfalso. exact (Hx v (V1 t0 v T Hv) Hv').
    + exfalso. exact (Hx v (V1 t1 v T1 Hv') Hv).
    + congruence.
  - intros a v Hin. destruct (V3 a v Hin) as (W1 & W2). split; [exact (Hd v W1) |]. intros t Ht Hv.
    destruct (M t Ht) as [(t0 & T & F1 & F2 & F3) | (F1 & F2 & F3)]; rewrite F2 in Hv; [rewrite F1; exact (W2 t0 T Hv) | exfalso; exact (Hx v W1 Hv)].
  - intros t Ht Hver. destruct (M t Ht) as [(t0 & T & F1 & F2 & F3) | (F1 & F2 & F3)]; [| congruence].
    rewrite F1, F2. destruct (V4 t0 T (F3 Hver)) as [L | R]; [left; exact L | right; apply validated_more; exact R].
Qed.

Lemma vinv_step chal cn0 h cn out e cn' o :
  vinv chal cn0 h cn out -> run cn0 h = Some (cn, out) -> NoDup (chal_list chal ++ flat_map drawn (h ++ [e])) -> only_answers cn0 (h ++ [e]) ->
  step cn e = Some (cn', o) -> vinv chal cn0 (h ++ [e]) cn' (out ++ o).
Proof.
  intros V R Hn Ha H. destruct (quiet e) eqn:Eq.
  { destruct (quiet_step _ _ _ _ Eq H) as (M & Ho). exact (vinv_mono _ _ _ _ _ _ _ _ V M Ho). }
  assert (Hidle : cn' = cn -> o = [] -> vinv chal cn0 (h ++ [e]) cn' (out ++ o)).
  { intros -> ->. apply (vinv_mono _ _ _ cn); [exact V | apply mono_refl | intros a v []]. }
  destruct e as [is_mp p seq before id secret | p seq | i | i c | pid c | i v | i j | i c | i | i j | i | i | i j]; try discriminate Eq; cbn [step] in H.
  - destruct (_ <? _)%nat; [| apply some_pair_inj in H; destruct H as (<- & <-); exact (Hidle eq_refl eq_refl)].
    ob H c1 E1. apply some_pair_inj in H. destruct H as (<- & <-). unfold new_tuple in E1. ob E1 p Ep.
    destruct (obtain_stashed cn (pa_id p)) as [e |] eqn:Eo; [| apply some_inj in E1; subst c1; exact (Hidle eq_refl eq_refl)].
    unfold assign_cid in E1. rewrite Eo in E1. apply some_inj in E1. subst c1.
    apply (vinv_fresh _ _ _ cn _ _ _ (mk_tuple (cn_next cn) (Some (rc_addr e)) c 0 true false false)); auto.
    intros t' Ht'. apply in_flat_map in Ht'. destruct Ht' as (q & Hq & Ht'). cbn [set_paths cn_paths] in Hq. apply in_set_nth in Hq. destruct Hq as [-> | Hq].
    + cbn [set_tuples pa_tuples] in Ht'. apply in_app_iff in Ht'. destruct Ht' as [Ht' | [<- | []]]; [left | right; auto].
      exists t'. split; [exact (in_tuples _ _ _ _ Ep Ht') | apply from_refl].
    + left. exists t'. split; [apply in_flat_map; exists q; auto | apply from_refl].
  - destruct (cn_mp cn); [| apply some_pair_inj in H; destruct H as (<- & <-); exact (Hidle eq_refl eq_refl)].
    apply some_pair_inj in H. destruct H as (<- & <-). unfold new_path.
    destruct (path_index (cn_paths cn) pid); [apply (vinv_mono _ _ _ cn); [exact V | apply mono_refl | intros a v []] |].
    destruct (assign_cid cn (mk_path pid [] false false)) as [cc c1] eqn:Ea.
    assert (P1 : cn_paths c1 = cn_paths cn).
    { unfold assign_cid in Ea. destruct (obtain_stashed cn _); apply pair_equal_spec in Ea; destruct Ea as (_ & <-); reflexivity. }
    apply (vinv_fresh _ _ _ cn _ _ _ (mk_tuple (cn_next c1) cc c 0 true false false)); auto.
    intros t' Ht'. apply in_flat_map in Ht'. destruct Ht' as (q & Hq & Ht'). cbn [set_paths cn_paths] in Hq. rewrite P1 in Hq. apply in_app_iff in Hq. destruct Hq as [Hq | [<- | []]].
    + left. exists t'. split; [apply in_flat_map; exists q; auto | apply from_refl].
    + right. cbn [set_tuples pa_tuples] in Ht'. destruct Ht' as [<- | []]. auto.
  - destruct (_ <? _)%nat; [| apply some_pair_inj in H; destruct H as (<- & <-); exact (Hidle eq_refl eq_refl)].
    ob H c1 E1. apply some_pair_inj in H. destruct H as (<- & <-). unfold path_response in E1. ob E1 p Ep.
    destruct (split_challenge (pa_tuples p) v) as [[[a t] b] |] eqn:Es; [| apply some_inj in E1; subst c1; exact (Hidle eq_refl eq_refl)].
    destruct (tu_verified t) eqn:Ev; [apply some_inj in E1; subst c1; exact (Hidle eq_refl eq_refl) |]. apply some_inj in E1. subst c1.
    destruct (split_challenge_eq _ _ _ _ _ Es) as (S1 & S2).
    destruct (Ha h i v [] eq_refl) as (cn1 & out1 & ad & R1 & R2). rewrite R in R1. apply some_pair_inj in R1. destruct R1 as (<- & <-).
    assert (Ht : In t (tuples cn)) by (apply (in_tuples _ _ _ _ Ep); rewrite S1; apply in_app_iff; right; left; reflexivity).
    destruct (v_out _ _ _ _ _ V ad v R2) as (_ & Hown). specialize (Hown t Ht S2).
    set (cn' := set_paths cn _). rewrite app_nil_r.
    assert (Hc : forall t', In t' (tuples cn') -> exists t0, In t0 (tuples cn) /\ tu_addr t' = tu_addr t0 /\ tu_chal t' = tu_chal t0 /\ (from t' t0 \/ t0 = t)).
    { intros t' Ht'. apply in_flat_map in Ht'. destruct Ht' as (q & Hq & Ht'). unfold cn' in Hq. cbn [set_paths cn_paths] in Hq. apply in_set_nth in Hq. destruct Hq as [-> | Hq].
      - cbn [set_tuples pa_tuples] in Ht'. destruct Ht' as [<- | Ht']; [exists t; auto |].
        exists t'. split; [| split; [reflexivity | split; [reflexivity | left; apply from_refl]]]. apply (in_tuples _ _ _ _ Ep). rewrite S1. apply in_app_iff. apply in_app_iff in Ht'. destruct Ht'; [left; auto | right; right; auto].
      - exists t'. split; [apply in_flat_map; exists q; auto |]. split; [reflexivity | split; [reflexivity | left; apply from_refl]]. }
    assert (Hd : forall v, In v (chal_list chal ++ flat_map drawn h) -> In v (chal_list chal ++ flat_map drawn (h ++ [EResponse i v]))).
    { intros w Hw. rewrite flat_map_app. cbn [flat_map drawn]. rewrite app_nil_r. exact Hw. }
    assert (Hd' : forall w, In w (chal_list chal ++ flat_map drawn h) -> In w (chal_list chal ++ flat_map drawn (h ++ [EResponse i v]))).
    { intros w Hw. rewrite flat_map_app. cbn [flat_map drawn]. rewrite app_nil_r. exact Hw. }
    destruct V as [V1 V2 V3 V4]. constructor.
    + intros t1 w Ht1 Hw. destruct (Hc t1 Ht1) as (t0 & T & F1 & F2 & F3). rewrite F2 in Hw. apply Hd'. exact (V1 t0 w T Hw).
    + intros t1 t2 w Ht1 Ht2 Hw Hw2. destruct (Hc t1 Ht1) as (t0 & T & F1 & F2 & F3). destruct (Hc t2 Ht2) as (t3 & T3 & G1 & G2 & G3).
      rewrite F2 in Hw. rewrite G2 in Hw2. rewrite F1, G1. exact (V2 t0 t3 w T T3 Hw Hw2).
    + intros a0 w Hin. destruct (V3 a0 w Hin) as (W1 & W2). split; [exact (Hd' w W1) |]. intros t1 Ht1 Hw. destruct (Hc t1 Ht1) as (t0 & T & F1 & F2 & F3).
      rewrite F2 in Hw. rewrite F1. exact (W2 t0 T Hw).
    + intros t1 Ht1 Hver. destruct (Hc t1 Ht1) as (t0 & T & F1 & F2 & F3). rewrite F1, F2. destruct F3 as [(_ & _ & F3) | ->].
      * destruct (V4 t0 T (F3 Hver)) as [L | Rr]; [left; exact L | right; apply validated_more; exact Rr].
      * right. exists h, i, v, [], cn, out. split; [reflexivity |]. split; [exact S2 |]. split; [exact R |]. rewrite Hown. exact R2.
  - destruct (_ <? _)%nat; [| apply some_pair_inj in H; destruct H as (<- & <-); exact (Hidle eq_refl eq_refl)].
    ob H ot Eot. ob Eot p Ep. apply some_inj in Eot. ob H z Ez. destruct z as [ov c1]. apply some_pair_inj in H. destruct H as (<- & <-).
    unfold send_challenge in Ez. rewrite Ep in Ez. cbn [obind] in Ez. rewrite Eot in Ez. destruct ot as [t |].
    2: { apply some_pair_inj in Ez. destruct Ez as (<- & <-). exact (Hidle eq_refl eq_refl). }
    destruct (tu_verified t || tu_failed t); [apply some_pair_inj in Ez; destruct Ez as (<- & <-); exact (Hidle eq_refl eq_refl) |].
    pose proof (nth_error_In _ _ Eot) as Hin. destruct (tu_count t <? 3).
    + ob Ez v Ev. apply some_pair_inj in Ez. destruct Ez as (<- & <-). pose proof (nth_error_In _ _ Ev) as Hv.
      assert (Ht : In t (tuples cn)) by exact (in_tuples _ _ _ _ Ep Hin).
      set (cn' := set_paths cn _).
      assert (M : mono cn cn').
      { apply (mono_set cn i p); [exact Ep |]. cbn [set_tuples pa_tuples]. intros t' Ht'. apply in_set_nth in Ht'. destruct Ht' as [-> | Ht'].
        - exists t. split; [exact Hin | repeat split; auto].
        - exists t'. split; [exact Ht' | apply from_refl]. }
      assert (V' : vinv chal cn0 (h ++ [EChallenge i j]) cn' (out ++ [])) by (apply (vinv_mono _ _ _ cn); [exact V | exact M | intros x y []]).
      rewrite app_nil_r in V'. constructor; [exact (v_drawn _ _ _ _ _ V') | exact (v_own _ _ _ _ _ V') | | exact (v_ver _ _ _ _ _ V')].
      intros a w Hw. apply in_app_iff in Hw. destruct Hw as [Hw | [Hw | []]]; [exact (v_out _ _ _ _ _ V' a w Hw) |].
      assert (Hw' : tu_addr t = a /\ v = w) by (split; congruence). destruct Hw' as (<- & <-). split.
      * rewrite flat_map_app. cbn [flat_map drawn]. rewrite app_nil_r. exact (v_drawn _ _ _ _ _ V t v Ht Hv).
      * intros t1 Ht1 Hv1. destruct M as (M & _). destruct (M t1 Ht1) as (t0 & T & F1 & F2 & F3). rewrite F2 in Hv1. rewrite F1.
        exact (v_own _ _ _ _ _ V t0 t v T Ht Hv1 Hv).
    + apply some_pair_inj in Ez. destruct Ez as (<- & <-). apply (vinv_mono _ _ _ cn); [exact V | | intros x y []].
      apply (mono_set cn i p); [exact Ep |]. cbn [set_tuples pa_tuples]. intros t' Ht'. apply in_app_iff in Ht'. destruct Ht' as [Ht' | Ht'].
      * exists t'. split; [| apply from_refl]. rewrite <- (firstn_skipn j (pa_tuples p)). apply in_app_iff. left. exact Ht'.
      * apply in_app_iff in Ht'. destruct Ht' as [Ht' | [<- | []]].
        -- exists t'. split; [| apply from_refl]. rewrite <- (firstn_skipn (j + 1) (pa_tuples p)). apply in_app_iff. right. exact Ht'.
        -- exists t. split; [exact Hin | repeat split; auto].
  - apply some_pair_inj in H. destruct H as (<- & <-). unfold set_challenge, map_first.
    destruct (nth_error (cn_paths cn) i) as [p |] eqn:Ep; [| apply (vinv_mono _ _ _ cn); [exact V | apply mono_refl | intros x y []]].
    destruct (pa_tuples p) as [| t r] eqn:Et; [apply (vinv_mono _ _ _ cn); [exact V | apply mono_refl | intros x y []] |].
    assert (Ht : In t (tuples cn)) by (apply (in_tuples _ _ _ _ Ep); rewrite Et; left; reflexivity).
    apply (vinv_fresh _ _ _ cn _ _ _ (mk_tuple (tu_addr t) (tu_cid t) c 0 true false (tu_failed t))); auto.
    intros t' Ht'. apply in_flat_map in Ht'. destruct Ht' as (q & Hq & Ht'). cbn [set_paths cn_paths] in Hq. apply in_set_nth in Hq. destruct Hq as [-> | Hq].
    + cbn [set_tuples pa_tuples] in Ht'. destruct Ht' as [<- | Ht'].
      * destruct (negb (tu_required t) || tu_verified t); [right; auto | left; exists t; split; [exact Ht | apply from_refl]].
      * left. exists t'. split; [apply (in_tuples _ _ _ _ Ep); rewrite Et; right; exact Ht' | apply from_refl].
    + left. exists t'. split; [apply in_flat_map; exists q; auto | apply from_refl].
Qed.

Lemma vinv_init mp limit mx ml mr id secret chal :
  vinv chal (init_conn mp limit mx ml mr id secret chal) [] (init_conn mp limit mx ml mr id secret chal) [].
Proof.
  set (cn0 := init_conn mp limit mx ml mr id secret chal).
  assert (Ht : forall t, In t (tuples cn0) -> t = mk_tuple 1 (Some 0) chal 0 true true false) by (intros t [<- | []]; reflexivity).
  constructor.
  - intros t v H Hv. rewrite (Ht t H) in Hv. cbn [flat_map]. rewrite app_nil_r. exact Hv.
  - intros t t' v H H' _ _. rewrite (Ht t H), (Ht t' H'). reflexivity.
  - intros a v [].
  - intros t H _. left. rewrite (Ht t H). split; reflexivity.
Qed.

Lemma only_answers_app cn a b : only_answers cn (a ++ b) -> only_answers cn a.
Proof. intros H l1 i v l2 ->. apply (H l1 i v (l2 ++ b)). rewrite <- app_assoc. reflexivity. Qed.

Lemma reaches_vinv mp limit mx ml mr id secret chal evs : forall cn out,
  let cn0 := init_conn mp limit mx ml mr id secret chal in
  run cn0 evs = Some (cn, out) -> NoDup (chal_list chal ++ flat_map drawn evs) -> only_answers cn0 evs ->
  forall t, In t (tuples cn) -> tu_verified t = true -> (tu_addr t = 1 /\ tu_chal t = chal) \/ validated cn0 evs (tu_chal t) (tu_addr t).
Proof.
  intros cn out cn0 R Hn Ha.
  enough (Hv : vinv chal cn0 evs cn out) by exact (v_ver _ _ _ _ _ Hv).
  revert cn out R Hn Ha. induction evs as [| e evs IH] using rev_ind; intros cn out R Hn Ha.
  - cbn [run] in R. apply some_pair_inj in R. destruct R as (<- & <-). apply vinv_init.
  - rewrite run_snoc in R. destruct (run cn0 evs) as [[c o] |] eqn:R0; [| discriminate R].
    assert (Hn0 : NoDup (chal_list chal ++ flat_map drawn evs)).
    { rewrite flat_map_app, app_assoc in Hn. exact (nodup_app_l _ _ Hn). }
    specialize (IH c o eq_refl Hn0 (only_answers_app _ _ _ Ha)).
    destruct (has_error o).
    + apply some_pair_inj in R. destruct R as (<- & <-). rewrite <- (app_nil_r o). apply (vinv_mono _ _ _ c); [exact IH | apply mono_refl | intros x y []].
    + ob R z Ez. destruct z as [c1 o1]. apply some_pair_inj in R. destruct R as (<- & <-). exact (vinv_step _ _ _ _ _ _ _ _ IH R0 Hn Ha Ez).
Qed.
