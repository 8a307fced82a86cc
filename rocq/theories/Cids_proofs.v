(** Proofs about the stored connection ids: what operations that add no id leave. *)
From Verif Require Import Base Tac Mem Varint_model Cids_model Cids_spec.
From Coq Require Import Lia.

Definition kept (e e' : rcid) : Prop :=
  rc_addr e' = rc_addr e /\ rc_seq e' = rc_seq e /\ rc_id e' = rc_id e /\ rc_secret e' = rc_secret e /\
  (rc_sent e = true -> rc_sent e' = true) /\ (rc_removal e = true -> rc_removal e' = true) /\ rc_acked e' = rc_acked e.

Inductive shrinks : list rcid -> list rcid -> Prop :=
| sh_nil : shrinks [] []
| sh_skip e l l' : shrinks l l' -> shrinks (e :: l) l'
| sh_keep e e' l l' : kept e e' -> shrinks l l' -> shrinks (e :: l) (e' :: l').

Definition stash_le (s s' : stash) : Prop :=
  sh_path s' = sh_path s /\ sh_before s <= sh_before s' /\ shrinks (sh_list s) (sh_list s').

Inductive sle : list stash -> list stash -> Prop :=
| sle_nil : sle [] []
| sle_skip s l l' : sle l l' -> sle (s :: l) l'
| sle_keep s s' l l' : stash_le s s' -> sle l l' -> sle (s :: l) (s' :: l').

Definition ext (cn cn' : conn) : Prop :=
  sle (cn_stashes cn) (cn_stashes cn') /\ cn_mp cn' = cn_mp cn /\ cn_limit cn' = cn_limit cn /\
  cn_max_path cn' = cn_max_path cn /\ cn_next cn <= cn_next cn'.

Lemma kept_refl e : kept e e.
Proof. unfold kept; auto 10. Qed.

Lemma kept_trans a b c : kept a b -> kept b c -> kept a c.
Proof.
  intros (A1 & A2 & A3 & A4 & A5 & A6 & A7) (B1 & B2 & B3 & B4 & B5 & B6 & B7).
  unfold kept. repeat match goal with |- _ /\ _ => split end; try congruence; auto.
Qed.

Lemma shrinks_refl l : shrinks l l.
Proof. induction l; [constructor | apply sh_keep; auto using kept_refl]. Qed.

Lemma shrinks_trans b c (H : shrinks b c) : forall a, shrinks a b -> shrinks a c.
Proof.
  induction H as [| e l l' H IH | e e' l l' K H IH]; intros a Ha.
  - exact Ha.
  - remember (e :: l) as z eqn:Ez. induction Ha as [| x m m' Ha IHa | x x' m m' Kx Ha IHa]; [discriminate Ez | |].
    + apply sh_skip. apply IHa. exact Ez.
    + injection Ez as -> ->. apply sh_skip. apply IH. exact Ha.
  - remember (e :: l) as z eqn:Ez. induction Ha as [| x m m' Ha IHa | x x' m m' Kx Ha IHa]; [discriminate Ez | |].
    + apply sh_skip. apply IHa. exact Ez.
    + injection Ez as -> ->. apply sh_keep; [exact (kept_trans _ _ _ Kx K) | apply IH; exact Ha].
Qed.

Lemma stash_le_refl s : stash_le s s.
Proof. split; [reflexivity | split; [apply N.le_refl | apply shrinks_refl]]. Qed.

Lemma stash_le_trans a b c : stash_le a b -> stash_le b c -> stash_le a c.
Proof.
  intros (A1 & A2 & A3) (B1 & B2 & B3). split; [congruence | split; [lia | exact (shrinks_trans _ _ B3 _ A3)]].
Qed.

Lemma sle_refl l : sle l l.
Proof. induction l; [constructor | apply sle_keep; auto using stash_le_refl]. Qed.

Lemma sle_trans b c (H : sle b c) : forall a, sle a b -> sle a c.
Proof.
  induction H as [| e l l' H IH | e e' l l' K H IH]; intros a Ha.
  - exact Ha.
  - remember (e :: l) as z eqn:Ez. induction Ha as [| x m m' Ha IHa | x x' m m' Kx Ha IHa]; [discriminate Ez | |].
    + apply sle_skip. apply IHa. exact Ez.
    + injection Ez as -> ->. apply sle_skip. apply IH. exact Ha.
  - remember (e :: l) as z eqn:Ez. induction Ha as [| x m m' Ha IHa | x x' m m' Kx Ha IHa]; [discriminate Ez | |].
    + apply sle_skip. apply IHa. exact Ez.
    + injection Ez as -> ->. apply sle_keep; [exact (stash_le_trans _ _ _ Kx K) | apply IH; exact Ha].
Qed.

Lemma sle_map f l : (forall s, In s l -> stash_le s (f s)) -> sle l (map f l).
Proof.
  induction l as [| s l IH]; intros H; [constructor |].
  apply sle_keep; [apply H; left; reflexivity | apply IH; intros x Hx; apply H; right; exact Hx].
Qed.

Lemma sle_filter f l : sle l (filter f l).
Proof.
  induction l as [| s l IH]; cbn [filter]; [constructor |].
  destruct (f s); [apply sle_keep; [apply stash_le_refl | exact IH] | apply sle_skip; exact IH].
Qed.

Lemma shrinks_map f l : (forall e, In e l -> kept e (f e)) -> shrinks l (map f l).
Proof.
  induction l as [| e l IH]; intros H; [constructor |].
  apply sh_keep; [apply H; left; reflexivity | apply IH; intros x Hx; apply H; right; exact Hx].
Qed.

Lemma shrinks_filter f l : shrinks l (filter f l).
Proof.
  induction l as [| e l IH]; cbn [filter]; [constructor |].
  destruct (f e); [apply sh_keep; [apply kept_refl | exact IH] | apply sh_skip; exact IH].
Qed.

Lemma shrinks_in l l' e' : shrinks l l' -> In e' l' -> exists e, In e l /\ kept e e'.
Proof.
  induction 1 as [| e l l' H IH | e x l l' K H IH]; intros Hi.
  - contradiction.
  - destruct (IH Hi) as (y & Hy & Ky). exists y. split; [right; exact Hy | exact Ky].
  - destruct Hi as [<- | Hi]; [exists e; split; [left; reflexivity | exact K] |].
    destruct (IH Hi) as (y & Hy & Ky). exists y. split; [right; exact Hy | exact Ky].
Qed.

Lemma sle_in l l' s' : sle l l' -> In s' l' -> exists s, In s l /\ stash_le s s'.
Proof.
  induction 1 as [| e l l' H IH | e x l l' K H IH]; intros Hi.
  - contradiction.
  - destruct (IH Hi) as (y & Hy & Ky). exists y. split; [right; exact Hy | exact Ky].
  - destruct Hi as [<- | Hi]; [exists e; split; [left; reflexivity | exact K] |].
    destruct (IH Hi) as (y & Hy & Ky). exists y. split; [right; exact Hy | exact Ky].
Qed.

Lemma shrinks_nodup {A} (f : rcid -> A) l l' :
  (forall e e', kept e e' -> f e' = f e) -> shrinks l l' -> NoDup (map f l) -> NoDup (map f l').
Proof.
  intros Hf. induction 1 as [| e l l' H IH | e x l l' K H IH]; intros Hn; cbn [map] in *.
  - exact Hn.
  - inversion Hn; subst. apply IH. assumption.
  - inversion Hn as [| y m Hy Hm]; subst. constructor; [| apply IH; exact Hm].
    rewrite (Hf _ _ K). intros Hc. apply Hy. apply in_map_iff in Hc. destruct Hc as (z & Ez & Hz).
    destruct (shrinks_in _ _ _ H Hz) as (w & Hw & Kw). apply in_map_iff. exists w. split; [| exact Hw].
    rewrite <- (Hf _ _ Kw). exact Ez.
Qed.

Lemma sle_nodup l l' : sle l l' -> NoDup (map sh_path l) -> NoDup (map sh_path l').
Proof.
  induction 1 as [| e l l' H IH | e x l l' K H IH]; intros Hn; cbn [map] in *.
  - exact Hn.
  - inversion Hn; subst. apply IH. assumption.
  - inversion Hn as [| y m Hy Hm]; subst. constructor; [| apply IH; exact Hm].
    rewrite (proj1 K). intros Hc. apply Hy. apply in_map_iff in Hc. destruct Hc as (z & Ez & Hz).
    destruct (sle_in _ _ _ H Hz) as (w & Hw & Kw). apply in_map_iff. exists w. split; [| exact Hw].
    rewrite <- (proj1 Kw). exact Ez.
Qed.

Lemma shrinks_app a a' b b' : shrinks a a' -> shrinks b b' -> shrinks (a ++ b) (a' ++ b').
Proof. induction 1; intros Hb; cbn [app]; [exact Hb | apply sh_skip; auto | apply sh_keep; auto]. Qed.

Lemma shrinks_nil l : shrinks l [].
Proof. induction l; constructor; assumption. Qed.

Lemma sle_flat l l' : sle l l' -> shrinks (flat_map sh_list l) (flat_map sh_list l').
Proof.
  induction 1 as [| e l l' H IH | e x l l' K H IH]; cbn [flat_map].
  - constructor.
  - apply (shrinks_app (sh_list e) []); [apply shrinks_nil | exact IH].
  - apply shrinks_app; [exact (proj2 (proj2 K)) | exact IH].
Qed.

Lemma shrinks_len l l' : shrinks l l' -> blen (map rc_seq l') <= blen (map rc_seq l).
Proof. induction 1; unfold blen in *; cbn [map length] in *; lia. Qed.

Definition actives (b : N) (l : list rcid) : list rcid := filter (fun e => negb ((rc_seq e <? b) || rc_sent e)) l.

Lemma active_len a a' b b' : shrinks a a' -> b <= b' -> (length (actives b' a') <= length (actives b a))%nat.
Proof.
  unfold actives.
  intros H Hb. induction H as [| e l l' H IH | e x l l' K H IH]; cbn [filter].
  - constructor.
  - destruct (negb _); cbn [length]; lia.
  - destruct K as (_ & K2 & _ & _ & K5 & _). rewrite K2.
    destruct (N.ltb_spec (rc_seq e) b) as [L | L].
    + replace (rc_seq e <? b') with true by (symmetry; apply N.ltb_lt; lia). cbn [orb negb]. exact IH.
    + destruct (rc_sent e) eqn:Es; cbn [orb negb].
      * rewrite (K5 eq_refl), Bool.orb_true_r. cbn [negb]. exact IH.
      * destruct (negb _); cbn [length]; lia.
Qed.

Lemma ext_refl cn : ext cn cn.
Proof. repeat split; [apply sle_refl | apply N.le_refl]. Qed.

Lemma ext_trans a b c : ext a b -> ext b c -> ext a c.
Proof.
  intros (A1 & A2 & A3 & A4 & A5) (B1 & B2 & B3 & B4 & B5).
  unfold ext. repeat match goal with |- _ /\ _ => split end; try congruence; [exact (sle_trans _ _ B1 _ A1) | lia].
Qed.

Lemma ext_paths cn l : ext cn (set_paths cn l).
Proof. destruct cn. repeat split; [apply sle_refl | apply N.le_refl]. Qed.

Lemma ext_retire cn p x : ext cn (add_retire cn p x).
Proof. destruct cn. repeat split; [apply sle_refl | apply N.le_refl]. Qed.

Lemma ext_alloc cn : ext cn (alloc cn).
Proof. destruct cn. repeat split; [apply sle_refl | cbn; lia]. Qed.

Lemma ext_stashes cn l : sle (cn_stashes cn) l -> ext cn (set_stashes cn l).
Proof. destruct cn. intros H. repeat split; [exact H | apply N.le_refl]. Qed.

Lemma ext_first cn i f : ext cn (map_first cn i f).
Proof.
  unfold map_first. destruct (nth_error _ _) as [p |]; [| apply ext_refl].
  destruct (pa_tuples p); [apply ext_refl | apply ext_paths].
Qed.

Lemma ext_map_rcid cn a f : (forall e, kept e (f e)) -> ext cn (map_rcid a f cn).
Proof.
  intros H. apply ext_stashes, sle_map. intros s _. split; [reflexivity | split; [apply N.le_refl |]].
  apply shrinks_map. intros e _. destruct (rc_addr e =? a); [apply H | apply kept_refl].
Qed.

Lemma kept_refs n e : kept e (set_refs n e).
Proof. destruct e. repeat split; auto. Qed.

Lemma kept_refs1 e : kept e (set_refs (rc_refs e + 1) e).
Proof. apply kept_refs. Qed.

Lemma kept_sent e : kept e (set_sent e).
Proof. destruct e. repeat split; auto. Qed.

Lemma kept_removal e : kept e (set_removal e).
Proof. destruct e. repeat split; auto. Qed.

Lemma ext_map_stash cn p f : (forall s, In s (cn_stashes cn) -> sh_path s = p -> stash_le s (f s)) -> ext cn (map_stash p f cn).
Proof.
  intros H. apply ext_stashes, sle_map. intros s Hs.
  destruct (N.eqb_spec (sh_path s) p) as [E |]; [apply H; assumption | apply stash_le_refl].
Qed.

Lemma ext_remove cn p a : ext cn (remove_rcid cn p a).
Proof.
  apply ext_map_stash. intros s _ _. split; [reflexivity | split; [apply N.le_refl | apply shrinks_filter]].
Qed.

Lemma ext_delete cn p : ext cn (delete_stash cn p).
Proof. apply ext_stashes, sle_filter. Qed.

Lemma obind_some {A B} (x : option A) (f : A -> option B) b : obind x f = Some b -> exists a, x = Some a /\ f a = Some b.
Proof. destruct x as [a |]; [intros H; exists a; auto | discriminate]. Qed.

Ltac ob H x E := apply obind_some in H; destruct H as (x & E & H).

Lemma ext_dereference cn i cn' : dereference cn i = Some cn' -> ext cn cn'.
Proof.
  unfold dereference. intros H. ob H p Ep. ob H t Et. ob H cn1 E1. apply some_inj in H. subst cn'.
  apply (ext_trans _ cn1); [| apply ext_first].
  destruct (tu_cid t) as [a |]; [| apply some_inj in E1; subst; apply ext_refl].
  ob E1 e Ee. destruct (rc_refs e <=? 1).
  - apply some_inj in E1. subst cn1.
    assert (Hx : ext cn (if rc_sent e then cn else map_rcid a set_sent (add_retire cn (if cn_mp cn then pa_id p else 0) (rc_seq e)))).
    { destruct (rc_sent e); [apply ext_refl |]. eapply ext_trans; [apply ext_retire | apply ext_map_rcid, kept_sent]. }
    destruct (rc_acked e); [| exact Hx]. eapply ext_trans; [exact Hx | apply ext_remove].
  - apply some_inj in E1. subst cn1. apply ext_map_rcid. intros x. apply kept_refs.
Qed.

Lemma ext_renew cn i ok cn' : renew_path cn i = Some (ok, cn') -> ext cn cn'.
Proof.
  unfold renew_path. intros H. ob H p Ep. ob H t Et. cbv zeta in H.
  destruct (find_stash cn (if cn_mp cn then pa_id p else 0)) as [s |]; [| apply some_pair_inj in H; destruct H as (_ & <-); apply ext_refl].
  ob H cur Ec.
  destruct (_ || cn_mig_local cn); [apply some_pair_inj in H; destruct H as (_ & <-); apply ext_refl |].
  destruct (get_cnxid (sh_list s)) as [e |]; [| apply some_pair_inj in H; destruct H as (_ & <-); apply ext_refl].
  destruct (match cur with Some c => rc_seq e =? rc_seq c | None => false end); [apply some_pair_inj in H; destruct H as (_ & <-); apply ext_refl |].
  ob H cn1 E1. apply some_pair_inj in H. destruct H as (_ & <-).
  eapply ext_trans; [exact (ext_dereference _ _ _ E1) |]. eapply ext_trans; [apply ext_first | apply ext_map_rcid; intros x; apply kept_refs].
Qed.

Lemma ext_demote cn i cn' : demote_path cn i = Some cn' -> ext cn cn'.
Proof.
  unfold demote_path. intros H. ob H p Ep. destruct (pa_demoted p); [apply some_inj in H; subst; apply ext_refl |].
  cbv zeta in H. set (c1 := set_paths cn _) in H.
  assert (H1 : ext cn c1) by apply ext_paths.
  destruct (cn_mp c1); [| apply some_inj in H; subst; exact H1].
  ob H z Ez. destruct z as [k c2]. cbn match in H.
  assert (H2 : ext c1 c2).
  { destruct i; [| apply some_pair_inj in Ez; destruct Ez as (_ & <-); apply ext_refl].
    ob Ez t Et. destruct (tu_cid t); [| apply some_pair_inj in Ez; destruct Ez as (_ & <-); apply ext_refl].
    destruct (cn_paths c1) as [| x [| y r]]; apply some_pair_inj in Ez; destruct Ez as (_ & <-); try apply ext_refl. apply ext_paths. }
  apply (ext_trans _ _ _ H1). apply (ext_trans _ _ _ H2).
  destruct k as [| k]; [apply some_inj in H; subst; apply ext_refl |].
  ob H q Eqq. destruct (pa_abandoned q); [apply some_inj in H; subst; apply ext_refl |].
  ob H q2 Eq2. apply some_inj in H. subst cn'. eapply ext_trans; [| apply ext_paths].
  destruct (find_stash c2 (pa_id q)); [| apply ext_refl]. eapply ext_trans; [apply ext_first | apply ext_delete].
Qed.

Lemma retire_below_shrinks l b : shrinks l (fst (retire_below l b)).
Proof.
  induction l as [| e l IH]; cbn [retire_below]; [constructor |].
  destruct (retire_below l b) as [r' q]. cbn [fst] in IH. cbv zeta.
  set (e1 := if rc_seq e <? b then set_removal e else e).
  assert (K : kept e e1) by (unfold e1; destruct (rc_seq e <? b); [apply kept_removal | apply kept_refl]).
  destruct (rc_removal e1 && (rc_refs e1 =? 0)); cbn [fst].
  - destruct (rc_acked e1); cbn [fst]; [apply sh_skip; exact IH |].
    apply sh_keep; [| exact IH]. apply (kept_trans _ _ _ K). apply kept_sent.
  - apply sh_keep; assumption.
Qed.

Lemma ext_retires q p : forall cn, ext cn (fold_left (fun cn x => add_retire cn p x) q cn).
Proof.
  induction q as [| x q IH]; intros cn; cbn [fold_left]; [apply ext_refl |].
  eapply ext_trans; [apply ext_retire | apply IH].
Qed.

Lemma ext_renew_below cn i b err cn' : renew_below cn i b = Some (err, cn') -> ext cn cn'.
Proof.
  unfold renew_below. intros H. ob H p Ep. ob H e Ee.
  destruct (_ && _ && _); [| apply some_pair_inj in H; destruct H as (_ & <-); apply ext_refl].
  ob H z Ez. destruct z as [ok c1]. pose proof (ext_renew _ _ _ _ Ez) as H1.
  destruct ok; [apply some_pair_inj in H; destruct H as (_ & <-); exact H1 |].
  destruct i; [apply some_pair_inj in H; destruct H as (_ & <-); exact H1 |].
  ob H c2 E2. apply some_pair_inj in H. destruct H as (_ & <-). exact (ext_trans _ _ _ H1 (ext_demote _ _ _ E2)).
Qed.

Lemma ext_renew_all n : forall cn i b err cn', renew_all n cn i b = Some (err, cn') -> ext cn cn'.
Proof.
  induction n as [| n IH]; intros cn i b err cn'; cbn [renew_all]; intros H.
  - apply some_pair_inj in H; destruct H as (_ & <-); apply ext_refl.
  - destruct (_ <=? i)%nat; [apply some_pair_inj in H; destruct H as (_ & <-); apply ext_refl |].
    ob H z Ez. destruct z as [e1 c1]. pose proof (ext_renew_below _ _ _ _ _ Ez) as H1.
    destruct (e1 =? 0); [exact (ext_trans _ _ _ H1 (IH _ _ _ _ _ H)) | apply some_pair_inj in H; destruct H as (_ & <-); exact H1].
Qed.

(* The stash that is found is the only one of its path. *)
Lemma find_stash_in cn p s : find_stash cn p = Some s -> In s (cn_stashes cn) /\ sh_path s = p.
Proof. intros H. apply find_some in H. rewrite N.eqb_eq in H. exact H. Qed.

Lemma find_stash_unique cn p s s' :
  NoDup (map sh_path (cn_stashes cn)) -> find_stash cn p = Some s -> In s' (cn_stashes cn) -> sh_path s' = p -> s' = s.
Proof.
  unfold find_stash. induction (cn_stashes cn) as [| x l IH]; cbn [find map]; intros Hn H Hi Hp; [contradiction |].
  inversion Hn as [| y m Hy Hm]; subst. destruct (N.eqb_spec (sh_path x) (sh_path s')) as [E | E].
  - apply some_inj in H. subst x. destruct Hi as [Hi | Hi]; [symmetry; exact Hi |].
    exfalso. apply Hy. apply in_map_iff. exists s'. auto.
  - destruct Hi as [Hi | Hi]; [subst x; congruence |]. apply IH; auto.
Qed.

Lemma ext_remove_not_before cn p b err cn' :
  NoDup (map sh_path (cn_stashes cn)) -> remove_not_before cn p b = Some (err, cn') -> ext cn cn'.
Proof.
  intros Hn. unfold remove_not_before. intros H.
  destruct (find_stash cn p) as [s |] eqn:Ef; [| apply some_pair_inj in H; destruct H as (_ & <-); apply ext_refl].
  pose proof (retire_below_shrinks (sh_list s) b) as Hr. destruct (retire_below (sh_list s) b) as [l q]. cbn [fst] in Hr. cbv zeta in H.
  set (c1 := map_stash p _ cn) in H. set (c2 := fold_left _ q c1) in H.
  assert (H1 : ext cn c1).
  { apply ext_map_stash. intros s' Hi Hp. rewrite (find_stash_unique _ _ _ _ Hn Ef Hi Hp).
    split; [reflexivity | split; [apply N.le_refl | exact Hr]]. }
  assert (H2 : ext c1 c2) by apply ext_retires.
  apply (ext_trans _ _ _ (ext_trans _ _ _ H1 H2)).
  destruct (cn_mp c2).
  - destruct (path_index (cn_paths c2) p); [| apply some_pair_inj in H; destruct H as (_ & <-); apply ext_refl].
    exact (ext_renew_below _ _ _ _ _ H).
  - exact (ext_renew_all _ _ _ _ _ _ H).
Qed.

Lemma ext_ack cn l : ext cn (ack_retire cn l).
Proof.
  unfold ack_retire. destruct (if cn_mp cn then _ else _) as [[p r] |]; [| apply ext_refl].
  destruct (frames_varint_decode r) as [[q r'] |]; [| apply ext_refl].
  destruct (find_stash cn p) as [s |]; [| apply ext_refl].
  destruct (find _ (sh_list s)) as [e |]; [| apply ext_refl]. apply ext_remove.
Qed.

Lemma ext_assign cn p c cn' : assign_cid cn p = (c, cn') -> ext cn cn'.
Proof.
  unfold assign_cid. destruct (obtain_stashed cn (pa_id p)) as [e |]; intros [= <- <-]; [| apply ext_refl].
  apply ext_map_rcid. intros x. apply kept_refs.
Qed.

Lemma ext_new_tuple cn i ch cn' : new_tuple cn i ch = Some cn' -> ext cn cn'.
Proof.
  unfold new_tuple. intros H. ob H p Ep. destruct (obtain_stashed cn (pa_id p)); [| apply some_inj in H; subst; apply ext_refl].
  destruct (assign_cid cn p) as [c c1] eqn:Ea. apply some_inj in H. subst cn'.
  eapply ext_trans; [exact (ext_assign _ _ _ _ Ea) |]. eapply ext_trans; [apply ext_alloc | apply ext_paths].
Qed.

Lemma ext_new_path cn i ch : ext cn (new_path cn i ch).
Proof.
  unfold new_path. destruct (path_index _ _); [apply ext_refl |].
  destruct (assign_cid cn _) as [c c1] eqn:Ea.
  eapply ext_trans; [exact (ext_assign _ _ _ _ Ea) |]. eapply ext_trans; [apply ext_alloc | apply ext_paths].
Qed.

Lemma ext_response cn i v cn' : path_response cn i v = Some cn' -> ext cn cn'.
Proof.
  unfold path_response. intros H. ob H p Ep. destruct (split_challenge _ _) as [[[a t] b] |]; [| apply some_inj in H; subst; apply ext_refl].
  destruct (tu_verified t); apply some_inj in H; subst; [apply ext_refl | apply ext_paths].
Qed.

Lemma ext_challenge cn i j v cn' : send_challenge cn i j = Some (v, cn') -> ext cn cn'.
Proof.
  unfold send_challenge. intros H. ob H p Ep.
  destruct (nth_error (pa_tuples p) j) as [t |]; [| apply some_pair_inj in H; destruct H as (_ & <-); apply ext_refl].
  destruct (_ || _); [apply some_pair_inj in H; destruct H as (_ & <-); apply ext_refl |].
  destruct (tu_count t <? 3); [ob H w Ew |]; apply some_pair_inj in H; destruct H as (_ & <-); apply ext_paths.
Qed.

Lemma ext_delete_tuple cn i j cn' : delete_tuple cn i j = Some cn' -> ext cn cn'.
Proof.
  unfold delete_tuple. intros H. ob H p Ep. destruct j; [apply some_inj in H; subst; apply ext_refl |].
  destruct (nth_error (pa_tuples p) (S j)) as [t |]; [| apply some_inj in H; subst; apply ext_refl].
  destruct (_ && _); apply some_inj in H; subst; [apply ext_paths | apply ext_refl].
Qed.

Lemma ext_delete_path cn i cn' : delete_path cn i = Some cn' -> ext cn cn'.
Proof.
  unfold delete_path. intros H. ob H p Ep. destruct (_ && _); [| apply some_inj in H; subst; apply ext_refl].
  ob H c1 E1. apply some_inj in H. subst. eapply ext_trans; [exact (ext_dereference _ _ _ E1) | apply ext_paths].
Qed.

Lemma ext_set_challenge cn i c : ext cn (set_challenge cn i c).
Proof. apply ext_first. Qed.

Lemma ext_fail cn i : ext cn (fail_path cn i).
Proof. apply ext_first. Qed.

(* Events other than NEW_CONNECTION_ID frames add no id. *)
Definition is_new (e : event) : bool := match e with ENew _ _ _ _ _ _ => true | _ => false end.

Lemma ext_step cn e cn' o : is_new e = false -> step cn e = Some (cn', o) -> ext cn cn'.
Proof.
  destruct e as [? ? ? ? ? ? | p q | i | i c | id c | i v | i j | i c | i | i j | i | i | i j]; intros Hn H; try discriminate Hn;
    cbn [step] in H.
  - destruct (existsb _ _); apply some_pair_inj in H; destruct H as (<- & _); [apply ext_ack | apply ext_refl].
  - destruct (_ <? _)%nat; [| apply some_pair_inj in H; destruct H as (<- & _); apply ext_refl].
    ob H z Ez. destruct z as [ok c1]. apply some_pair_inj in H. destruct H as (<- & _). exact (ext_renew _ _ _ _ Ez).
  - destruct (_ <? _)%nat; [| apply some_pair_inj in H; destruct H as (<- & _); apply ext_refl].
    ob H z Ez. apply some_pair_inj in H. destruct H as (<- & _). exact (ext_new_tuple _ _ _ _ Ez).
  - destruct (cn_mp cn); apply some_pair_inj in H; destruct H as (<- & _); [apply ext_new_path | apply ext_refl].
  - destruct (_ <? _)%nat; [| apply some_pair_inj in H; destruct H as (<- & _); apply ext_refl].
    ob H z Ez. apply some_pair_inj in H. destruct H as (<- & _). exact (ext_response _ _ _ _ Ez).
  - destruct (_ <? _)%nat; [| apply some_pair_inj in H; destruct H as (<- & _); apply ext_refl].
    ob H t Et. ob H z Ez. destruct z as [w c1]. apply some_pair_inj in H. destruct H as (<- & _). exact (ext_challenge _ _ _ _ _ Ez).
  - apply some_pair_inj in H. destruct H as (<- & _). apply ext_set_challenge.
  - apply some_pair_inj in H. destruct H as (<- & _). apply ext_fail.
  - destruct (_ <? _)%nat; [| apply some_pair_inj in H; destruct H as (<- & _); apply ext_refl].
    ob H z Ez. apply some_pair_inj in H. destruct H as (<- & _). exact (ext_delete_tuple _ _ _ _ Ez).
  - destruct (_ <? _)%nat; [| apply some_pair_inj in H; destruct H as (<- & _); apply ext_refl].
    ob H z Ez. apply some_pair_inj in H. destruct H as (<- & _). exact (ext_demote _ _ _ Ez).
  - destruct (_ <? _)%nat; [| apply some_pair_inj in H; destruct H as (<- & _); apply ext_refl].
    ob H z Ez. apply some_pair_inj in H. destruct H as (<- & _). exact (ext_delete_path _ _ _ Ez).
  - destruct (_ <? _)%nat; [| apply some_pair_inj in H; destruct H as (<- & _); apply ext_refl].
    ob H p Ep. destruct (_ <? _)%nat; [| apply some_pair_inj in H; destruct H as (<- & _); apply ext_refl].
    ob H d Ed. apply some_pair_inj in H. destruct H as (<- & _). apply ext_refl.
Qed.
