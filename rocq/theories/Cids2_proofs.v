(** Proofs about the stored connection ids: consistency and limits. *)
From Verif Require Import Base Tac Mem Varint_model Cids_model Cids_spec Cids_proofs.
From Coq Require Import Lia Permutation.

Lemma same_bytes_eq a b : same_bytes a b = true <-> a = b.
Proof. unfold same_bytes. destruct (list_eq_dec N.eq_dec a b); split; intros; auto; discriminate. Qed.

Lemma same_bytes_neq a b : same_bytes a b = false <-> a <> b.
Proof. unfold same_bytes. destruct (list_eq_dec N.eq_dec a b); split; intros; auto; [discriminate | contradiction]. Qed.

(* What the scan of the stored ids returns. *)
Lemma scan_spec b seq id secret l : forall nb ret,
  match scan_stash l b seq id secret nb ret with
  | inl err => err = 10 /\ exists e, In e l /\ conflicts e seq id secret
  | inr (true, _, _) => exists e, In e l /\ repeated e seq id secret
  | inr (false, nb', ret') =>
    (forall e, In e l -> rc_seq e <> seq /\ rc_id e <> id /\ rc_secret e <> secret) /\
    nb' = nb + N.of_nat (length l) /\ ret' + N.of_nat (length (actives b l)) = ret + N.of_nat (length l)
  end.
Proof.
  induction l as [| e l IH]; intros nb ret; cbn [scan_stash].
  - split; [intros e He; contradiction | cbn; split; lia].
  - destruct (same_bytes id (rc_id e)) eqn:E1.
    + apply same_bytes_eq in E1. destruct (N.eqb_spec (rc_seq e) seq) as [E2 | E2]; cbn [andb].
      * destruct (same_bytes secret (rc_secret e)) eqn:E3.
        -- apply same_bytes_eq in E3. exists e. split; [left; reflexivity | repeat split; congruence].
        -- apply same_bytes_neq in E3. split; [reflexivity |]. exists e. split; [left; reflexivity |]. split; [auto | intros (_ & _ & H); congruence].
      * split; [reflexivity |]. exists e. split; [left; reflexivity |]. split; [auto | intros (H & _); congruence].
    + apply same_bytes_neq in E1. destruct (N.eqb_spec (rc_seq e) seq) as [E2 | E2].
      * split; [reflexivity |]. exists e. split; [left; reflexivity |]. split; [auto | intros (_ & H & _); congruence].
      * destruct (same_bytes secret (rc_secret e)) eqn:E3.
        -- apply same_bytes_eq in E3. split; [reflexivity |]. exists e. split; [left; reflexivity |]. split; [auto | intros (_ & H & _); congruence].
        -- apply same_bytes_neq in E3.
           specialize (IH (nb + 1) (if (rc_seq e <? b) || rc_sent e then ret + 1 else ret)).
           destruct (scan_stash l b seq id secret _ _) as [err | [[[|] nb'] ret']].
           ++ destruct IH as (IH1 & x & Hx & Cx). split; [exact IH1 |]. exists x. split; [right; exact Hx | exact Cx].
           ++ destruct IH as (x & Hx & Cx). exists x. split; [right; exact Hx | exact Cx].
           ++ destruct IH as (IH1 & IH2 & IH3). split; [| split].
              ** intros x [<- | Hx]; [split; [exact E2 | split; congruence] | exact (IH1 x Hx)].
              ** subst nb'. cbn [length]. lia.
              ** unfold actives in *. cbn [filter length]. destruct ((rc_seq e <? b) || rc_sent e); cbn [negb length]; lia.
Qed.

(* With consistent ids the outcome does not depend on the order. *)
Definition consistent (l : list rcid) : Prop :=
  NoDup (map rc_seq l) /\ NoDup (map rc_id l) /\ NoDup (map rc_secret l).

Lemma nodup_inj {A} (f : rcid -> A) l x y : NoDup (map f l) -> In x l -> In y l -> f x = f y -> x = y.
Proof.
  induction l as [| z l IH]; cbn [map]; intros Hn Hx Hy E; [contradiction |].
  inversion Hn as [| w m Hw Hm]; subst.
  destruct Hx as [<- | Hx], Hy as [<- | Hy]; auto.
  - exfalso. apply Hw. rewrite E. apply in_map. exact Hy.
  - exfalso. apply Hw. rewrite <- E. apply in_map. exact Hx.
Qed.

Lemma scan_conflict b seq id secret l e nb ret :
  consistent l -> In e l -> conflicts e seq id secret -> scan_stash l b seq id secret nb ret = inl 10.
Proof.
  intros (C1 & C2 & C3) He (Hc & Hr). pose proof (scan_spec b seq id secret l nb ret) as H.
  destruct (scan_stash l b seq id secret nb ret) as [err | [[[|] nb'] ret']].
  - destruct H as (-> & _). reflexivity.
  - exfalso. destruct H as (x & Hx & X1 & X2 & X3). destruct Hc as [Hc | [Hc | Hc]].
    + pose proof (nodup_inj rc_seq l e x C1 He Hx ltac:(congruence)) as ->. apply Hr. auto.
    + pose proof (nodup_inj rc_id l e x C2 He Hx ltac:(congruence)) as ->. apply Hr. auto.
    + pose proof (nodup_inj rc_secret l e x C3 He Hx ltac:(congruence)) as ->. apply Hr. auto.
  - exfalso. destruct H as (H & _). destruct (H e He) as (H1 & H2 & H3). destruct Hc as [Hc | [Hc | Hc]]; contradiction.
Qed.

Lemma scan_repeated b seq id secret l e nb ret :
  consistent l -> In e l -> repeated e seq id secret -> exists nb' ret', scan_stash l b seq id secret nb ret = inr (true, nb', ret').
Proof.
  intros (C1 & C2 & C3) He (R1 & R2 & R3). pose proof (scan_spec b seq id secret l nb ret) as H.
  destruct (scan_stash l b seq id secret nb ret) as [err | [[[|] nb'] ret']].
  - exfalso. destruct H as (_ & x & Hx & Hc & Hr). destruct Hc as [Hc | [Hc | Hc]].
    + pose proof (nodup_inj rc_seq l e x C1 He Hx ltac:(congruence)) as <-. apply Hr. auto.
    + pose proof (nodup_inj rc_id l e x C2 He Hx ltac:(congruence)) as <-. apply Hr. auto.
    + pose proof (nodup_inj rc_secret l e x C3 He Hx ltac:(congruence)) as <-. apply Hr. auto.
  - exists nb', ret'. reflexivity.
  - exfalso. destruct H as (H & _). destruct (H e He) as (H1 & _). contradiction.
Qed.

(* The connection with one more id. *)
Definition added (cn : conn) (s : stash) (before seq : N) (id secret : list N) : conn :=
  map_stash (sh_path s) (fun s' => mk_stash (sh_path s') (N.max (sh_before s) before) (sh_list s' ++ [mk_rcid (cn_next cn) seq id secret 0 false false false]))
    (alloc cn).

Lemma create_paths cn p : NoDup (map sh_path (cn_stashes cn)) -> NoDup (map sh_path (cn_stashes (create_stash cn p))).
Proof.
  intros Hn. unfold create_stash. destruct (find_stash cn p) eqn:Ef; [exact Hn |].
  destruct cn as [a b c d e f l g h]. unfold find_stash in Ef. cbn [cn_stashes set_stashes] in *.
  rewrite map_app. cbn [map sh_path].
  assert (Hp : ~ In p (map sh_path l)).
  { intros Hc. apply in_map_iff in Hc. destruct Hc as (x & Ex & Hx). pose proof (find_none _ _ Ef x Hx) as Hf.
    cbv beta in Hf. rewrite Ex, N.eqb_refl in Hf. discriminate Hf. }
  clear Ef. induction l as [| x l IH]; cbn [map app].
  - constructor; [intros [] | constructor].
  - cbn [map] in Hn, Hp. inversion Hn as [| y m Hy Hm]; subst. constructor.
    + intros Hc. apply in_app_iff in Hc. destruct Hc as [Hc | [Hc | []]]; [contradiction |]. apply Hp. left. symmetry. exact Hc.
    + apply IH; [exact Hm | intros Hc; apply Hp; right; exact Hc].
Qed.

Lemma create_found cn p : exists s, find_stash (create_stash cn p) p = Some s.
Proof.
  unfold create_stash. destruct (find_stash cn p) as [s |] eqn:Ef; [exists s; exact Ef |].
  exists (mk_stash p 0 []). unfold find_stash in *. destruct cn as [a b c d e f l g h]. cbn [cn_stashes set_stashes] in *.
  induction l as [| x l IH]; cbn [app find sh_path] in *; [rewrite N.eqb_refl; reflexivity |].
  destruct (sh_path x =? p); [discriminate Ef | exact (IH Ef)].
Qed.

Lemma map_stash_paths p f cn :
  (forall s, sh_path (f s) = sh_path s) -> map sh_path (cn_stashes (map_stash p f cn)) = map sh_path (cn_stashes cn).
Proof.
  intros Hf. unfold map_stash. destruct cn as [a b c d e g l h i]. cbn [set_stashes cn_stashes]. rewrite map_map. apply map_ext.
  intros x. destruct (sh_path x =? p); [apply Hf | reflexivity].
Qed.

Lemma added_eq cn s before seq id secret :
  NoDup (map sh_path (cn_stashes cn)) -> find_stash cn (sh_path s) = Some s ->
  let c1 := map_stash (sh_path s) (fun s' => mk_stash (sh_path s') (sh_before s') (sh_list s' ++ [mk_rcid (cn_next cn) seq id secret 0 false false false])) (alloc cn) in
  added cn s before seq id secret =
  if sh_before s <? before then map_stash (sh_path s) (fun s' => mk_stash (sh_path s') before (sh_list s')) c1 else c1.
Proof.
  intros Hn Ef c1. unfold c1, added, map_stash, set_stashes, alloc. destruct cn as [a b c d e f l g h]. cbn [cn_stashes cn_next cn_mp cn_limit cn_max_path cn_mig_local cn_mig_remote cn_paths cn_retires].
  destruct (N.ltb_spec (sh_before s) before) as [L | L]; f_equal.
  - rewrite map_map. apply map_ext. intros x. destruct (sh_path x =? sh_path s) eqn:E; cbn [sh_path]; rewrite E; [| reflexivity].
    cbn [sh_list]. f_equal. lia.
  - apply map_ext_in. intros x Hx. destruct (N.eqb_spec (sh_path x) (sh_path s)) as [E | E]; [| reflexivity].
    rewrite (find_stash_unique _ _ _ x Hn Ef Hx E). f_equal. lia.
Qed.

(* What a NEW_CONNECTION_ID frame does to the stored ids. *)
Lemma new_cases cn is_mp p seq before id secret err cn' :
  NoDup (map sh_path (cn_stashes cn)) ->
  new_connection_id cn is_mp p seq before id secret = Some (err, cn') ->
  cn' = cn \/
  exists s, find_stash (create_stash cn p) p = Some s /\
  (ext (create_stash cn p) cn' \/
   exists nb ret, scan_stash (sh_list s) (N.max (sh_before s) before) seq id secret 0 0 = inr (false, nb, ret) /\
     before <= seq /\ 1 <= blen id <= 20 /\
     nb < cn_limit cn + ret /\ nb < 2 * cn_limit cn /\
     ext (added (create_stash cn p) s before seq id secret) cn').
Proof.
  intros Hn. unfold new_connection_id. intros H.
  destruct (is_mp && negb (cn_mp cn)); [left; apply some_pair_inj in H; destruct H as (<- & <-); reflexivity |].
  destruct (N.ltb_spec seq before) as [L1 | L1]; [left; apply some_pair_inj in H; destruct H as (<- & <-); reflexivity |].
  destruct (N.ltb_spec 20 (blen id)) as [L2 | L2]; [left; apply some_pair_inj in H; destruct H as (<- & <-); reflexivity |].
  destruct ((cn_max_path cn <? p) && cn_mp cn); [left; apply some_pair_inj in H; destruct H as (<- & <-); reflexivity |].
  cbv zeta in H. pose proof (create_paths cn p Hn) as Hn1.
  assert (Hl : cn_limit (create_stash cn p) = cn_limit cn) by (unfold create_stash; destruct (find_stash cn p); reflexivity).
  set (c0 := create_stash cn p) in *. ob H s Es. right. exists s. split; [exact Es |].
  ob H z Ez. destruct z as [e1 c1]. cbn match in H.
  unfold add_remote_cnxid in Ez. cbv zeta in Ez.
  replace (if before <? sh_before s then sh_before s else before) with (N.max (sh_before s) before) in Ez
    by (destruct (N.ltb_spec before (sh_before s)); lia).
  destruct (N.ltb_spec 20 (blen id)) as [L3 | L3]; [lia |]. cbn [orb] in Ez.
  destruct (N.eqb_spec (blen id) 0) as [L4 | L4].
  { apply some_pair_inj in Ez. destruct Ez as (<- & <-). cbn [N.eqb andb] in H. apply some_pair_inj in H. destruct H as (<- & <-).
    left. apply ext_refl. }
  ob Ez e0 E0. destruct (blen (rc_id e0) =? 0).
  { apply some_pair_inj in Ez. destruct Ez as (<- & <-). cbn [N.eqb andb] in H. apply some_pair_inj in H. destruct H as (<- & <-).
    left. apply ext_refl. }
  pose proof (find_stash_in _ _ _ Es) as (Hin & Hp).
  assert (Hraise : sh_before s < before -> ext c0 (map_stash p (fun s0 => mk_stash (sh_path s0) before (sh_list s0)) c0)).
  { intros L. apply ext_map_stash. intros x Hx Ex. rewrite (find_stash_unique _ _ _ x Hn1 Es Hx Ex).
    split; [reflexivity | split; [cbn; lia | apply shrinks_refl]]. }
  pose proof (scan_spec (N.max (sh_before s) before) seq id secret (sh_list s) 0 0) as Hs.
  destruct (scan_stash (sh_list s) (N.max (sh_before s) before) seq id secret 0 0) as [e2 | [[[|] nb] ret]] eqn:Esc.
  - destruct Hs as (-> & _). apply some_pair_inj in Ez. destruct Ez as (<- & <-). cbn [N.eqb andb] in H.
    apply some_pair_inj in H. destruct H as (<- & <-). left. apply ext_refl.
  - apply some_pair_inj in Ez. destruct Ez as (<- & <-). cbn [N.eqb andb] in H. left.
    destruct (N.ltb_spec (sh_before s) before) as [L | L].
    + apply (ext_trans _ _ _ (Hraise L)). apply ext_remove_not_before in H; [exact H |]. rewrite map_stash_paths; [exact Hn1 | reflexivity].
    + apply some_pair_inj in H. destruct H as (<- & <-). apply ext_refl.
  - destruct (N.leb_spec (cn_limit c0 + ret) nb) as [L5 | L5]; cbn [orb] in Ez;
      [apply some_pair_inj in Ez; destruct Ez as (<- & <-); cbn [N.eqb andb] in H; apply some_pair_inj in H; destruct H as (<- & <-); left; apply ext_refl |].
    destruct (N.leb_spec (2 * cn_limit c0) nb) as [L6 | L6];
      [apply some_pair_inj in Ez; destruct Ez as (<- & <-); cbn [N.eqb andb] in H; apply some_pair_inj in H; destruct H as (<- & <-); left; apply ext_refl |].
    right. exists nb, ret. split; [reflexivity |]. split; [exact L1 |]. split; [lia |]. rewrite Hl in L5, L6. split; [exact L5 |]. split; [exact L6 |].
    rewrite added_eq; [| exact Hn1 | rewrite Hp; exact Es]. cbv zeta. rewrite Hp.
    apply some_pair_inj in Ez. destruct Ez as (<- & <-). cbn [N.eqb andb] in H. rewrite Hp in H.
    destruct (sh_before s <? before).
    + apply ext_remove_not_before in H; [exact H |]. rewrite !map_stash_paths; [exact Hn1 | reflexivity | reflexivity].
    + apply some_pair_inj in H. destruct H as (<- & <-). apply ext_refl.
Qed.

(* The invariant of the stored ids. *)
Record sinv (limit : N) (id0 secret0 : list N) (h : list event) (cn : conn) : Prop := mk_sinv {
  si_paths : NoDup (map sh_path (cn_stashes cn));
  si_addr : NoDup (map rc_addr (flat_map sh_list (cn_stashes cn)));
  si_next : forall e, In e (flat_map sh_list (cn_stashes cn)) -> rc_addr e < cn_next cn;
  si_cons : forall s, In s (cn_stashes cn) -> consistent (sh_list s);
  si_from : forall s e, In s (cn_stashes cn) -> In e (sh_list s) ->
    (sh_path s = 0 /\ rc_seq e = 0 /\ rc_id e = id0 /\ rc_secret e = secret0) \/ (issued h (sh_path s) (rc_seq e) (rc_id e) (rc_secret e) /\ 1 <= blen (rc_id e) <= 20);
  si_len : forall s, In s (cn_stashes cn) -> N.of_nat (length (sh_list s)) <= 2 * limit /\ N.of_nat (length (actives (sh_before s) (sh_list s))) <= limit;
  si_limit : cn_limit cn = limit;
  si_acked : forall e, In e (flat_map sh_list (cn_stashes cn)) -> rc_acked e = false
}.

Lemma issued_app h e p seq id secret : issued h p seq id secret -> issued (h ++ [e]) p seq id secret.
Proof. intros (a & b & H). exists a, b. apply in_app_iff. left. exact H. Qed.

Lemma shrinks_count l l' : shrinks l l' -> (length l' <= length l)%nat.
Proof. induction 1; cbn [length]; lia. Qed.

Lemma sinv_ext limit id0 secret0 h cn cn' : sinv limit id0 secret0 h cn -> ext cn cn' -> sinv limit id0 secret0 h cn'.
Proof.
  intros [I1 I2 I3 I4 I5 I6 I7 I8] (E1 & E2 & E3 & E4 & E5). pose proof (sle_flat _ _ E1) as Ef. constructor.
  - exact (sle_nodup _ _ E1 I1).
  - apply (shrinks_nodup rc_addr) in Ef; [exact Ef | intros x y K; exact (proj1 K) | exact I2].
  - intros e He. destruct (shrinks_in _ _ _ Ef He) as (x & Hx & K). rewrite (proj1 K). specialize (I3 x Hx). lia.
  - intros s' Hs. destruct (sle_in _ _ _ E1 Hs) as (s & Hi & S1 & S2 & S3). destruct (I4 s Hi) as (C1 & C2 & C3).
    split; [| split].
    + apply (shrinks_nodup rc_seq _ _ (fun x y K => proj1 (proj2 K)) S3 C1).
    + apply (shrinks_nodup rc_id _ _ (fun x y K => proj1 (proj2 (proj2 K))) S3 C2).
    + apply (shrinks_nodup rc_secret _ _ (fun x y K => proj1 (proj2 (proj2 (proj2 K)))) S3 C3).
  - intros s' e' Hs He. destruct (sle_in _ _ _ E1 Hs) as (s & Hi & S1 & S2 & S3).
    destruct (shrinks_in _ _ _ S3 He) as (e & Hx & K1 & K2 & K3 & K4 & _). rewrite S1, K2, K3, K4. exact (I5 s e Hi Hx).
  - intros s' Hs. destruct (sle_in _ _ _ E1 Hs) as (s & Hi & S1 & S2 & S3). destruct (I6 s Hi) as (L1 & L2).
    pose proof (shrinks_count _ _ S3). pose proof (active_len _ _ _ _ S3 S2). split; lia.
  - congruence.
  - intros e He. destruct (shrinks_in _ _ _ Ef He) as (x & Hx & _ & _ & _ & _ & _ & _ & K). rewrite K. exact (I8 x Hx).
Qed.

Lemma sinv_more limit id0 secret0 h e cn : sinv limit id0 secret0 h cn -> sinv limit id0 secret0 (h ++ [e]) cn.
Proof.
  intros [I1 I2 I3 I4 I5 I6 I7 I8]. constructor; auto. intros s x Hs Hx.
  destruct (I5 s x Hs Hx) as [F | (F & G)]; [left; exact F | right; split; [apply issued_app; exact F | exact G]].
Qed.

Lemma sinv_create limit id0 secret0 h cn p : sinv limit id0 secret0 h cn -> sinv limit id0 secret0 h (create_stash cn p).
Proof.
  intros [I1 I2 I3 I4 I5 I6 I7 I8]. pose proof (create_paths cn p I1) as Hn. unfold create_stash in *.
  destruct (find_stash cn p) eqn:Ef; [constructor; auto |].
  destruct cn as [a b c d e f l g k]. cbn [cn_stashes set_stashes cn_limit cn_next cn_mp cn_max_path cn_mig_local cn_mig_remote cn_paths cn_retires] in *.
  assert (Hfl : flat_map sh_list (l ++ [mk_stash p 0 []]) = flat_map sh_list l) by (rewrite flat_map_app; cbn; apply app_nil_r).
  constructor; cbn [set_stashes cn_stashes cn_limit cn_next cn_mp cn_max_path cn_mig_local cn_mig_remote cn_paths cn_retires]; rewrite ?Hfl; [exact Hn | exact I2 | exact I3 | | | | exact I7 | exact I8].
  - intros s Hs. apply in_app_iff in Hs. destruct Hs as [Hs | [<- | []]]; [auto |]. repeat split; constructor.
  - intros s x Hs Hx. apply in_app_iff in Hs. destruct Hs as [Hs | [<- | []]]; [auto | destruct Hx].
  - intros s Hs. apply in_app_iff in Hs. destruct Hs as [Hs | [<- | []]]; [auto | cbn; split; lia].
Qed.

Lemma nodup_snoc {A} (l : list A) x : NoDup l -> ~ In x l -> NoDup (l ++ [x]).
Proof.
  intros Hn Hx. apply NoDup_rev in Hn. rewrite <- (rev_involutive (l ++ [x])), rev_unit. apply NoDup_rev. constructor; [| exact Hn].
  rewrite <- in_rev. exact Hx.
Qed.

(* Adding an element to one of the lists of a list of lists. *)
Lemma flat_snoc {A} (p : N) (e : rcid) (g : rcid -> A) b : forall l s,
  NoDup (map sh_path l) -> In s l -> sh_path s = p ->
  NoDup (map g (flat_map sh_list l)) -> ~ In (g e) (map g (flat_map sh_list l)) ->
  NoDup (map g (flat_map sh_list (map (fun s => if sh_path s =? p then mk_stash (sh_path s) b (sh_list s ++ [e]) else s) l))).
Proof.
  intros l s Hn Hs Hp Hg He.
  assert (Hperm : Permutation (flat_map sh_list (map (fun s => if sh_path s =? p then mk_stash (sh_path s) b (sh_list s ++ [e]) else s) l)) (e :: flat_map sh_list l)).
  { clear Hg He. induction l as [| x l IH]; [contradiction |]. cbn [map flat_map]. cbn [map] in Hn. inversion Hn as [| y m Hy Hm]; subst.
    destruct (N.eqb_spec (sh_path x) (sh_path s)) as [E | E].
    - cbn [sh_list].
      assert (Hr : map (fun s0 => if sh_path s0 =? sh_path s then mk_stash (sh_path s0) b (sh_list s0 ++ [e]) else s0) l = l).
      { rewrite <- (map_id l) at 2. apply map_ext_in. intros z Hz. destruct (N.eqb_spec (sh_path z) (sh_path s)) as [E2 | E2]; [| reflexivity].
        exfalso. apply Hy. rewrite E, <- E2. apply in_map. exact Hz. }
      rewrite Hr, <- app_assoc. cbn [app]. symmetry. apply Permutation_middle.
    - destruct Hs as [<- | Hs]; [congruence |]. specialize (IH Hm Hs).
      rewrite IH. symmetry. apply Permutation_middle. }
  apply (Permutation_map g) in Hperm. symmetry in Hperm. apply (Permutation_NoDup Hperm).
  cbn [map]. constructor; assumption.
Qed.

Lemma sinv_added limit id0 secret0 h cn s is_mp before seq id secret nb ret :
  sinv limit id0 secret0 h cn -> find_stash cn (sh_path s) = Some s ->
  scan_stash (sh_list s) (N.max (sh_before s) before) seq id secret 0 0 = inr (false, nb, ret) ->
  1 <= blen id <= 20 -> nb < limit + ret -> nb < 2 * limit ->
  sinv limit id0 secret0 (h ++ [ENew is_mp (sh_path s) seq before id secret]) (added cn s before seq id secret).
Proof.
  intros I Ef Hsc Hid L1 L2. pose proof (find_stash_in _ _ _ Ef) as (Hin & _).
  pose proof (scan_spec (N.max (sh_before s) before) seq id secret (sh_list s) 0 0) as Hs. rewrite Hsc in Hs.
  destruct Hs as (Hf & Hnb & Hret). pose proof (fun x => find_stash_unique cn (sh_path s) s x (si_paths _ _ _ _ _ I) Ef) as Hu.
  destruct I as [I1 I2 I3 I4 I5 I6 I7 I8].
  unfold added. set (e := mk_rcid (cn_next cn) seq id secret 0 false false false).
  assert (Hlst : forall x, In x (cn_stashes (map_stash (sh_path s) (fun s' => mk_stash (sh_path s') (N.max (sh_before s) before) (sh_list s' ++ [e])) (alloc cn))) ->
     (In x (cn_stashes cn) /\ sh_path x <> sh_path s) \/ x = mk_stash (sh_path s) (N.max (sh_before s) before) (sh_list s ++ [e])).
  { intros x Hx. destruct cn as [a b c d e' f l g k]. cbn [map_stash set_stashes alloc cn_stashes] in *. apply in_map_iff in Hx. destruct Hx as (y & <- & Hy).
    destruct (N.eqb_spec (sh_path y) (sh_path s)) as [E | E]; [| left; split; assumption].
    right. rewrite (Hu y Hy E). reflexivity. }
  assert (Hnext : ~ In (cn_next cn) (map rc_addr (flat_map sh_list (cn_stashes cn)))).
  { intros Hc. apply in_map_iff in Hc. destruct Hc as (x & Ex & Hx). specialize (I3 x Hx). lia. }
  assert (Hall : forall x, In x (flat_map sh_list (cn_stashes (map_stash (sh_path s) (fun s' => mk_stash (sh_path s') (N.max (sh_before s) before) (sh_list s' ++ [e])) (alloc cn)))) ->
     In x (flat_map sh_list (cn_stashes cn)) \/ x = e).
  { intros x Hx. apply in_flat_map in Hx. destruct Hx as (y & Hy & Hx). destruct (Hlst y Hy) as [(Hy1 & _) | ->].
    - left. apply in_flat_map. exists y. auto.
    - cbn [sh_list] in Hx. apply in_app_iff in Hx. destruct Hx as [Hx | [Hx | []]]; [left; apply in_flat_map; exists s; auto | right; auto]. }
  constructor.
  - rewrite map_stash_paths; [exact I1 | reflexivity].
  - assert (Hcn : cn_stashes (alloc cn) = cn_stashes cn) by (destruct cn; reflexivity).
    unfold map_stash. cbn [set_stashes cn_stashes]. rewrite Hcn. apply (flat_snoc (sh_path s) e rc_addr (N.max (sh_before s) before) (cn_stashes cn) s); auto.
  - intros x Hx. replace (cn_next (map_stash _ _ (alloc cn))) with (cn_next cn + 1) by (destruct cn; reflexivity).
    destruct (Hall x Hx) as [Hx1 | ->]; [specialize (I3 x Hx1); lia | cbn [rc_addr e]; unfold e; cbn [rc_addr]; lia].
  - intros x Hx. destruct (Hlst x Hx) as [(Hx1 & _) | ->]; [exact (I4 x Hx1) |]. destruct (I4 s Hin) as (C1 & C2 & C3). cbn [sh_list].
    split; [| split]; rewrite map_app; cbn [map]; apply nodup_snoc; auto; intros Hc; apply in_map_iff in Hc; destruct Hc as (y & Ey & Hy);
      destruct (Hf y Hy) as (F1 & F2 & F3); unfold e in Ey; cbn in Ey; contradiction.
  - intros x y Hx Hy. destruct (Hlst x Hx) as [(Hx1 & _) | ->].
    + destruct (I5 x y Hx1 Hy) as [F | (F & G)]; [left; exact F | right; split; [apply issued_app; exact F | exact G]].
    + cbn [sh_list sh_path] in *. apply in_app_iff in Hy. destruct Hy as [Hy | [<- | []]].
      * destruct (I5 s y Hin Hy) as [F | (F & G)]; [left; exact F | right; split; [apply issued_app; exact F | exact G]].
      * right. unfold e. cbn [rc_seq rc_id rc_secret]. split; [| exact Hid]. exists is_mp, before. apply in_app_iff. right. left. reflexivity.
  - intros x Hx. destruct (Hlst x Hx) as [(Hx1 & _) | ->]; [exact (I6 x Hx1) |]. cbn [sh_list sh_before]. unfold actives in *.
    rewrite filter_app, !app_length. cbn [filter length]. destruct (negb _); cbn [length]; split; lia.
  - destruct cn. exact I7.
  - intros x Hx. destruct (Hall x Hx) as [Hx1 | ->]; [exact (I8 x Hx1) | reflexivity].
Qed.

Lemma sinv_step limit id0 secret0 h cn e cn' o :
  sinv limit id0 secret0 h cn -> step cn e = Some (cn', o) -> sinv limit id0 secret0 (h ++ [e]) cn'.
Proof.
  intros I H. destruct (is_new e) eqn:En; [| apply (sinv_ext _ _ _ _ cn); [apply sinv_more; exact I | exact (ext_step _ _ _ _ En H)]].
  destruct e as [is_mp p seq before id secret | | | | | | | | | | | |]; try discriminate En. clear En. cbn [step] in H.
  destruct (negb is_mp && negb (p =? 0)); [apply some_pair_inj in H; destruct H as (<- & _); apply sinv_more; exact I |].
  ob H z Ez. destruct z as [err c1]. apply some_pair_inj in H. destruct H as (<- & _).
  destruct (new_cases _ _ _ _ _ _ _ _ _ (si_paths _ _ _ _ _ I) Ez) as [-> | (s & Es & [Hx | (nb & ret & H1 & H2 & H3 & H4 & H5 & H6)])].
  - apply sinv_more; exact I.
  - apply (sinv_ext _ _ _ _ (create_stash cn p)); [apply sinv_more, sinv_create; exact I | exact Hx].
  - eapply sinv_ext; [| exact H6].
    pose proof (find_stash_in _ _ _ Es) as (_ & <-).
    rewrite (si_limit _ _ _ _ _ I) in H4, H5.
    eapply sinv_added; eauto. apply sinv_create. exact I.
Qed.

Lemma run_inv (P : list event -> conn -> list output -> Prop) :
  (forall h cn o e cn' o', P h cn o -> step cn e = Some (cn', o') -> P (h ++ [e]) cn' (o ++ o')) ->
  forall evs h0 cn0 o0 cn out, P h0 cn0 o0 -> run cn0 evs = Some (cn, out) ->
  exists h1 h2, evs = h1 ++ h2 /\ P (h0 ++ h1) cn (o0 ++ out).
Proof.
  intros HP evs. induction evs as [| e r IH]; intros h0 cn0 o0 cn out H0 H; cbn [run] in H.
  - apply some_pair_inj in H. destruct H as (<- & <-). exists [], []. rewrite !app_nil_r. auto.
  - ob H z Ez. destruct z as [c1 o1]. cbn match in H. pose proof (HP _ _ _ _ _ _ H0 Ez) as H1.
    destruct (existsb _ o1).
    + apply some_pair_inj in H. destruct H as (<- & <-). exists [e], r. auto.
    + ob H z E2. destruct z as [c2 o2]. apply some_pair_inj in H. destruct H as (<- & <-).
      destruct (IH _ _ _ _ _ H1 E2) as (h1 & h2 & -> & H3). exists (e :: h1), h2. split; [reflexivity |].
      rewrite <- app_assoc in H3. cbn [app] in H3. rewrite <- app_assoc in H3. exact H3.
Qed.

Lemma sinv_init mp limit mx ml mr id secret chal : 1 <= limit -> sinv limit id secret [] (init_conn mp limit mx ml mr id secret chal).
Proof.
  intros Hl. unfold init_conn. constructor; cbn [cn_stashes map sh_path flat_map sh_list app rc_addr cn_next cn_limit].
  - constructor; [intros [] | constructor].
  - constructor; [intros [] | constructor].
  - intros e [<- | []]. reflexivity.
  - intros s [<- | []]. repeat split; cbn [sh_list map]; (constructor; [intros [] | constructor]).
  - intros s e [<- | []] [<- | []]. left. cbn. auto.
  - intros s [<- | []]. unfold actives. cbn [sh_list sh_before filter]. destruct (negb _); cbn [length]; split; lia.
  - reflexivity.
  - intros e [<- | []]. reflexivity.
Qed.

Lemma reaches_sinv mp limit mx ml mr id secret chal evs cn out :
  1 <= limit -> reaches mp limit mx ml mr id secret chal evs cn out ->
  exists h1 h2, evs = h1 ++ h2 /\ sinv limit id secret h1 cn.
Proof.
  intros Hl H. destruct (run_inv (fun h c _ => sinv limit id secret h c) (fun h c o e c' o' I S => sinv_step _ _ _ _ _ _ _ _ I S) evs [] _ [] cn out (sinv_init mp limit mx ml mr id secret chal Hl) H) as (h1 & h2 & E & I).
  exists h1, h2. auto.
Qed.

Definition stash_of (cn : conn) (p : N) : stash := match find_stash cn p with Some s => s | None => mk_stash p 0 [] end.

Lemma create_find cn p : find_stash (create_stash cn p) p = Some (stash_of cn p).
Proof.
  unfold create_stash, stash_of. destruct (find_stash cn p) as [s |] eqn:Ef; [exact Ef |].
  unfold find_stash in *. destruct cn as [a b c d e f l g h]. cbn [cn_stashes set_stashes] in *.
  induction l as [| x l IH]; cbn [app find sh_path] in *; [rewrite N.eqb_refl; reflexivity |].
  destruct (sh_path x =? p); [discriminate Ef | exact (IH Ef)].
Qed.

Lemma create_flat cn p : flat_map sh_list (cn_stashes (create_stash cn p)) = flat_map sh_list (cn_stashes cn).
Proof.
  unfold create_stash. destruct (find_stash cn p); [reflexivity |]. unfold set_stashes. cbn.
  rewrite flat_map_app. cbn. apply app_nil_r.
Qed.

Lemma create_rest cn p : cn_paths (create_stash cn p) = cn_paths cn /\ cn_limit (create_stash cn p) = cn_limit cn /\ cn_next (create_stash cn p) = cn_next cn /\ cn_mp (create_stash cn p) = cn_mp cn /\ cn_retires (create_stash cn p) = cn_retires cn.
Proof. unfold create_stash. destruct (find_stash cn p); destruct cn; repeat split. Qed.

Lemma stash_of_path cn p : sh_path (stash_of cn p) = p.
Proof. unfold stash_of. destruct (find_stash cn p) as [s |] eqn:E; [exact (proj2 (find_stash_in _ _ _ E)) | reflexivity]. Qed.

Lemma stash_of_in cn p e : In e (sh_list (stash_of cn p)) -> stored cn p e.
Proof.
  unfold stash_of, stored. destruct (find_stash cn p) as [s |] eqn:E; [| intros []].
  intros He. exists s. destruct (find_stash_in _ _ _ E). auto.
Qed.

Lemma stored_stash_of cn p e : NoDup (map sh_path (cn_stashes cn)) -> stored cn p e -> In e (sh_list (stash_of cn p)).
Proof.
  intros Hn (s & H1 & H2 & H3). unfold stash_of. destruct (find_stash cn p) as [s' |] eqn:E.
  - rewrite <- (find_stash_unique _ _ _ s Hn E H1 H2). exact H3.
  - exfalso. pose proof (find_none _ _ E s H1) as H. cbv beta in H. rewrite H2, N.eqb_refl in H. discriminate H.
Qed.

Lemma new_eq cn is_mp p seq before id secret e0 :
  NoDup (map sh_path (cn_stashes cn)) -> path_rcid cn 0 = Some e0 -> blen (rc_id e0) <> 0 -> well_formed cn is_mp p seq before id ->
  let s := stash_of cn p in
  new_connection_id cn is_mp p seq before id secret =
  match scan_stash (sh_list s) (N.max (sh_before s) before) seq id secret 0 0 with
  | inl err => Some (10, create_stash cn p)
  | inr (true, _, _) =>
    if sh_before s <? before then remove_not_before (map_stash p (fun s => mk_stash (sh_path s) before (sh_list s)) (create_stash cn p)) p before
    else Some (0, create_stash cn p)
  | inr (false, nb, ret) =>
    if (cn_limit cn + ret <=? nb) || (2 * cn_limit cn <=? nb) then Some (9, create_stash cn p)
    else if sh_before s <? before then remove_not_before (added (create_stash cn p) s before seq id secret) p before
    else Some (0, added (create_stash cn p) s before seq id secret)
  end.
Proof.
  intros Hn E0 L0 (W1 & W2 & W3 & W4) s. unfold new_connection_id.
  replace (is_mp && negb (cn_mp cn)) with false by (destruct is_mp, (cn_mp cn); cbn in *; try reflexivity; discriminate W3).
  replace (seq <? before) with false by (symmetry; apply N.ltb_ge; exact W1).
  replace (20 <? blen id) with false by (symmetry; apply N.ltb_ge; lia).
  replace ((cn_max_path cn <? p) && cn_mp cn) with false
    by (destruct (cn_mp cn); [symmetry; rewrite Bool.andb_true_r; apply N.ltb_ge; exact W3 | rewrite Bool.andb_false_r; reflexivity]).
  cbv zeta. rewrite create_find. fold s. cbn [obind].
  unfold add_remote_cnxid. cbv zeta.
  replace (if before <? sh_before s then sh_before s else before) with (N.max (sh_before s) before)
    by (destruct (N.ltb_spec before (sh_before s)); lia).
  replace (20 <? blen id) with false by (symmetry; apply N.ltb_ge; lia).
  replace (blen id =? 0) with false by (symmetry; apply N.eqb_neq; lia). cbn [orb].
  destruct (create_rest cn p) as (R1 & R2 & R3 & R4 & R5).
  replace (path_rcid (create_stash cn p) 0) with (Some e0)
    by (rewrite <- E0; unfold path_rcid, rcid_at; rewrite R1, create_flat; reflexivity).
  cbn [obind]. replace (blen (rc_id e0) =? 0) with false by (symmetry; apply N.eqb_neq; exact L0).
  pose proof (scan_spec (N.max (sh_before s) before) seq id secret (sh_list s) 0 0) as Hs.
  destruct (scan_stash (sh_list s) (N.max (sh_before s) before) seq id secret 0 0) as [e2 | [[[|] nb] ret]].
  - destruct Hs as (-> & _). reflexivity.
  - reflexivity.
  - rewrite R2. destruct ((cn_limit cn + ret <=? nb) || (2 * cn_limit cn <=? nb)); [reflexivity |]. cbn [obind N.eqb andb].
    rewrite added_eq; [| exact (create_paths cn p Hn) | unfold s; rewrite stash_of_path; apply create_find]. cbv zeta.
    assert (Hp : sh_path s = p) by apply stash_of_path. rewrite Hp. destruct (sh_before s <? before); reflexivity.
Qed.

(* A frame that conflicts with a stored id is a protocol violation; one that repeats a
   stored id adds nothing; otherwise the limits decide. *)
Lemma frame_outcome limit id0 secret0 h cn is_mp p seq before id secret e0 :
  sinv limit id0 secret0 h cn -> path_rcid cn 0 = Some e0 -> blen (rc_id e0) <> 0 ->
  well_formed cn is_mp p seq before id ->
  let s := stash_of cn p in
  (forall e, stored cn p e -> conflicts e seq id secret -> exists cn', step cn (ENew is_mp p seq before id secret) = Some (cn', [OError 10]) /\ cn_paths cn' = cn_paths cn) /\
  (forall e, stored cn p e -> repeated e seq id secret -> before <= sh_before s -> step cn (ENew is_mp p seq before id secret) = Some (cn, [])) /\
  ((forall e, stored cn p e -> ~ conflicts e seq id secret /\ ~ repeated e seq id secret) ->
   let room := N.of_nat (length (sh_list s)) < 2 * limit /\ N.of_nat (length (filter (fun e => negb ((rc_seq e <? N.max before (sh_before s)) || rc_sent e)) (sh_list s))) < limit in
   (~ room -> exists cn', step cn (ENew is_mp p seq before id secret) = Some (cn', [OError 9]) /\ cn_paths cn' = cn_paths cn) /\
   (room -> before <= sh_before s -> exists cn', step cn (ENew is_mp p seq before id secret) = Some (cn', []) /\
      cn_paths cn' = cn_paths cn /\ exists e, stored cn' p e /\ repeated e seq id secret)).
Proof.
  intros I E0 L0 W s. pose proof (si_paths _ _ _ _ _ I) as Hn.
  pose proof (new_eq cn is_mp p seq before id secret e0 Hn E0 L0 W) as HE. cbv zeta in HE. fold s in HE.
  assert (Hst : step cn (ENew is_mp p seq before id secret) =
    (z <~ new_connection_id cn is_mp p seq before id secret ;; let '(err, cn) := z in Some (cn, if err =? 0 then [] else [OError err]))).
  { cbn [step]. destruct W as (_ & _ & _ & W4). destruct is_mp; cbn [negb andb]; [reflexivity |]. rewrite (W4 eq_refl). reflexivity. }
  assert (Hc : consistent (sh_list s)).
  { unfold s, stash_of. destruct (find_stash cn p) as [x |] eqn:Ef; [exact (si_cons _ _ _ _ _ I x (proj1 (find_stash_in _ _ _ Ef))) | repeat split; constructor]. }
  destruct (create_rest cn p) as (R1 & R2 & R3 & R4 & R5).
  split; [| split].
  - intros e He Hcf. exists (create_stash cn p). split; [| exact R1]. rewrite Hst, HE.
    rewrite (scan_conflict _ _ _ _ _ e 0 0 Hc (stored_stash_of _ _ _ Hn He) Hcf). reflexivity.
  - intros e He Hr Hb. rewrite Hst, HE.
    destruct (scan_repeated (N.max (sh_before s) before) _ _ _ _ e 0 0 Hc (stored_stash_of _ _ _ Hn He) Hr) as (nb & ret & ->).
    replace (sh_before s <? before) with false by (symmetry; apply N.ltb_ge; exact Hb). cbn [obind N.eqb].
    unfold create_stash. pose proof (stored_stash_of _ _ _ Hn He) as Hi. unfold s, stash_of in *. destruct (find_stash cn p); [reflexivity | destruct Hi].
  - intros Hno. cbv zeta.
    pose proof (scan_spec (N.max (sh_before s) before) seq id secret (sh_list s) 0 0) as Hs. 
    destruct (scan_stash (sh_list s) (N.max (sh_before s) before) seq id secret 0 0) as [e2 | [[[|] nb] ret]].
    + exfalso. destruct Hs as (_ & e & He & Hcf). exact (proj1 (Hno e (stash_of_in _ _ _ He)) Hcf).
    + exfalso. destruct Hs as (e & He & Hr). exact (proj2 (Hno e (stash_of_in _ _ _ He)) Hr).
    + destruct Hs as (_ & Hnb & Hret). unfold actives in Hret. rewrite (N.max_comm before).
      rewrite (si_limit _ _ _ _ _ I) in HE. split.
      * intros Hr. exists (create_stash cn p). split; [| exact R1]. rewrite Hst, HE.
        replace ((limit + ret <=? nb) || (2 * limit <=? nb)) with true; [reflexivity |]. symmetry. apply Bool.orb_true_iff.
        destruct (N.leb_spec (limit + ret) nb) as [| L1]; [left; reflexivity | right]. apply N.leb_le.
        destruct (N.lt_ge_cases nb (2 * limit)) as [L2 | L2]; [| exact L2]. exfalso. apply Hr. split; lia.
      * intros (Hr1 & Hr2) Hb. exists (added (create_stash cn p) s before seq id secret).
        split; [| split].
        -- rewrite Hst, HE. replace ((limit + ret <=? nb) || (2 * limit <=? nb)) with false; [| symmetry; apply Bool.orb_false_iff; split; apply N.leb_gt; lia].
           replace (sh_before s <? before) with false by (symmetry; apply N.ltb_ge; exact Hb). reflexivity.
        -- rewrite <- R1. unfold added, map_stash, set_stashes, alloc. destruct (create_stash cn p). reflexivity.
        -- exists (mk_rcid (cn_next (create_stash cn p)) seq id secret 0 false false false). split; [| repeat split].
           exists (mk_stash p (N.max (sh_before s) before) (sh_list s ++ [mk_rcid (cn_next (create_stash cn p)) seq id secret 0 false false false])).
           split; [| split; [reflexivity | apply in_app_iff; right; left; reflexivity]].
           pose proof (find_stash_in _ _ _ (create_find cn p)) as (Hi & _). fold s in Hi.
           unfold added. assert (Hp : sh_path s = p) by apply stash_of_path. rewrite Hp.
           unfold map_stash, set_stashes. cbn [cn_stashes]. apply in_map_iff. exists s. split; [rewrite Hp, N.eqb_refl; reflexivity |].
           unfold alloc. destruct (create_stash cn p). exact Hi.
Qed.
