(** Proofs about the stored connection ids: a connection without multipath never follows a
    pointer to a freed id when retired ids do not come back. *)
From Verif Require Import Base Tac Mem Varint_model Varint_proofs Cids_model Cids_spec Cids_proofs Cids2_proofs Cids3_proofs Cids4_proofs Cids5_proofs.
From Coq Require Import Lia Permutation.

Lemma tuples_single limit mx ml mr nx b l ts dm ab r ts' :
  set_paths (single limit mx ml mr nx b l ts dm ab r) (set_nth (cn_paths (single limit mx ml mr nx b l ts dm ab r)) 0 (set_tuples (mk_path 0 ts dm ab) ts'))
  = single limit mx ml mr nx b l ts' dm ab r.
Proof. reflexivity. Qed.

Lemma ninv_ts h limit mx ml mr b l ts r ts' x dm' ab' nx' :
  all_cids ts -> kinv l (tused ts) r h -> NoDup (tused ts) -> (forall e, In e l -> blen (rc_id e) <> 0) ->
  ts' <> [] -> (forall t', In t' ts' -> exists t, In t ts /\ tu_cid t' = tu_cid t) -> Permutation (tused ts) (tused ts' ++ x) ->
  ninv h (single limit mx ml mr nx' b l ts' dm' ab' r).
Proof.
  intros H2 H3 H4 H5 N1 N2 N3. constructor; auto.
  - intros t' Ht'. destruct (N2 t' Ht') as (t & T1 & T2). destruct (H2 t T1) as (a & Ha). exists a. congruence.
  - apply (kinv_used _ (tused ts)); [exact H3 |]. intros a Ha. apply (Permutation_in a (Permutation_sym N3)). apply in_app_iff. left. exact Ha.
  - apply (nodup_app_l _ x). exact (Permutation_NoDup N3 H4).
Qed.

Lemma in_firstn {A} n (l : list A) x : In x (firstn n l) -> In x l.
Proof. intros H. rewrite <- (firstn_skipn n l). apply in_app_iff. left. exact H. Qed.
Lemma in_skipn {A} n (l : list A) x : In x (skipn n l) -> In x l.
Proof. intros H. rewrite <- (firstn_skipn n l). apply in_app_iff. right. exact H. Qed.

(* What the events that concern tuples do. *)
Lemma ninv_response h cn v : ninv h cn -> exists cn', path_response cn 0 v = Some cn' /\ ninv h cn'.
Proof.
  intros [limit mx ml mr nx b l ts dm ab r H1 H2 H3 H4 H5]. unfold path_response.
  change (nth_error (cn_paths (single limit mx ml mr nx b l ts dm ab r)) 0) with (Some (mk_path 0 ts dm ab)). cbn [obind pa_tuples].
  destruct (split_challenge ts v) as [[[a t] c] |] eqn:E; [| eexists; split; [reflexivity | constructor; auto]].
  destruct (tu_verified t); [eexists; split; [reflexivity | constructor; auto] |].
  eexists. split; [reflexivity |]. rewrite tuples_single. destruct (split_challenge_eq _ _ _ _ _ E) as (-> & _).
  apply (ninv_ts h limit mx ml mr b l (a ++ t :: c) r _ []); auto; [discriminate | |].
  - intros t' [<- | Ht']; [exists t; split; [apply in_app_iff; right; left; reflexivity | reflexivity] |].
    exists t'. split; [| reflexivity]. apply in_app_iff. apply in_app_iff in Ht'. destruct Ht'; [left; auto | right; right; auto].
  - rewrite app_nil_r. change (tused (?x :: a ++ c)) with (match tu_cid t with Some a => [a] | None => [] end ++ tused (a ++ c)).
    rewrite !tused_app. cbn [tused flat_map]. fold (tused c). rewrite !app_assoc. apply Permutation_app_tail. apply Permutation_app_comm.
Qed.

Lemma ninv_challenge h cn j : ninv h cn -> exists v cn', send_challenge cn 0 j = Some (v, cn') /\ ninv h cn'.
Proof.
  intros [limit mx ml mr nx b l ts dm ab r H1 H2 H3 H4 H5]. unfold send_challenge.
  change (nth_error (cn_paths (single limit mx ml mr nx b l ts dm ab r)) 0) with (Some (mk_path 0 ts dm ab)). cbn [obind pa_tuples].
  destruct (nth_error ts j) as [t |] eqn:E; [| eexists _, _; split; [reflexivity | constructor; auto]].
  destruct (tu_verified t || tu_failed t); [eexists _, _; split; [reflexivity | constructor; auto] |].
  pose proof (nth_split_at _ _ _ E) as Hs.
  destruct (N.ltb_spec (tu_count t) 3) as [L | L].
  - assert (Hv : exists v, nth_error (chal_list (tu_chal t)) (N.to_nat (tu_count t)) = Some v).
    { destruct (nth_error (chal_list (tu_chal t)) (N.to_nat (tu_count t))) eqn:En; [eexists; reflexivity |].
      apply nth_error_None in En. cbn [chal_list length] in En. lia. }
    destruct Hv as (v & ->). cbn [obind]. eexists _, _. split; [reflexivity |]. rewrite tuples_single.
    apply (ninv_ts h limit mx ml mr b l ts r _ []); auto.
    + unfold set_nth. intros Hc. apply app_eq_nil in Hc. destruct Hc as (_ & Hc). discriminate Hc.
    + intros t' Ht'. unfold set_nth in Ht'. apply in_app_iff in Ht'. destruct Ht' as [Ht' | [<- | Ht']].
      * exists t'. split; [exact (in_firstn _ _ _ Ht') | reflexivity].
      * exists t. split; [exact (nth_error_In _ _ E) | reflexivity].
      * exists t'. split; [exact (in_skipn _ _ _ Ht') | reflexivity].
    + rewrite app_nil_r, (tused_nth ts j t); [reflexivity | exact E | reflexivity].
  - eexists _, _. split; [reflexivity |]. rewrite tuples_single.
    apply (ninv_ts h limit mx ml mr b l ts r _ []); auto.
    + intros Hc. apply app_eq_nil in Hc. destruct Hc as (_ & Hc). apply app_eq_nil in Hc. destruct Hc as (_ & Hc). discriminate Hc.
    + intros t' Ht'. apply in_app_iff in Ht'. destruct Ht' as [Ht' | Ht']; [exists t'; split; [exact (in_firstn _ _ _ Ht') | reflexivity] |].
      apply in_app_iff in Ht'. destruct Ht' as [Ht' | [<- | []]].
      * exists t'. split; [exact (in_skipn _ _ _ Ht') | reflexivity].
      * exists t. split; [exact (nth_error_In _ _ E) | reflexivity].
    + rewrite app_nil_r. rewrite Hs at 1. rewrite !tused_app. apply Permutation_app_head.
      rewrite (tused_app [t] (skipn (j + 1) ts) : tused (t :: skipn (j + 1) ts) = _).
      apply Permutation_app_comm.
Qed.

Lemma ninv_first h cn i f : (forall t, tu_cid (f t) = tu_cid t) -> ninv h cn -> ninv h (map_first cn i f).
Proof.
  intros Hf [limit mx ml mr nx b l ts dm ab r H1 H2 H3 H4 H5]. destruct ts as [| t ts]; [contradiction |].
  destruct i as [| i].
  - change (map_first _ 0 f) with (single limit mx ml mr nx b l (f t :: ts) dm ab r).
    apply (ninv_ts h limit mx ml mr b l (t :: ts) r _ []); auto; [discriminate | |].
    + intros t' [<- | Ht']; [exists t; split; [left; reflexivity | apply Hf] | exists t'; split; [right; exact Ht' | reflexivity]].
    + rewrite app_nil_r. cbn [tused flat_map]. rewrite Hf. reflexivity.
  - assert (E : map_first (single limit mx ml mr nx b l (t :: ts) dm ab r) (S i) f = single limit mx ml mr nx b l (t :: ts) dm ab r).
    { unfold map_first. cbn [single cn_paths nth_error]. destruct i; reflexivity. }
    rewrite E. constructor; auto.
Qed.

Lemma ninv_delete_tuple h cn j : ninv h cn -> exists cn', delete_tuple cn 0 j = Some cn' /\ ninv h cn'.
Proof.
  intros [limit mx ml mr nx b l ts dm ab r H1 H2 H3 H4 H5]. unfold delete_tuple.
  change (nth_error (cn_paths (single limit mx ml mr nx b l ts dm ab r)) 0) with (Some (mk_path 0 ts dm ab)). cbn [obind pa_tuples pa_demoted].
  destruct j as [| j]; [eexists; split; [reflexivity | constructor; auto] |].
  destruct (nth_error ts (S j)) as [t |] eqn:E; [| eexists; split; [reflexivity | constructor; auto]].
  destruct (tu_failed t && negb dm); [| eexists; split; [reflexivity | constructor; auto]].
  eexists. split; [reflexivity |]. rewrite tuples_single. pose proof (nth_split_at _ _ _ E) as Hs.
  apply (ninv_ts h limit mx ml mr b l ts r _ (tused [t])); auto.
  - destruct ts as [| t0 ts]; [discriminate E |]. cbn [firstn]. discriminate.
  - intros t' Ht'. exists t'. split; [| reflexivity]. apply in_app_iff in Ht'. destruct Ht' as [Ht' | Ht']; [exact (in_firstn _ _ _ Ht') | exact (in_skipn _ _ _ Ht')].
  - rewrite Hs at 1. rewrite !tused_app. rewrite <- app_assoc. apply Permutation_app_head.
    rewrite (tused_app [t] (skipn (S j + 1) ts) : tused (t :: skipn (S j + 1) ts) = _). apply Permutation_app_comm.
Qed.

Lemma ninv_demote h cn : ninv h cn -> exists cn', demote_path cn 0 = Some cn' /\ ninv h cn'.
Proof.
  intros [limit mx ml mr nx b l ts dm ab r H1 H2 H3 H4 H5]. unfold demote_path.
  change (nth_error (cn_paths (single limit mx ml mr nx b l ts dm ab r)) 0) with (Some (mk_path 0 ts dm ab)). cbn [obind pa_tuples pa_demoted].
  destruct dm; [eexists; split; [reflexivity | constructor; auto] |].
  eexists. split; [reflexivity |]. change (ninv h (single limit mx ml mr nx b l ts true ab r)). constructor; auto.
Qed.

Lemma ninv_delete_path h cn : ninv h cn -> delete_path cn 0 = Some cn.
Proof.
  intros [limit mx ml mr nx b l ts dm ab r H1 H2 H3 H4 H5]. unfold delete_path.
  change (nth_error (cn_paths (single limit mx ml mr nx b l ts dm ab r)) 0) with (Some (mk_path 0 ts dm ab)). cbn [obind pa_tuples pa_demoted].
  cbn [single cn_mp]. destruct dm; reflexivity.
Qed.

Lemma ninv_tuple h cn chal : ninv h cn -> exists cn', new_tuple cn 0 chal = Some cn' /\ ninv h cn'.
Proof.
  intros [limit mx ml mr nx b l ts dm ab r H1 H2 H3 H4 H5]. unfold new_tuple.
  change (nth_error (cn_paths (single limit mx ml mr nx b l ts dm ab r)) 0) with (Some (mk_path 0 ts dm ab)). cbn [obind].
  unfold assign_cid. change (obtain_stashed (single limit mx ml mr nx b l ts dm ab r) (pa_id (mk_path 0 ts dm ab))) with (get_cnxid l).
  destruct (get_cnxid l) as [e |] eqn:E; [| eexists; split; [reflexivity | constructor; auto]].
  destruct (get_cnxid_spec _ _ E) as (G1 & [G2 | (G2 & G3)]); [exfalso; exact (H5 e G1 G2) |].
  eexists. split; [reflexivity |].
  change (ninv h (single limit mx ml mr (nx + 1) b (map (bump (rc_addr e)) l) (ts ++ [mk_tuple nx (Some (rc_addr e)) chal 0 true false false]) dm ab r)).
  assert (Hu : tused (ts ++ [mk_tuple nx (Some (rc_addr e)) chal 0 true false false]) = tused ts ++ [rc_addr e]) by (rewrite tused_app; reflexivity).
  assert (Hn : ~ In (rc_addr e) (tused ts)) by (intros Hc; pose proof (k_used _ _ _ _ H3 e G1 Hc); lia).
  constructor.
  - intros Hc. apply app_eq_nil in Hc. destruct Hc as (_ & Hc). discriminate Hc.
  - intros t Ht. apply in_app_iff in Ht. destruct Ht as [Ht | [<- | []]]; [exact (H2 t Ht) | eexists; reflexivity].
  - rewrite Hu. apply (kinv_used _ (rc_addr e :: tused ts)); [apply kinv_bump; auto |].
    intros a Ha. apply in_app_iff in Ha. destruct Ha as [Ha | [<- | []]]; [right; exact Ha | left; reflexivity].
  - rewrite Hu. apply (Permutation_NoDup (Permutation_app_comm [rc_addr e] (tused ts))). constructor; assumption.
  - intros x Hx. apply in_map_iff in Hx. destruct Hx as (y & <- & Hy). unfold bump. destruct (_ =? _); exact (H5 y Hy).
Qed.

Lemma ninv_send h cn j : ninv h cn -> exists cn' o, step cn (ESend 0 j) = Some (cn', o) /\ ninv h cn'.
Proof.
  intros I. pose proof I as I0. destruct I as [limit mx ml mr nx b l ts dm ab r H1 H2 H3 H4 H5].
  unfold step. change (length (cn_paths (single limit mx ml mr nx b l ts dm ab r))) with 1%nat. change (0 <? 1)%nat with true. cbv beta iota zeta.
  change (nth_error (cn_paths (single limit mx ml mr nx b l ts dm ab r)) 0) with (Some (mk_path 0 ts dm ab)). cbn [obind pa_tuples].
  destruct (Nat.ltb_spec j (length ts)) as [L | L]; [| eexists _, _; split; [reflexivity | exact I0]].
  unfold send_packet. change (nth_error (cn_paths (single limit mx ml mr nx b l ts dm ab r)) 0) with (Some (mk_path 0 ts dm ab)). cbn [obind pa_tuples].
  destruct (nth_error ts j) as [t |] eqn:E; [| apply nth_error_None in E; lia]. cbn [obind].
  pose proof (nth_error_In _ _ E) as Hi. destruct (H2 t Hi) as (a & Ha). rewrite Ha. cbn [obind]. rewrite rcid_at_single.
  destruct (k_alive _ _ _ _ H3 a) as (e & E1 & E2 & E3).
  { apply in_flat_map. exists t. split; [exact Hi |]. rewrite Ha. left. reflexivity. }
  rewrite <- E2. rewrite (find_addr l e (k_addr _ _ _ _ H3) E1). cbn [obind]. eexists _, _. split; [reflexivity | exact I0].
Qed.

Lemma ninv_ack h cn p seq : ninv h cn -> exists cn' o, step cn (EAck p seq) = Some (cn', o) /\ ninv (h ++ [EAck p seq]) cn'.
Proof.
  intros I. pose proof I as I0. destruct I as [limit mx ml mr nx b l ts dm ab r H1 H2 H3 H4 H5]. unfold step.
  change (cn_retires (single limit mx ml mr nx b l ts dm ab r)) with r.
  destruct (existsb _ r) eqn:Ex; [| eexists _, _; split; [reflexivity | apply ninv_more; exact I0]].
  apply existsb_exists in Ex. destruct Ex as ([p' q'] & Hin & Hq). cbn [fst snd] in Hq. apply andb_prop in Hq. destruct Hq as (Q1 & Q2).
  apply N.eqb_eq in Q1. apply N.eqb_eq in Q2. subst p' q'.
  destruct (k_log _ _ _ _ H3 p seq Hin) as (-> & Ls & Hsent & Hor). eexists _, _. split; [reflexivity |].
  change (cn_mp (single limit mx ml mr nx b l ts dm ab r)) with false. unfold retire_frame, ack_retire.
  change (cn_mp (single limit mx ml mr nx b l ts dm ab r)) with false. cbv zeta iota.
  change (skipn 1 (varint_bytes 0x19 ++ varint_bytes seq)) with (varint_bytes seq).
  rewrite <- (app_nil_r (varint_bytes seq)). rewrite (frames_varint_decode_bytes seq [] Ls).
  change (find_stash (single limit mx ml mr nx b l ts dm ab r) 0) with (Some (mk_stash 0 b l)). cbn [sh_list].
  destruct (find (fun e => rc_seq e =? seq) l) as [e |] eqn:Ef; [| apply ninv_more; exact I0].
  apply find_some in Ef. destruct Ef as (F1 & F2). apply N.eqb_eq in F2. subst seq.
  change (ninv (h ++ [EAck 0 (rc_seq e)]) (single limit mx ml mr nx b (filter (fun x => negb (rc_addr x =? rc_addr e)) l) ts dm ab r)).
  constructor; auto.
  - apply kinv_remove; auto.
  - intros x Hx. apply filter_In in Hx. exact (H5 x (proj1 Hx)).
Qed.

Lemma first_rcid h cn : ninv h cn -> exists e, path_rcid cn 0 = Some e /\ blen (rc_id e) <> 0.
Proof.
  intros [limit mx ml mr nx b l ts dm ab r H1 H2 H3 H4 H5]. destruct ts as [| t ts]; [contradiction |].
  destruct (first_alive _ _ _ _ _ H3 H2) as (a & ea & F1 & F2 & F3 & F4). exists ea. split; [| exact (H5 ea F2)].
  unfold path_rcid. cbn [single cn_paths nth_error obind first_tuple pa_tuples]. rewrite F1. cbn [obind].
  fold (single limit mx ml mr nx b l (t :: ts) dm ab r). rewrite rcid_at_single, <- F3. exact (find_addr l ea (k_addr _ _ _ _ H3) F2).
Qed.

(* What is wanted of the connection after a frame that raises the number. *)
Definition below_retired (cn : conn) (before : N) : Prop :=
  (forall e, In e (flat cn) -> rc_seq e < before -> rc_removal e = true /\ (rc_sent e = true \/ 1 <= rc_refs e)) /\
  (forall p, nth_error (cn_paths cn) 0 = Some p -> pa_demoted p = false -> exists e, path_rcid cn 0 = Some e /\ before <= rc_seq e).

Lemma remove_ninv h cn before : ninv h cn -> exists err cn', remove_not_before cn 0 before = Some (err, cn') /\ ninv h cn' /\ (err = 0 -> below_retired cn' before).
Proof.
  intros [limit mx ml mr nx b l ts dm ab r H1 H2 H3 H4 H5]. destruct ts as [| t ts]; [contradiction |].
  destruct (remove_single h limit mx ml mr nx b l t ts dm ab r before H3 H4 H5 H2) as (err & cn' & E & I & Hr).
  exists err, cn'. split; [exact E |]. split; [exact I |]. intros Z. destruct (Hr Z) as (R1 & R2). split; [exact R1 |].
  intros p Hp Hd. apply R2. 
  assert (Hs : remove_not_before (single limit mx ml mr nx b l (t :: ts) dm ab r) 0 before = Some (err, cn') -> forall p, nth_error (cn_paths cn') 0 = Some p -> pa_demoted p = dm).
  { clear. intros E p Hp. unfold remove_not_before in E.
    change (find_stash (single limit mx ml mr nx b l (t :: ts) dm ab r) 0) with (Some (mk_stash 0 b l)) in E. cbn [sh_list] in E.
    destruct (retire_below l before) as [l2 q]. cbv zeta in E.
    change (map_stash 0 (fun s => mk_stash (sh_path s) (sh_before s) l2) (single limit mx ml mr nx b l (t :: ts) dm ab r)) with (single limit mx ml mr nx b l2 (t :: ts) dm ab r) in E.
    rewrite add_retires_single in E. set (r2 := r ++ map (pair 0) q) in *. set (cn2 := single limit mx ml mr nx b l2 (t :: ts) dm ab r2) in *.
    change (cn_mp cn2) with false in E. cbv iota in E. change (length (cn_paths cn2)) with 1%nat in E. cbn [renew_all] in E.
    change (length (cn_paths cn2)) with 1%nat in E. cbn [Nat.leb] in E. unfold renew_below in E.
    assert (A2 : nth_error (cn_paths cn2) 0 = Some (mk_path 0 (t :: ts) dm ab)) by reflexivity. rewrite A2 in E. cbn [obind] in E.
    ob E z Ez. destruct z as [er c]. ob Ez e Ee. cbn [pa_demoted] in Ez.
    assert (Hpd : forall c, nth_error (cn_paths c) 0 = Some p -> c = cn2 -> pa_demoted p = dm).
    { intros c0 Hc ->. rewrite A2 in Hc. apply some_inj in Hc. subst p. reflexivity. }
    assert (Hren : forall ok c0, renew_path cn2 0 = Some (ok, c0) -> nth_error (cn_paths c0) 0 = Some p -> pa_demoted p = dm).
    { intros ok c0 Hr Hc. unfold renew_path in Hr. rewrite A2 in Hr. cbn [obind first_tuple pa_tuples nth_error] in Hr.
      destruct (find_stash cn2 _); [| apply some_pair_inj in Hr; destruct Hr as (_ & <-); exact (Hpd _ Hc eq_refl)].
      ob Hr cur Ec. destruct (_ || _); [apply some_pair_inj in Hr; destruct Hr as (_ & <-); exact (Hpd _ Hc eq_refl) |].
      destruct (get_cnxid _); [| apply some_pair_inj in Hr; destruct Hr as (_ & <-); exact (Hpd _ Hc eq_refl)].
      destruct (match cur with Some _ => _ | None => _ end); [apply some_pair_inj in Hr; destruct Hr as (_ & <-); exact (Hpd _ Hc eq_refl) |].
      ob Hr c3 E3. apply some_pair_inj in Hr. destruct Hr as (_ & <-).
      destruct (dereference_first _ _ _ _ E3 A2) as (t3 & r3 & F1 & F2). assert (A2' : cn_paths cn2 = [mk_path 0 (t :: ts) dm ab]) by reflexivity.
      revert Hc. cbn [map_rcid set_stashes cn_paths]. rewrite A2' in F2. unfold map_first. rewrite F2. cbn [set_nth firstn skipn app nth_error set_tuples pa_tuples Nat.add set_paths cn_paths]. intros Hc. apply some_inj in Hc. subst p. reflexivity. }
    destruct (_ && _) in Ez.
    - ob Ez w Ew. destruct w as [ok c4]. destruct ok.
      + apply some_pair_inj in Ez. destruct Ez as (<- & <-). cbn [N.eqb] in E. apply some_pair_inj in E. destruct E as (_ & <-). exact (Hren _ _ Ew Hp).
      + apply some_pair_inj in Ez. destruct Ez as (<- & <-). cbn [N.eqb] in E. apply some_pair_inj in E. destruct E as (_ & <-). exact (Hren _ _ Ew Hp).
    - apply some_pair_inj in Ez. destruct Ez as (<- & <-). cbn [N.eqb] in E. apply some_pair_inj in E. destruct E as (_ & <-). exact (Hpd _ Hp eq_refl). }
  rewrite <- (Hs E p Hp). exact Hd.
Qed.

Lemma added_single limit mx ml mr nx b l ts dm ab r before seq id secret :
  added (single limit mx ml mr nx b l ts dm ab r) (mk_stash 0 b l) before seq id secret =
  single limit mx ml mr (nx + 1) (N.max b before) (l ++ [mk_rcid nx seq id secret 0 false false false]) ts dm ab r.
Proof. reflexivity. Qed.

Lemma raised_single limit mx ml mr nx b l ts dm ab r before :
  map_stash 0 (fun s => mk_stash (sh_path s) before (sh_list s)) (single limit mx ml mr nx b l ts dm ab r) = single limit mx ml mr nx before l ts dm ab r.
Proof. reflexivity. Qed.

Lemma ninv_new limit0 id0 secret0 h cn seq before id secret :
  sinv limit0 id0 secret0 h cn -> uinv cn -> ninv h cn -> seq < 2 ^ 62 -> ~ In (EAck 0 seq) h ->
  exists err cn', new_connection_id cn false 0 seq before id secret = Some (err, cn') /\ ninv h cn' /\
  (err = 0 -> sh_before (stash_of cn 0) < before -> below_retired cn' before).
Proof.
  intros Si Ui I Ls Hr. pose proof (first_rcid _ _ I) as (e0 & E0 & L0). pose proof I as I0.
  destruct I as [limit mx ml mr nx b l ts dm ab r H1 H2 H3 H4 H5]. set (cn := single limit mx ml mr nx b l ts dm ab r) in *.
  assert (Ac : create_stash cn 0 = cn) by reflexivity.
  assert (As : stash_of cn 0 = mk_stash 0 b l) by reflexivity.
  destruct (N.ltb_spec seq before) as [W1 | W1].
  { exists 7, cn. unfold new_connection_id. rewrite (proj2 (N.ltb_lt _ _) W1). cbn [andb]. split; [reflexivity | split; [exact I0 | discriminate]]. }
  destruct (N.ltb_spec 20 (blen id)) as [W2 | W2].
  { exists 10, cn. unfold new_connection_id. rewrite (proj2 (N.ltb_ge _ _) W1), (proj2 (N.ltb_lt _ _) W2). cbn [andb]. split; [reflexivity | split; [exact I0 | discriminate]]. }
  destruct (N.eq_dec (blen id) 0) as [W3 | W3].
  { exists 7, cn. unfold new_connection_id. rewrite (proj2 (N.ltb_ge _ _) W1), (proj2 (N.ltb_ge _ _) W2). cbn [andb].
    assert (Am : cn_mp cn = false) by reflexivity. rewrite Am, Bool.andb_false_r, Ac. cbv zeta.
    assert (Af : find_stash cn 0 = Some (mk_stash 0 b l)) by reflexivity. rewrite Af. cbn [obind]. unfold add_remote_cnxid.
    rewrite W3. change (0 =? 0) with true. rewrite Bool.orb_true_r. cbn [obind]. split; [reflexivity | split; [exact I0 | discriminate]]. }
  assert (W : well_formed cn false 0 seq before id).
  { repeat match goal with |- _ /\ _ => split end; auto; try lia. red. repeat match goal with |- _ /\ _ => split end; auto; try lia. reflexivity. }
  pose proof (new_eq cn false 0 seq before id secret e0 (si_paths _ _ _ _ _ Si) E0 L0 W) as HE. cbv zeta in HE.
  rewrite Ac, As in HE. cbn [sh_before sh_list] in HE. rewrite As. cbn [sh_before].
  pose proof (scan_spec (N.max b before) seq id secret l 0 0) as Hsc.
  destruct (scan_stash l (N.max b before) seq id secret 0 0) as [er | [[[|] nb] ret]].
  - exists 10, cn. split; [exact HE | split; [exact I0 | discriminate]].
  - destruct (N.ltb_spec b before) as [L | L].
    + unfold cn in HE. rewrite raised_single in HE.
      destruct (remove_ninv h (single limit mx ml mr nx before l ts dm ab r) before) as (err & cn' & R1 & R2 & R3); [constructor; auto |].
      exists err, cn'. split; [rewrite <- R1; exact HE | split; [exact R2 | intros Z _; exact (R3 Z)]].
    + exists 0, cn. split; [exact HE | split; [exact I0 | intros _ Z; exfalso; clear - Z L; lia]].
  - assert (Hflat : flat cn = l) by (unfold flat, cn; cbn; apply app_nil_r).
    assert (Hnx : cn_next cn = nx) by reflexivity.
    assert (Ia : ninv h (single limit mx ml mr (nx + 1) (N.max b before) (l ++ [mk_rcid nx seq id secret 0 false false false]) ts dm ab r)).
    { destruct Hsc as (Hsc & _). destruct Ui as (_ & U2 & _). constructor; auto.
      - apply kinv_add; auto; cbn [rc_addr rc_seq].
        + intros Hc. apply in_map_iff in Hc. destruct Hc as (x & X1 & X2). pose proof (si_next _ _ _ _ _ Si x) as Hlt. fold (flat cn) in Hlt. rewrite Hflat, Hnx in Hlt. specialize (Hlt X2). lia.
        + intros Hc. apply in_map_iff in Hc. destruct Hc as (x & X1 & X2). destruct (Hsc x X2) as (Hs & _). contradiction.
        + intros Hc. assert (Hu : In nx (used cn)) by (unfold used, cn; cbn [single cn_paths flat_map pa_tuples]; rewrite app_nil_r; exact Hc). specialize (U2 nx Hu). lia.
      - intros x Hx. apply in_app_iff in Hx. destruct Hx as [Hx | [<- | []]]; [exact (H5 x Hx) | exact W3]. }
    destruct (_ || _).
    + exists 9, cn. split; [exact HE | split; [exact I0 | discriminate]].
    + unfold cn in HE. rewrite added_single in HE. destruct (N.ltb_spec b before) as [L | L].
      * destruct (remove_ninv h _ before Ia) as (err & cn' & R1 & R2 & R3).
        exists err, cn'. split; [rewrite <- R1; exact HE | split; [exact R2 | intros Z _; exact (R3 Z)]].
      * eexists 0, _. split; [exact HE | split; [exact Ia | intros _ Z; exfalso; clear - Z L; lia]].
Qed.

Definition ok_event (h : list event) (e : event) : Prop :=
  match e with ENew _ _ seq _ _ _ => seq < 2 ^ 62 /\ ~ In (EAck 0 seq) h | _ => True end.

Lemma safe_step limit0 id0 secret0 h cn e :
  sinv limit0 id0 secret0 h cn -> uinv cn -> ninv h cn -> ok_event h e ->
  exists cn' o, step cn e = Some (cn', o) /\ ninv (h ++ [e]) cn'.
Proof.
  intros Si Ui I Ok.
  assert (Hlen : length (cn_paths cn) = 1%nat) by (destruct I; reflexivity).
  assert (Hmp : cn_mp cn = false) by (destruct I; reflexivity).
  assert (Hth : forall i (k : option (conn * list output)) (Q : Prop), (i = 0%nat -> exists cn' o, k = Some (cn', o) /\ ninv (h ++ [e]) cn') ->
    exists cn' o, (if (i <? length (cn_paths cn))%nat then k else Some (cn, [])) = Some (cn', o) /\ ninv (h ++ [e]) cn').
  { intros i k _ H. rewrite Hlen. destruct i as [| i]; [exact (H eq_refl) |]. exists cn, []. split; [reflexivity | apply ninv_more; exact I]. }
  destruct e as [is_mp p seq before id secret | p seq | i | i chal | pid chal | i v | i j | i chal | i | i j | i | i | i j].
  - cbn [step]. destruct is_mp; cbn [negb andb].
    + unfold new_connection_id. rewrite Hmp. cbn [negb andb obind N.eqb]. eexists _, _. split; [reflexivity | apply ninv_more; exact I].
    + destruct (N.eqb_spec p 0) as [-> | Hp]; cbn [negb]; [| eexists _, _; split; [reflexivity | apply ninv_more; exact I]].
      destruct Ok as (Ok1 & Ok2). destruct (ninv_new limit0 id0 secret0 h cn seq before id secret Si Ui I Ok1 Ok2) as (err & cn' & E & I' & _).
      rewrite E. cbn [obind]. eexists _, _. split; [reflexivity | apply ninv_more; exact I'].
  - apply ninv_ack. exact I.
  - cbn [step]. apply (Hth _ _ True). intros ->. destruct (ninv_renew _ _ I) as (ok & cn' & E & I'). rewrite E. cbn [obind].
    eexists _, _. split; [reflexivity | apply ninv_more; exact I'].
  - cbn [step]. apply (Hth _ _ True). intros ->. destruct (ninv_tuple _ _ chal I) as (cn' & E & I'). rewrite E. cbn [obind].
    eexists _, _. split; [reflexivity | apply ninv_more; exact I'].
  - cbn [step]. rewrite Hmp. eexists _, _. split; [reflexivity | apply ninv_more; exact I].
  - cbn [step]. apply (Hth _ _ True). intros ->. destruct (ninv_response _ _ v I) as (cn' & E & I'). rewrite E. cbn [obind].
    eexists _, _. split; [reflexivity | apply ninv_more; exact I'].
  - cbn [step]. apply (Hth _ _ True). intros ->. destruct (nth_error (cn_paths cn) 0) as [pa |] eqn:Ep; [| apply nth_error_None in Ep; lia]. cbn [obind].
    destruct (ninv_challenge _ _ j I) as (v & cn' & E & I'). rewrite E. cbn [obind].
    eexists _, _. split; [reflexivity | apply ninv_more; exact I'].
  - cbn [step]. eexists _, _. split; [reflexivity |]. apply ninv_first; [| apply ninv_more; exact I]. intros t. destruct (_ || _); reflexivity.
  - cbn [step]. eexists _, _. split; [reflexivity |]. apply ninv_first; [| apply ninv_more; exact I]. intros t. reflexivity.
  - cbn [step]. apply (Hth _ _ True). intros ->. destruct (ninv_delete_tuple _ _ j I) as (cn' & E & I'). rewrite E. cbn [obind].
    eexists _, _. split; [reflexivity | apply ninv_more; exact I'].
  - cbn [step]. apply (Hth _ _ True). intros ->. destruct (ninv_demote _ _ I) as (cn' & E & I'). rewrite E. cbn [obind].
    eexists _, _. split; [reflexivity | apply ninv_more; exact I'].
  - cbn [step]. apply (Hth _ _ True). intros ->. rewrite (ninv_delete_path _ _ I). cbn [obind].
    eexists _, _. split; [reflexivity | apply ninv_more; exact I].
  - destruct i as [| i].
    + destruct (ninv_send _ _ j I) as (cn' & o & E & I'). exists cn', o. split; [exact E | apply ninv_more; exact I'].
    + cbn [step]. apply (Hth _ _ True). discriminate.
Qed.

Lemma ninv_init limit mx ml mr id secret chal : 1 <= blen id -> ninv [] (init_conn false limit mx ml mr id secret chal).
Proof.
  intros Hid. change (init_conn false limit mx ml mr id secret chal) with
    (single limit mx ml mr 2 0 [mk_rcid 0 0 id secret 1 false false false] [mk_tuple 1 (Some 0) chal 0 true true false] false false []).
  constructor.
  - discriminate.
  - intros t [<- | []]. exists 0. reflexivity.
  - constructor; cbn.
    + intros a [<- | []]. eexists. split; [left; reflexivity | split; reflexivity].
    + intros e [<- | []] _. cbn. lia.
    + intros e [<- | []]. cbn. lia.
    + intros e [<- | []]. discriminate.
    + intros p q [].
    + intros e [<- | []]. discriminate.
    + intros e [<- | []]. cbn. reflexivity.
    + constructor; [intros [] | constructor].
    + intros e [<- | []]. reflexivity.
    + constructor; [intros [] | constructor].
  - cbn. constructor; [intros [] | constructor].
  - intros e [<- | []]. cbn. lia.
Qed.

Fixpoint ok_events (h evs : list event) : Prop :=
  match evs with [] => True | e :: r => ok_event h e /\ ok_events (h ++ [e]) r end.

Lemma safe_run limit0 id0 secret0 : 1 <= blen id0 -> forall evs h cn,
  sinv limit0 id0 secret0 h cn -> uinv cn -> ninv h cn -> ok_events h evs ->
  exists cn' o h1 h2, run cn evs = Some (cn', o) /\ evs = h1 ++ h2 /\ sinv limit0 id0 secret0 (h ++ h1) cn' /\ uinv cn' /\ ninv (h ++ h1) cn'.
Proof.
  intros Hid. induction evs as [| e evs IH]; intros h cn Si Ui I Ok.
  - exists cn, [], [], []. rewrite (app_nil_r h). repeat match goal with |- _ /\ _ => split end; auto.
  - destruct Ok as (O1 & O2). destruct (safe_step _ _ _ _ _ _ Si Ui I O1) as (c1 & o1 & E & I1).
    pose proof (sinv_step _ _ _ _ _ _ _ _ Si E) as S1. pose proof (uinv_step _ _ _ _ _ _ _ _ Si Hid Ui E) as U1.
    cbn [run]. rewrite E. cbn [obind].
    destruct (existsb _ o1).
    + exists c1, o1, [e], evs. repeat match goal with |- _ /\ _ => split end; auto.
    + destruct (IH _ _ S1 U1 I1 O2) as (c2 & o2 & h1 & h2 & R & -> & S2 & U2 & I2). rewrite R. cbn [obind].
      exists c2, (o1 ++ o2), (e :: h1), h2. rewrite <- app_assoc in S2, I2. repeat match goal with |- _ /\ _ => split end; auto.
Qed.

Lemma no_return_ok evs : forall h,
  (forall is_mp p seq before id secret, In (ENew is_mp p seq before id secret) evs -> seq < 2 ^ 62) ->
  no_return evs -> (forall is_mp p seq before id secret, In (ENew is_mp p seq before id secret) evs -> ~ In (EAck 0 seq) h) -> ok_events h evs.
Proof.
  induction evs as [| e evs IH]; intros h Hs Hn Hh; [exact I |]. destruct Hn as (Hn1 & Hn2). split.
  - destruct e; try exact I. split; [eapply Hs; left; reflexivity | eapply Hh; left; reflexivity].
  - apply IH; [intros; eapply Hs; right; eassumption | exact Hn2 |].
    intros is_mp p seq before id secret Hin Hc. apply in_app_iff in Hc. destruct Hc as [Hc | [Hc | []]].
    + exact (Hh _ _ _ _ _ _ (or_intror Hin) Hc).
    + subst e. exact (Hn1 _ _ _ _ _ Hin).
Qed.

Lemma reaches_safe limit mx ml mr id secret chal evs :
  1 <= limit -> 1 <= blen id -> numbers evs -> no_return evs ->
  exists cn out, reaches false limit mx ml mr id secret chal evs cn out.
Proof.
  intros Hl Hid Hs Hn.
  destruct (safe_run limit id secret Hid evs [] _ (sinv_init false limit mx ml mr id secret chal Hl) (uinv_init false limit mx ml mr id secret chal) (ninv_init limit mx ml mr id secret chal Hid)) as (cn & o & _ & _ & R & _).
  - apply no_return_ok; [exact Hs | exact Hn | intros; intros []].
  - exists cn, o. exact R.
Qed.

Lemma no_return_app a b : no_return (a ++ b) -> no_return a.
Proof.
  induction a as [| e a IH]; intros H; [exact I |]. destruct H as (H1 & H2). split; [| exact (IH H2)].
  destruct e; try exact I. intros. intros Hc. eapply H1. apply in_app_iff. left. exact Hc.
Qed.

Lemma no_return_last a is_mp p seq before id secret q : no_return (a ++ [ENew is_mp p seq before id secret]) -> ~ In (EAck q seq) a.
Proof.
  induction a as [| e a IH]; intros H Hc; [exact Hc |]. destruct H as (H1 & H2). destruct Hc as [-> | Hc]; [| exact (IH H2 Hc)].
  eapply H1. apply in_app_iff. right. left. reflexivity.
Qed.

Lemma retire_prior_to limit mx ml mr id0 secret0 chal evs cn out seq before id secret cn' :
  1 <= limit -> 1 <= blen id0 -> let e := ENew false 0 seq before id secret in numbers (evs ++ [e]) -> no_return (evs ++ [e]) ->
  reaches false limit mx ml mr id0 secret0 chal evs cn out ->
  (forall s, In s (cn_stashes cn) -> sh_path s = 0 -> sh_before s < before) ->
  step cn e = Some (cn', []) -> retired_below cn' before.
Proof.
  intros Hl Hid e Hs Hn R Hb E. unfold e in *. clear e.
  destruct (safe_run limit id0 secret0 Hid evs [] _ (sinv_init false limit mx ml mr id0 secret0 chal Hl) (uinv_init false limit mx ml mr id0 secret0 chal) (ninv_init limit mx ml mr id0 secret0 chal Hid)) as (cn1 & o1 & h1 & h2 & R1 & He & S1 & U1 & I1).
  { apply no_return_ok; [| exact (no_return_app _ _ Hn) | intros; intros []]. intros is_mp p sq bf i sc Hin. eapply Hs. apply in_app_iff. left. exact Hin. }
  unfold reaches in R. rewrite R1 in R. apply some_pair_inj in R. destruct R as (<- & _).
  cbn [app] in S1, I1.
  assert (Ls : seq < 2 ^ 62) by (eapply Hs; apply in_app_iff; right; left; reflexivity).
  assert (Hr : ~ In (EAck 0 seq) h1).
  { intros Hc. apply (no_return_last _ _ _ _ _ _ _ 0 Hn). rewrite He. apply in_app_iff. left. exact Hc. }
  destruct (ninv_new limit id0 secret0 h1 cn1 seq before id secret S1 U1 I1 Ls Hr) as (err & c2 & E2 & I2 & H2).
  cbn [step negb andb] in E. change (0 =? 0) with true in E. cbn [negb] in E. rewrite E2 in E. cbn [obind] in E.
  apply some_pair_inj in E. destruct E as (<- & Eo). destruct (N.eqb_spec err 0) as [-> | Hne]; [| discriminate Eo].
  assert (Hbb : sh_before (stash_of cn1 0) < before).
  { unfold stash_of. destruct (find_stash cn1 0) as [s |] eqn:Ef; [destruct (find_stash_in _ _ _ Ef) as (F1 & F2); exact (Hb s F1 F2) |].
    destruct I1. discriminate Ef. }
  destruct (H2 eq_refl Hbb) as (B1 & B2). clear - I2 B1 B2. destruct I2 as [limit mx ml mr nx b l ts dm ab r H1 H2 H3 H4 H5].
  assert (Hflat : flat (single limit mx ml mr nx b l ts dm ab r) = l) by (unfold flat; cbn; apply app_nil_r).
  split.
  - intros e (s & [<- | []] & _ & He) Le. cbn [sh_list] in He. destruct (B1 e) as (C1 & C2); [rewrite Hflat; exact He | exact Le |]. split; [exact C1 |].
    destruct C2 as [C2 | C2]; [left; exact (k_logged _ _ _ _ H3 e He C2) | right; exact C2].
  - intros p Hp Hd. destruct (B2 p Hp Hd) as (e & E1 & E2). cbn [single cn_paths nth_error] in Hp. apply some_inj in Hp. subst p. cbn [pa_tuples].
    unfold path_rcid in E1. cbn [single cn_paths nth_error obind first_tuple pa_tuples] in E1. destruct ts as [| t ts]; [contradiction |]. cbn [nth_error obind] in E1 |- *.
    destruct (tu_cid t) as [a |] eqn:Et; [| discriminate E1]. cbn [obind] in E1. fold (single limit mx ml mr nx b l (t :: ts) dm ab r) in E1. rewrite rcid_at_single in E1.
    apply find_some in E1. destruct E1 as (F1 & F2). apply N.eqb_eq in F2. exists t, a, e. split; [reflexivity |]. split; [exact Et |]. split; [| split; [exact F2 | exact E2]].
    exists (mk_stash 0 b l). split; [left; reflexivity | split; [reflexivity | exact F1]].
Qed.
