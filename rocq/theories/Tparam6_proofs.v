(** Proofs about the acceptance of a block of transport parameters. *)
From Verif Require Import Base Tac Varint_model Varint_spec Varint_proofs Header_model Header_spec Header_proofs
  Lb_spec Stream_model Rtt_proofs Tparam_model Tparam_spec Tparam_proofs Tparam2_proofs Tparam3_proofs Tparam4_proofs Tparam5_proofs.

Lemma params_fun : forall bytes ps ps', bytes_ok bytes -> params bytes ps -> params bytes ps' -> ps = ps'.
Proof.
  intros bytes ps ps' Hb P. revert ps'. induction P as [|t v bt bl rest ps Ht Hl P IH]; intros ps' P'.
  - inversion P' as [E|t' v' bt' bl' rest' ps2 Ht' Hl' P2 E]; subst; [reflexivity|].
    exfalso. apply is_varint_pos in Ht'. destruct bt'; [cbn in Ht'; lia|discriminate].
  - assert (B1 : bytes_ok (bl ++ v ++ rest)) by exact (forall_app_r _ _ _ _ Hb).
    assert (B2 : bytes_ok (v ++ rest)) by exact (forall_app_r _ _ _ _ B1).
    destruct (params_head _ _ _ _ _ _ Ht Hl (forall_app_l _ _ _ _ B2) (forall_app_r _ _ _ _ B2) P') as (ps2 & -> & P2).
    f_equal. apply IH; [exact (forall_app_r _ _ _ _ B2)|exact P2].
Qed.

Lemma version_list_unique : forall a b cur v x y, version_list a cur v x -> version_list b cur v y -> x = y.
Proof.
  intros a b cur v x y Hx Hy. destruct (vdec_client _ _ _ _ Hx) as (o & E1 & O1). destruct (vdec_client _ _ _ _ Hy) as (o' & E2 & O2).
  rewrite E1 in E2. injection E2 as <-. unfold outcome_is in *. destruct o as [[vn i]|]; [destruct O1 as [<- _], O2 as [<- _]; reflexivity|congruence].
Qed.

Lemma nodup_val : forall (ps : list (N * list N)) all t v w, distinct all ps -> all = true \/ t < 64 -> In (t, v) ps -> In (t, w) ps -> v = w.
Proof.
  unfold distinct. intro ps. induction ps as [|[t0 v0] ps IH]; intros all t v w D H64 Hv Hw; [contradiction|].
  assert (K : In (t, v) ps -> In t (filter (fun t => all || (t <? 64)) (map fst ps))).
  { intro H. apply filter_In. split; [apply (in_map fst) in H; exact H|]. destruct H64 as [-> |H64]; [reflexivity|].
    rewrite (proj2 (N.ltb_lt t 64) H64). apply Bool.orb_true_r. }
  assert (K' : In (t, w) ps -> In t (filter (fun t => all || (t <? 64)) (map fst ps))).
  { intro H. apply filter_In. split; [apply (in_map fst) in H; exact H|]. destruct H64 as [-> |H64]; [reflexivity|].
    rewrite (proj2 (N.ltb_lt t 64) H64). apply Bool.orb_true_r. }
  cbn [map fst filter] in D.
  assert (T : all || (t <? 64) = true). { destruct H64 as [-> |H64]; [reflexivity|]. rewrite (proj2 (N.ltb_lt t 64) H64). apply Bool.orb_true_r. }
  destruct Hv as [Hv|Hv], Hw as [Hw|Hw].
  - congruence.
  - injection Hv as -> ->. rewrite T in D. inversion D; subst. exfalso. auto.
  - injection Hw as -> ->. rewrite T in D. inversion D; subst. exfalso. auto.
  - apply (IH all t v w); try assumption. destruct (all || (t0 <? 64)); [inversion D; assumption|exact D].
Qed.

Lemma after_unique : forall a b g cur ps x y, distinct false ps -> version_after a g cur ps x -> version_after b g cur ps y -> x = y.
Proof.
  intros a b g cur ps x y D [(v & Hv & C & Hx)|[Hn ->]] [(w & Hw & C' & Hy)|[Hm ->]].
  - assert (v = w) as -> by exact (nodup_val ps false 17 v w D ltac:(right; lia) Hv Hw). exact (version_list_unique _ _ _ _ _ _ Hx Hy).
  - pose proof (Hm v Hv). congruence.
  - pose proof (Hn w Hw). congruence.
  - reflexivity.
Qed.

Lemma steps_after : forall g s ps r, steps g (start s) ps r -> index_ok (s_vi s) ->
  version_after false g (version_of (s_vi s)) ps (version_of (s_vi (r_s r))).
Proof.
  intros g s ps r S Hi. destruct (steps_version _ _ _ _ S Hi) as (_ & I2 & I3). cbn [start r_s rx_start s_vi] in *.
  destruct (g_client g) eqn:C.
  - right. split; [intros; exact C|]. rewrite I3; auto.
  - destruct (has_dec ps 17) as [H|H].
    + destruct (in_has _ _ H) as (v & Hv). left. exists v. split; [exact Hv|]. split; [exact C|]. exact (I2 v Hv eq_refl).
    + right. split; [intros v Hv; exfalso; apply H; exact (has_in _ _ _ Hv)|]. rewrite I3; auto.
Qed.

Lemma distinct_okl : forall g cur ps, okl g [] cur ps <->
  distinct false ps /\ Forall (fun p => good_param false (g_client g) cur (g_remote_cid g) (fst p) (snd p)) ps.
Proof.
  intros g cur ps. rewrite okl_iff. unfold distinct. cbn [orb]. split; [tauto|]. intros [H1 H2]. split; [exact H1|]. split; [intros t _ []|exact H2].
Qed.

(** The result of the reception. *)
Definition result (g : tcfg) (s : tst) (neg : tneg) (r : rx) : tst * tneg :=
  rx_negotiate g neg (rx_defaults g r true) (rx_idle (r_s r)) true.

Lemma defaults_error : forall g r ok, s_error (rx_defaults g r ok) = s_error (r_s r).
Proof. intros g r ok. unfold rx_defaults. cbv zeta. destruct (_ && _); destruct (_ && _); reflexivity. Qed.
Lemma defaults_vi : forall g r ok, s_vi (rx_defaults g r ok) = s_vi (r_s r).
Proof. intros g r ok. unfold rx_defaults. cbv zeta. destruct (_ && _); destruct (_ && _); reflexivity. Qed.
Lemma negotiate_error : forall g neg s idle ok, s_error (fst (rx_negotiate g neg s idle ok)) = s_error s.
Proof. reflexivity. Qed.

Theorem receive_cases : forall fuel g s neg bytes, bytes_ok bytes -> (0 < fuel)%nat -> index_ok (s_vi s) -> s_error s = None ->
  (exists ps r, block false g (version_of (s_vi s)) bytes ps (version_of (s_vi (r_s r))) /\ steps g (start s) ps r /\
     receive fuel g s neg bytes = TDone (fst (result g s neg r)) (snd (result g s neg r)) true /\ s_error (fst (result g s neg r)) = None) \/
  ((forall ps ver, ~ block false g (version_of (s_vi s)) bytes ps ver) /\
   match receive fuel g s neg bytes with
   | TDone s' n ok => s_error s' <> None \/ (ok = false /\ some_bad_version g bytes)
   | THang => some_bad_version g bytes
   end).
Proof.
  intros fuel g s neg bytes Hb Hf Hi He. unfold receive. fold (start s).
  destruct (loop_cases (S (length bytes)) fuel g (start s) bytes (version_of (s_vi s)) Hb ltac:(lia) Hf Hi He ltac:(left; reflexivity))
    as [(ps & r & P & O & S & -> & Er)|[Hno R]].
  - change (r_present (start s)) with (@nil N) in O. apply distinct_okl in O. destruct O as [D F].
    pose proof (steps_after _ _ _ _ S Hi) as VA. rewrite defaults_vi.
    destruct (rx_required g (g_client g) r (s_vi (r_s r))) eqn:Q; cbn [andb negb].
    + left. exists ps, r. apply (required_iff g s ps r _ S) in Q. split; [unfold block; auto|]. split; [exact S|].
      unfold result. destruct (rx_negotiate g neg (rx_defaults g r true) (rx_idle (r_s r)) true) as [s3 n] eqn:N3.
      split; [reflexivity|]. cbn [fst].
      pose proof (negotiate_error g neg (rx_defaults g r true) (rx_idle (r_s r)) true) as X. rewrite N3, defaults_error, Er in X. exact X.
    + right. split.
      * intros ps' ver (P' & D' & _ & VA' & Q'). assert (ps' = ps) as -> by exact (params_fun _ _ _ Hb P' P).
        assert (ver = version_of (s_vi (r_s r))) as -> by exact (after_unique _ _ _ _ _ _ _ D VA' VA).
        apply (required_iff g s ps r _ S) in Q'. congruence.
      * match goal with |- context [rx_negotiate ?a ?b ?c ?d ?e] => pose proof (negotiate_error a b c d e) as X; destruct (rx_negotiate a b c d e) as [s3 n] end.
        left. cbn [fst] in X. rewrite X. apply conn_error_some.
  - right. split.
    + intros ps ver (P & D & F & _). apply (Hno ps P). change (r_present (start s)) with (@nil N). apply distinct_okl. auto.
    + destruct (rx_loop (S (length bytes)) fuel g (g_client g) (start s) bytes) as [r ok|]; [|exact R].
      match goal with |- context [rx_negotiate ?a ?b ?c ?d ?e] => pose proof (negotiate_error a b c d e) as X; destruct (rx_negotiate a b c d e) as [s3 n] end.
      cbn [fst] in X. rewrite X.
      assert (K : s_error (r_s r) <> None -> s_error (if ok && negb (rx_required g (g_client g) r (s_vi (rx_defaults g r ok))) then conn_error (rx_defaults g r ok) 8 else rx_defaults g r ok) <> None).
      { intro H. destruct (ok && _); [apply conn_error_some|rewrite defaults_error; exact H]. }
      cbn [refusal] in R. destruct ok.
      * left. apply K. exact R.
      * cbn [andb] in *. destruct R as [R|R]; [left; apply K; exact R|right; auto].
Qed.

(** Strict blocks. *)
Lemma good_weaken : forall fs cur h t v, good_param true fs cur h t v -> good_param false fs cur h t v.
Proof.
  intros fs cur h t v G. destruct G as [t v n A B C|v n A B|v n A B|v A B|t A|v a A|A|t v A B|A|v n A B|v n A B|v n A B|v n A B|v n A B|v vs A B|v x A B C|t v A].
  - eapply gp_plain; [exact A|exact B|discriminate].
  - eapply gp_packet_size; eassumption.
  - eapply gp_ack_delay; [exact A|]. change (2 ^ 14 * 1000) with 16384000. change (2 ^ 14) with 16384 in B.
    change (2 ^ 32) with 4294967296. rewrite (N.mod_small n) by lia. rewrite N.mod_small by lia. lia.
  - eapply gp_reset_token; eassumption.
  - eapply gp_flag; eassumption.
  - eapply gp_preferred; eassumption.
  - discriminate.
  - eapply gp_cid; eassumption.
  - eapply gp_hcid; eassumption.
  - eapply gp_loss_bit; eassumption.
  - eapply gp_min_ack_delay; eassumption.
  - eapply gp_time_stamp; eassumption.
  - eapply gp_bdp; eassumption.
  - eapply gp_address; eassumption.
  - eapply gp_version_server; eassumption.
  - eapply gp_version_client; [exact A| |exact C]. destruct B as (vs & w & tail & B1 & B2 & B3 & B4). exists vs, w, tail.
    split; [exact B1|]. split; [exact B2|]. split; [exact B3|]. destruct B4 as [B4|[B4 _]]; [left; exact B4|discriminate].
  - eapply gp_unknown; eassumption.
Qed.

Lemma nodup_filter : forall (f : N -> bool) l, NoDup l -> NoDup (filter f l).
Proof.
  intros f l H. induction H as [|x l Hx H IH]; cbn; [constructor|]. destruct (f x); [constructor; [|exact IH]|exact IH].
  intro K. apply filter_In in K. tauto.
Qed.

Lemma distinct_all : forall ps, distinct true ps <-> NoDup (map fst ps).
Proof.
  intros ps. unfold distinct. cbn [orb]. replace (filter (fun _ : N => true) (map fst ps)) with (map fst ps); [reflexivity|].
  induction (map fst ps) as [|x l IH]; [reflexivity|]. cbn [filter]. rewrite <- IH. reflexivity.
Qed.

Lemma block_weaken : forall g cur bytes ps ver, block true g cur bytes ps ver -> block false g cur bytes ps ver.
Proof.
  intros g cur bytes ps ver (P & D & F & V & Q). split; [exact P|]. split; [apply distinct_all in D; apply nodup_filter; exact D|].
  split; [eapply Forall_impl; [|exact F]; intros [t v] G; exact (good_weaken _ _ _ _ _ G)|]. split; [|exact Q].
  destruct V as [(v & A & B & vs & w & tail & B1 & B2 & B3 & B4)|V]; [left|right; exact V].
  exists v. split; [exact A|]. split; [exact B|]. exists vs, w, tail. repeat split; try assumption; [apply B2|apply B2|].
  destruct B4 as [B4|[B4 _]]; [left; exact B4|discriminate].
Qed.

(** The values. *)
Lemma means_unique : forall f v x y, means f v x -> means f v y -> x = y.
Proof.
  intros f v x y Hx Hy. destruct f; cbn [means] in *;
    try (destruct Hx as (n & Hx & ->), Hy as (m & Hy & ->); rewrite (varint_unique _ _ _ Hx Hy); reflexivity);
    try exact (varint_unique _ _ _ Hx Hy); congruence.
Qed.

Lemma cut_narrow : forall f v x, means f v x -> narrow f x -> cut f x = x.
Proof.
  intros f v x Hm Hn. destruct f; cbn [cut narrow] in *; try reflexivity; unfold u32, u8; change (2 ^ 32) with 4294967296 in *; change (2 ^ 8) with 256 in *; try (apply N.mod_small; exact Hn).
  destruct Hm as (n & _ & ->). rewrite N.div_mul by discriminate. rewrite (N.mod_small n) by lia. apply N.mod_small. exact Hn.
Qed.

Lemma result_remote : forall g s neg r f, tp_n (s_remote (fst (result g s neg r))) f =
  match f with
  | FAckDelay => if seen r 11 then tp_n (s_remote (r_s r)) f else 25000
  | FCidLimit => if seen r 14 then tp_n (s_remote (r_s r)) f else if blen (g_local_cid g) =? 0 then 0 else 2
  | _ => tp_n (s_remote (r_s r)) f
  end.
Proof.
  intros g s neg r f. change (s_remote (fst (result g s neg r))) with (s_remote (rx_defaults g r true)).
  unfold rx_defaults, ty_ack_delay, ty_cid_limit. cbv zeta. cbn [andb]. destruct (seen r 11), (seen r 14); cbn [negb]; destruct f; reflexivity.
Qed.

Lemma result_field : forall g s neg ps r f x, steps g (start s) ps r -> distinct true ps -> says (blen (g_local_cid g)) ps f x -> narrow f x ->
  tp_n (s_remote (fst (result g s neg r))) f = x.
Proof.
  intros g s neg ps r f x S D Hs Hn. destruct (steps_field _ _ _ _ S f) as [S1 S2].
  rewrite result_remote. destruct Hs as [(v & Hv & Hm)|[Hno ->]].
  - destruct (S1 (has_in _ _ _ Hv)) as (w & y & Hw & Hmy & Hy).
    assert (w = v) as -> by exact (nodup_val ps true _ w v D (or_introl eq_refl) Hw Hv).
    rewrite <- (means_unique _ _ _ _ Hm Hmy) in Hy. rewrite (cut_narrow f v x Hm Hn) in Hy.
    destruct f; try exact Hy; [rewrite (proj2 (seen_has g s ps r 11 S ltac:(lia)) (has_in _ _ _ Hv))|rewrite (proj2 (seen_has g s ps r 14 S ltac:(lia)) (has_in _ _ _ Hv))]; exact Hy.
  - assert (S3 : tp_n (s_remote (r_s r)) f = match f with FExponent => 3 | _ => 0 end) by exact (S2 Hno).
    cbn [absent]. destruct f; try exact S3; [rewrite (proj2 (seen_not g s ps r 11 S ltac:(lia)) Hno)|rewrite (proj2 (seen_not g s ps r 14 S ltac:(lia)) Hno)]; reflexivity.
Qed.

Lemma result_other : forall g s neg r, let s' := fst (result g s neg r) in
  tp_pref (s_remote s') = tp_pref (s_remote (r_s r)) /\ s_reset s' = s_reset (r_s r) /\ s_vi s' = s_vi (r_s r) /\
  s_maxdata s' = s_maxdata (r_s r) /\ s_bidir s' = s_bidir (r_s r) /\ s_uni s' = s_uni (r_s r) /\
  n_idle (snd (result g s neg r)) = rx_idle (r_s r).
Proof.
  intros g s neg r s'. subst s'.
  change (s_remote (fst (result g s neg r))) with (s_remote (rx_defaults g r true)).
  change (s_reset (fst (result g s neg r))) with (s_reset (rx_defaults g r true)).
  change (s_vi (fst (result g s neg r))) with (s_vi (rx_defaults g r true)).
  change (s_maxdata (fst (result g s neg r))) with (s_maxdata (rx_defaults g r true)).
  change (s_bidir (fst (result g s neg r))) with (s_bidir (rx_defaults g r true)).
  change (s_uni (fst (result g s neg r))) with (s_uni (rx_defaults g r true)).
  change (n_idle (snd (result g s neg r))) with (rx_idle (r_s r)).
  unfold rx_defaults. cbv zeta. destruct (_ && _); destruct (_ && _); repeat split; reflexivity.
Qed.

Lemma steps_local : forall g r ps r', steps g r ps r' -> s_local (r_s r') = s_local (r_s r).
Proof.
  intros g r ps r' S. induction S as [r|r t v r1 ps r' Hfr G E S IH]; [reflexivity|].
  rewrite IH, (e_local _ _ _ _ _ E), mark_s. reflexivity.
Qed.

Lemma largest_id_eq : forall client uni n, 1 <= n <= 2 ^ 60 -> id_of_rank n client uni = largest_id client uni n.
Proof.
  intros client uni n H. unfold id_of_rank, largest_id, two64. change (2 ^ 60) with 1152921504606846976 in H. change (2 ^ 64) with 18446744073709551616.
  replace (n + (18446744073709551616 - 1)) with ((n - 1) + 1 * 18446744073709551616) by lia.
  rewrite N.mod_add by lia. rewrite (N.mod_small (n - 1)) by lia. rewrite N.mod_small by lia. lia.
Qed.

Lemma rx_idle_eq : forall s, tp_n (s_local s) FIdle < 2 ^ 54 -> tp_n (s_remote s) FIdle < 2 ^ 54 ->
  rx_idle s = idle_of (tp_n (s_local s) FIdle) (tp_n (s_remote s) FIdle).
Proof.
  intros s Hl Hm. unfold rx_idle, idle_of. cbv zeta. set (l := tp_n (s_local s) FIdle) in *. set (m := tp_n (s_remote s) FIdle) in *.
  change (2 ^ 54) with 18014398509481984 in *. unfold max64, u64, two64. change (2 ^ 64) with 18446744073709551616.
  destruct (N.eqb_spec l 0) as [El|El]; cbn [orb andb].
  - rewrite (N.mod_small (m * 1000)) by lia. destruct (N.eqb_spec m 0) as [Em|Em].
    + rewrite Em. reflexivity.
    + destruct (N.eqb_spec (m * 1000) 0); lia.
  - destruct (N.ltb_spec 0 m) as [Hm0|Hm0]; cbn [andb].
    + destruct (N.ltb_spec m l) as [h|h].
      * rewrite (N.mod_small (m * 1000)) by lia. destruct (N.eqb_spec (m * 1000) 0); [lia|]. destruct (N.eqb_spec m 0); [lia|]. lia.
      * rewrite (N.mod_small (l * 1000)) by lia. destruct (N.eqb_spec (l * 1000) 0); [lia|]. destruct (N.eqb_spec m 0); [lia|]. lia.
    + rewrite (N.mod_small (l * 1000)) by lia. destruct (N.eqb_spec (l * 1000) 0); [lia|]. destruct (N.eqb_spec m 0); [|lia]. lia.
Qed.

Lemma strict_pref : forall fs cur h v, good_param true fs cur h 13 v -> v <> [].
Proof.
  intros fs cur h v G. inversion G; subst; try (exfalso; match goal with H : In _ plain_types |- _ => known_in H end);
    try (exfalso; intuition discriminate); try unknown.
  match goal with H : is_pref _ _ |- _ => destruct H as (E & L & _) end. intros ->. apply (f_equal blen) in E. rewrite !blen_app, blen_cons in E. change (blen (@nil N)) with 0 in *. lia.
Qed.

Lemma strict_streams : forall fs cur h t v n, t = 8 \/ t = 9 -> good_param true fs cur h t v -> is_varint n v -> n <= 2 ^ 60.
Proof.
  intros fs cur h t v n Ht G Hn. destruct Ht as [-> | ->]; inversion G; subst;
    try (exfalso; intuition discriminate); try unknown;
    match goal with K : is_varint ?m v, R : true = true -> rfc_range _ _ |- _ => rewrite (varint_unique _ _ _ Hn K); apply (R eq_refl); tauto end.
Qed.

Lemma block_taken : forall g s neg bytes ps r, block true g (version_of (s_vi s)) bytes ps (version_of (s_vi (r_s r))) ->
  steps g (start s) ps r -> taken g s ps (version_of (s_vi (r_s r))) (fst (result g s neg r)) (snd (result g s neg r)).
Proof.
  intros g s neg bytes ps r (P & D & F & V & Q) S. destruct (result_other g s neg r) as (R1 & R2 & R3 & R4 & R5 & R6 & R7). cbv zeta in *.
  rewrite Forall_forall in F.
  assert (ONE : forall own f x, says own ps f x -> (has ps (field_type f) /\ exists v, In (field_type f, v) ps /\ means f v x) \/ (~ has ps (field_type f) /\ x = absent own f)).
  { intros own f x [(v & Hv & Hm)|H]; [left; split; [exact (has_in _ _ _ Hv)|eauto]|right; exact H]. }
  constructor.
  - intros f x Hs Hn. exact (result_field _ _ _ _ _ _ _ S D Hs Hn).
  - intros a v Hv Ha. rewrite R1.
    destruct (steps_once (option pref) (fun r => tp_pref (s_remote (r_s r))) (fun v o => v = [] \/ exists a, is_pref a v /\ o = Some a) g 13 ltac:(lia))
      with (r := start s) (ps := ps) (r' := r) as [H1 _]; [|exact S|].
    + intros r0 t w r1 E. pose proof (e_pref _ _ _ _ _ E) as X. rewrite mark_s in X. exact X.
    + destruct (H1 v Hv) as [->|(a' & Ha' & E)]; [exfalso; exact (strict_pref _ _ _ _ (F _ Hv) eq_refl)|].
      rewrite E. f_equal. apply pref_decode_ok in Ha. apply pref_decode_ok in Ha'. rewrite Ha in Ha'. apply pair_equal_spec in Ha'. destruct Ha' as [_ Ha'].
      apply some_inj in Ha'. auto.
  - intro Hno. rewrite R1.
    destruct (steps_once (option pref) (fun r => tp_pref (s_remote (r_s r))) (fun v o => v = [] \/ exists a, is_pref a v /\ o = Some a) g 13 ltac:(lia))
      with (r := start s) (ps := ps) (r' := r) as [_ H1]; [|exact S|].
    + intros r0 t w r1 E. pose proof (e_pref _ _ _ _ _ E) as X. rewrite mark_s in X. exact X.
    + exact (H1 Hno).
  - intros v Hv. rewrite R2.
    destruct (steps_once (list N) (fun r => s_reset (r_s r)) (fun v o => o = v) g 2 ltac:(lia))
      with (r := start s) (ps := ps) (r' := r) as [H1 _]; [|exact S|exact (H1 v Hv)].
    intros r0 t w r1 E. rewrite (e_reset _ _ _ _ _ E), mark_s. destruct (t =? 2); reflexivity.
  - intros Hno. rewrite R2.
    destruct (steps_once (list N) (fun r => s_reset (r_s r)) (fun v o => o = v) g 2 ltac:(lia))
      with (r := start s) (ps := ps) (r' := r) as [_ H1]; [|exact S|exact (H1 Hno)].
    intros r0 t w r1 E. rewrite (e_reset _ _ _ _ _ E), mark_s. destruct (t =? 2); reflexivity.
  - rewrite R3. reflexivity.
  - intros own x Hs. rewrite R4.
    destruct (steps_once N (fun r => s_maxdata (r_s r)) (fun v o => is_varint o v) g 4 ltac:(lia))
      with (r := start s) (ps := ps) (r' := r) as [H1 H2]; [|exact S|].
    + intros r0 t w r1 E. pose proof (e_maxdata _ _ _ _ _ E) as X. rewrite mark_s in X. exact X.
    + destruct (ONE _ _ _ Hs) as [(_ & v & Hv & Hm)|[Hno ->]]; [exact (varint_unique _ _ _ (H1 v Hv) Hm)|exact (H2 Hno)].
  - intros own x Hs Hx1 Hx2. rewrite R5.
    destruct (steps_once N (fun r => s_bidir (r_s r)) (fun v o => exists n, is_varint n v /\ o = id_of_rank (if n =? 4294967295 then 0 else n) (g_client g) false) g 8 ltac:(lia))
      with (r := start s) (ps := ps) (r' := r) as [H1 H2]; [|exact S|].
    + intros r0 t w r1 E. pose proof (e_bidir _ _ _ _ _ E) as X. rewrite mark_s in X. exact X.
    + destruct (ONE _ _ _ Hs) as [(_ & v & Hv & Hm)|[Hno ->]]; [|cbn in Hx1; lia].
      destruct (H1 v Hv) as (n & Hn & E). cbn [means] in Hm. rewrite (varint_unique _ _ _ Hn Hm) in E.
      change (2 ^ 32 - 1) with 4294967295 in Hx2. rewrite (proj2 (N.eqb_neq _ _) Hx2) in E. rewrite E. apply largest_id_eq. split; [exact Hx1|].
      exact (strict_streams _ _ _ 8 v x (or_introl eq_refl) (F _ Hv) Hm).
  - intros own x Hs Hx1 Hx2. rewrite R6.
    destruct (steps_once N (fun r => s_uni (r_s r)) (fun v o => exists n, is_varint n v /\ o = id_of_rank (if n =? 4294967295 then 0 else n) (g_client g) true) g 9 ltac:(lia))
      with (r := start s) (ps := ps) (r' := r) as [H1 H2]; [|exact S|].
    + intros r0 t w r1 E. pose proof (e_uni _ _ _ _ _ E) as X. rewrite mark_s in X. exact X.
    + destruct (ONE _ _ _ Hs) as [(_ & v & Hv & Hm)|[Hno ->]]; [|cbn in Hx1; lia].
      destruct (H1 v Hv) as (n & Hn & E). cbn [means] in Hm. rewrite (varint_unique _ _ _ Hn Hm) in E.
      change (2 ^ 32 - 1) with 4294967295 in Hx2. rewrite (proj2 (N.eqb_neq _ _) Hx2) in E. rewrite E. apply largest_id_eq. split; [exact Hx1|].
      exact (strict_streams _ _ _ 9 v x (or_intror eq_refl) (F _ Hv) Hm).
  - intros own x Hs Hx Hl. rewrite R7.
    assert (Hr : tp_n (s_remote (r_s r)) FIdle = x).
    { pose proof (result_remote g s neg r FIdle) as X. cbv iota in X. rewrite <- X.
      apply (result_field g s neg ps r FIdle x S D); [|exact I]. destruct Hs as [Hs|[Hs ->]]; [left; exact Hs|right; auto]. }
    pose proof (steps_local _ _ _ _ S) as EL. cbn [start r_s rx_start s_local] in EL.
    rewrite <- EL. rewrite rx_idle_eq; rewrite ?EL, ?Hr; try assumption. reflexivity.
Qed.

(** Every strict block is accepted. *)
Theorem strict_accepted : forall fuel g s neg bytes ps ver, bytes_ok bytes -> (0 < fuel)%nat -> index_ok (s_vi s) -> s_error s = None ->
  block true g (version_of (s_vi s)) bytes ps ver ->
  exists s' n, receive fuel g s neg bytes = TDone s' n true /\ s_error s' = None /\ taken g s ps ver s' n.
Proof.
  intros fuel g s neg bytes ps ver Hb Hf Hi He B.
  destruct (receive_cases fuel g s neg bytes Hb Hf Hi He) as [(ps' & r & B' & S & R & E)|[Hno _]].
  - assert (ps' = ps) as -> by exact (params_fun _ _ _ Hb (proj1 B') (proj1 B)).
    assert (ver = version_of (s_vi (r_s r))) as ->.
    { destruct B as (_ & _ & _ & V & _), B' as (_ & D & _ & V' & _). exact (after_unique _ _ _ _ _ _ _ D V V'). }
    eexists. eexists. split; [exact R|]. split; [exact E|]. exact (block_taken g s neg bytes ps r B S).
  - exfalso. exact (Hno ps ver (block_weaken _ _ _ _ _ B)).
Qed.

(** A reception without error is of a valid block; otherwise an error is recorded, or there
    is no upgrade to the version that the client wants. *)
Theorem accepted_iff : forall fuel g s neg bytes, bytes_ok bytes -> (0 < fuel)%nat -> index_ok (s_vi s) -> s_error s = None ->
  ((exists s' n, receive fuel g s neg bytes = TDone s' n true /\ s_error s' = None) <->
   exists ps ver, block false g (version_of (s_vi s)) bytes ps ver).
Proof.
  intros fuel g s neg bytes Hb Hf Hi He.
  destruct (receive_cases fuel g s neg bytes Hb Hf Hi He) as [(ps & r & B & S & R & E)|[Hno R]].
  - split; [intros _; eauto|intros _; eauto].
  - split.
    + intros (s' & n & R' & E'). rewrite R' in R. destruct R as [R|[R _]]; [contradiction|discriminate].
    + intros (ps & ver & B). exfalso. exact (Hno ps ver B).
Qed.

Theorem refused_error : forall fuel g s neg bytes, bytes_ok bytes -> (0 < fuel)%nat -> index_ok (s_vi s) -> s_error s = None ->
  ~ (exists ps ver, block false g (version_of (s_vi s)) bytes ps ver) -> ~ some_bad_version g bytes ->
  exists s' n ok, receive fuel g s neg bytes = TDone s' n ok /\ s_error s' <> None.
Proof.
  intros fuel g s neg bytes Hb Hf Hi He Hno Hv.
  destruct (receive_cases fuel g s neg bytes Hb Hf Hi He) as [(ps & r & B & S & R & E)|[_ R]]; [exfalso; eauto|].
  destruct (receive fuel g s neg bytes) as [s' n ok|]; [|contradiction]. exists s', n, ok. split; [reflexivity|]. tauto.
Qed.
