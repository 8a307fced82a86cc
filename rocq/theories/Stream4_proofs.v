(** Histories: flow control, limits, opening of streams, final sizes. *)
From Verif Require Import Base Reasm_model Reasm_spec Reasm_proofs Reasm2_proofs Stream_model Stream_spec Stream_proofs Stream2_proofs Stream3_proofs.

(** ** Offsets and limits of one stream *)

Definition lends (l : list label) : list N :=
  flat_map (fun x => match x with LFrame f => [f_end f] | LReset v => [v] | _ => [] end) l.
Definition lmaxl (l : list label) : list N := flat_map (fun x => match x with LMaxL v => [v] | _ => [] end) l.
Definition lmaxr (l : list label) : list N := flat_map (fun x => match x with LMaxR v => [v] | _ => [] end) l.

Lemma highest_cons : forall x l, highest (x :: l) = N.max x (highest l).
Proof. reflexivity. Qed.

Lemma total_cons : forall x l, total_of (x :: l) = x + total_of l.
Proof. reflexivity. Qed.

Lemma highest_app : forall a b, highest (a ++ b) = N.max (highest a) (highest b).
Proof. induction a as [|x a IH]; intros b; cbn [app]; [cbn [highest fold_right]; lia|]. rewrite !highest_cons, IH. lia. Qed.

Lemma lends_app : forall a b, lends (a ++ b) = lends a ++ lends b.
Proof. intros. apply flat_map_app. Qed.
Lemma lmaxl_app : forall a b, lmaxl (a ++ b) = lmaxl a ++ lmaxl b.
Proof. intros. apply flat_map_app. Qed.
Lemma lmaxr_app : forall a b, lmaxr (a ++ b) = lmaxr a ++ lmaxr b.
Proof. intros. apply flat_map_app. Qed.

Definition hinv (u : vpar) (L : list label) (v : view) : Prop :=
  match v with
  | VNone => lends L = [] /\ (vp_err u = false -> lmaxr L = [])
  | VLive r g => rx_fin_offset r = highest (lends L) /\ rx_fin_offset r <= rx_maxdata r /\ vp_l u <= rx_maxdata r <= N.max (vp_l u) (highest (lmaxl L)) /\
      (vp_err u = false -> snd g = N.max (vp_r u) (highest (lmaxr L)))
  | VRet o => exists a b, L = a ++ b /\ o = highest (lends a)
  end.

Lemma vt_high : forall u v l p v', vt u v l p v' -> forall L, hinv u L v -> hinv u (L ++ l) v'.
Proof.
  intros u v l p v' H. induction H; intros L Hv.
  - rewrite app_nil_r. exact Hv.
  - rewrite app_assoc. apply IHvt2, IHvt1, Hv.
  - rewrite app_nil_r. destruct Hv as [A B]. cbn [hinv rx0 rx_fin_offset rx_maxdata snd]. rewrite A. split; [reflexivity|]. split; [lia|]. split; [lia|].
    intros E. rewrite (B E). cbn [highest fold_right]. lia.
  - destruct Hv as (A & B & C & D). cbn [hinv]. rewrite lends_app, lmaxl_app, lmaxr_app. cbn [lends lmaxl lmaxr flat_map app]. rewrite !app_nil_r, highest_app. cbn [highest fold_right].
    destruct (N.ltb_spec (rx_maxdata r) v); cbn [r_set_maxdata rx_fin_offset rx_maxdata]; (split; [exact A|]); (split; [lia|]); (split; [lia|exact D]).
  - destruct Hv as [A B]. cbn [hinv]. rewrite lends_app, lmaxr_app, A. cbn [lends lmaxr flat_map app]. split; [reflexivity|]. intros E. rewrite (B E). reflexivity.
  - destruct Hv as (A & B & C & D). cbn [hinv snd]. rewrite lends_app, lmaxl_app, lmaxr_app. cbn [lends lmaxl lmaxr flat_map app]. rewrite !app_nil_r, highest_app. cbn [highest fold_right].
    split; [exact A|]. split; [lia|]. split; [lia|]. intros E. specialize (D E). unfold highest in *. lia.
  - destruct Hv as [A B]. cbn [hinv]. rewrite lends_app, A. cbn [lends flat_map app]. split; [reflexivity|]. congruence.
  - destruct Hv as (A & B & C & D). cbn [hinv snd]. rewrite lends_app, lmaxl_app, lmaxr_app. cbn [lends lmaxl lmaxr flat_map app]. rewrite !app_nil_r. auto.
  - assert (E1 : lends (L ++ [LGate]) = lends L) by (rewrite lends_app; apply app_nil_r).
    assert (E2 : lmaxr (L ++ [LGate]) = lmaxr L) by (rewrite lmaxr_app; apply app_nil_r).
    assert (E3 : lmaxl (L ++ [LGate]) = lmaxl L) by (rewrite lmaxl_app; apply app_nil_r).
    destruct v as [|r g|o]; cbn [hinv] in *; rewrite ?E1, ?E2, ?E3; try exact Hv. destruct Hv as (a & b & -> & ->). exists a, (b ++ [LGate]). rewrite app_assoc. auto.
  - rewrite app_nil_r. destruct Hv as (A & _). exists L, []. rewrite app_nil_r. auto.
  - destruct Hv as (a & b & -> & ->). exists a, (b ++ [l]). rewrite app_assoc. auto.
  - destruct Hv as (A & B & C & D). pose proof (rx_input_mono _ _ _ _ _ _ H2) as ((S1 & S2 & S3 & S4 & S5) & _).
    cbn [hinv]. rewrite lends_app, lmaxl_app, lmaxr_app. cbn [lends lmaxl lmaxr flat_map app]. rewrite !app_nil_r, highest_app. cbn [highest fold_right].
    rewrite S4, S5. unfold rx_note. cbn [rx_fin_offset rx_maxdata]. unfold highest in *. split; [lia|]. split; [lia|]. split; [lia|exact D].
  - destruct Hv as (A & B & C & D). cbn [hinv]. rewrite lends_app, lmaxl_app, lmaxr_app. cbn [lends lmaxl lmaxr flat_map app]. rewrite !app_nil_r, highest_app. cbn [highest fold_right].
    destruct (rx_reset_received r) eqn:E.
    + rewrite (H (orb_true_r _)). unfold highest in *. split; [lia|]. split; [lia|]. split; [lia|exact D].
    + unfold rx_reset. cbn [rx_fin_offset rx_maxdata]. unfold highest in *. split; [lia|]. split; [lia|]. split; [lia|exact D].
Qed.

Lemma lends_labels : forall sid ops, lends (flat_map (labels sid) ops) = ends_of sid ops.
Proof.
  intros sid. induction ops as [|o ops IH]; [reflexivity|]. cbn [flat_map]. rewrite lends_app, IH. unfold ends_of. cbn [flat_map]. f_equal.
  destruct o; cbn [labels]; try reflexivity; destruct (_ =? _); reflexivity.
Qed.

Lemma lmaxl_labels : forall sid ops, lmaxl (flat_map (labels sid) ops) = stream_credit sid ops.
Proof.
  intros sid. induction ops as [|o ops IH]; [reflexivity|]. cbn [flat_map]. rewrite lmaxl_app, IH. unfold stream_credit. cbn [flat_map]. f_equal.
  destruct o; cbn [labels]; try reflexivity; destruct (_ =? _); reflexivity.
Qed.

Lemma lmaxr_labels : forall sid ops, lmaxr (flat_map (labels sid) ops) = peer_stream_credit sid ops.
Proof.
  intros sid. induction ops as [|o ops IH]; [reflexivity|]. cbn [flat_map]. rewrite lmaxr_app, IH. unfold peer_stream_credit. cbn [flat_map]. f_equal.
  destruct o; cbn [labels]; try reflexivity; destruct (_ =? _); reflexivity.
Qed.

Lemma labels_one : forall sid o, labels sid o = [] \/ exists l, labels sid o = [l].
Proof. intros sid o. destruct o; cbn [labels]; try (left; reflexivity); destruct (_ =? _); eauto. Qed.

Lemma labels_split : forall sid ops a b, flat_map (labels sid) ops = a ++ b ->
  exists x y, ops = x ++ y /\ flat_map (labels sid) x = a.
Proof.
  intros sid. induction ops as [|o ops IH]; intros a b H.
  - cbn in H. symmetry in H. apply app_eq_nil in H. destruct H as [-> ->]. exists [], []. split; reflexivity.
  - cbn [flat_map] in H. destruct (labels_one sid o) as [E|(l & E)]; rewrite E in H; cbn [app] in H.
    + destruct (IH _ _ H) as (x & y & -> & <-). exists (o :: x), y. split; [reflexivity|]. cbn [flat_map]. rewrite E. reflexivity.
    + destruct a as [|l' a]; [exists [], (o :: ops); split; reflexivity|]. cbn [app] in H. injection H as <- H.
      destruct (IH _ _ H) as (x & y & -> & <-). exists (o :: x), y. split; [reflexivity|]. cbn [flat_map]. rewrite E. reflexivity.
Qed.

Lemma run_high : forall client p nb nu md mdr br ur ops c, srun (scnx0 client p nb nu md mdr br ur) ops = Some (c, true) ->
  forall sid e, (k_err c <> None -> e = true) ->
  hinv (vpc (scnx0 client p nb nu md mdr br ur) e sid) (flat_map (labels sid) ops) (view_of c sid).
Proof.
  intros client p nb nu md mdr br ur ops c H sid e He. pose proof (run_view0 _ _ _ _ _ _ _ _ _ _ H sid e He) as V.
  apply (vt_high _ _ _ _ _ V []). split; [reflexivity|]. reflexivity.
Qed.

Lemma by_us_local : forall client sid, by_us client sid = is_local_id sid client.
Proof.
  intros client sid. unfold by_us, is_local_id. assert (E : N.b2n (N.testbit sid 0) = sid mod 2).
  { rewrite (N.testbit_spec' sid 0). change (2 ^ 0) with 1. rewrite N.div_1_r. reflexivity. }
  rewrite <- E. destruct (N.testbit sid 0); reflexivity.
Qed.

Lemma is_uni_bidir : forall sid, is_bidir_id sid = negb (is_uni sid).
Proof.
  intros sid. unfold is_uni, is_bidir_id. assert (E : N.b2n (N.testbit sid 1) = (sid / 2) mod 2) by apply (N.testbit_spec' sid 1).
  rewrite <- E. destruct (N.testbit sid 1); reflexivity.
Qed.

Lemma lim_l_spec : forall client p sid, lim_l client p sid = init_recv client p sid.
Proof. intros. unfold lim_l, init_recv. rewrite by_us_local, is_uni_bidir. destruct (is_uni sid), (is_local_id sid client); reflexivity. Qed.

Lemma lim_r_spec : forall client p sid, lim_r client p sid = init_send client p sid.
Proof. intros. unfold lim_r, init_send. rewrite by_us_local, is_uni_bidir. destruct (is_uni sid), (is_local_id sid client); reflexivity. Qed.

Lemma lookup_live : forall c s, tinv c -> In s (k_streams c) -> lookup c (s_id s) = Some s.
Proof.
  intros c s Ht Hs. pose proof (tinv_nodup c Ht) as Hn. unfold lookup. induction (k_streams c) as [|x l IH]; [destruct Hs|].
  cbn [map find] in *. inversion Hn as [|y z Hy Hz]. subst. destruct Hs as [->|Hs]; [rewrite N.eqb_refl; reflexivity|].
  destruct (N.eqb_spec (s_id x) (s_id s)) as [E|E]; [|apply IH; assumption]. exfalso. apply Hy. rewrite E. apply in_map. exact Hs.
Qed.

(** C12, per stream. *)
Lemma stream_within_limit : forall client p nb nu md mdr br ur ops c s,
  srun (scnx0 client p nb nu md mdr br ur) ops = Some (c, true) -> In s (k_streams c) ->
  rx_fin_offset (s_rx s) = highest (ends_of (s_id s) ops) /\
  highest (ends_of (s_id s) ops) <= rx_maxdata (s_rx s) /\
  rx_maxdata (s_rx s) <= N.max (init_recv client p (s_id s)) (highest (stream_credit (s_id s) ops)).
Proof.
  intros client p nb nu md mdr br ur ops c s H Hs.
  destruct (run_views _ _ _ (winv0 _ _ _ _ _ _ _ _) H) as (W & _).
  pose proof (run_high _ _ _ _ _ _ _ _ _ _ H (s_id s) true ltac:(auto)) as V.
  rewrite (view_live _ _ _ (lookup_live _ _ (proj1 W) Hs)) in V. cbn [hinv] in V. rewrite lends_labels, lmaxl_labels in V.
  cbn [vpc vp_l scnx0 k_client k_par] in V. rewrite lim_l_spec in V. destruct V as (A & B & C & _). split; [exact A|]. split; [lia|]. lia.
Qed.

(** C14, per stream. *)
Lemma stream_credit_max : forall client p nb nu md mdr br ur ops c s,
  srun (scnx0 client p nb nu md mdr br ur) ops = Some (c, true) -> k_err c = None -> In s (k_streams c) ->
  s_md_remote s = N.max (init_send client p (s_id s)) (highest (peer_stream_credit (s_id s) ops)).
Proof.
  intros client p nb nu md mdr br ur ops c s H He Hs.
  destruct (run_views _ _ _ (winv0 _ _ _ _ _ _ _ _) H) as (W & _).
  pose proof (run_high _ _ _ _ _ _ _ _ _ _ H (s_id s) false ltac:(congruence)) as V.
  rewrite (view_live _ _ _ (lookup_live _ _ (proj1 W) Hs)) in V. cbn [hinv] in V. rewrite lmaxr_labels in V.
  cbn [vpc vp_r vp_err scnx0 k_client k_par] in V. rewrite lim_r_spec in V. destruct V as (_ & _ & _ & D). apply D. reflexivity.
Qed.

(** ** The connection *)

Definition offs (c : scnx) : list (N * N) := map (fun s => (s_id s, fo s)) (k_streams c) ++ k_retired c.

Lemma sumoff_offs : forall c, sumoff c = total_of (map snd (offs c)).
Proof.
  intros c. unfold sumoff, offs. rewrite map_app, map_map. cbn [snd]. unfold total_of. rewrite fold_right_app.
  assert (E : fold_right N.add 0 (map snd (k_retired c)) = sumR (k_retired c)).
  { induction (k_retired c) as [|x l IH]; [reflexivity|]. cbn [map fold_right sumR]. rewrite IH. reflexivity. }
  rewrite E. generalize (sumR (k_retired c)). intros m. induction (k_streams c) as [|x l IH]; [cbn; lia|]. rewrite sumS_cons. cbn [map fold_right]. rewrite <- IH. lia.
Qed.

Lemma find_nodup : forall (l : list (N * N)) i o, NoDup (map fst l) -> In (i, o) l -> find (fun p => fst p =? i) l = Some (i, o).
Proof.
  induction l as [|[x y] l IH]; intros i o Hn Hi; [destruct Hi|]. cbn [map fst find] in *. inversion Hn as [|a b Ha Hb]. subst.
  destruct Hi as [E|Hi]; [injection E as -> ->; rewrite N.eqb_refl; reflexivity|].
  destruct (N.eqb_spec x i) as [->|]; [|apply IH; assumption]. exfalso. apply Ha. apply in_map with (f := fst) in Hi. exact Hi.
Qed.

Lemma nodup_right : forall (a b : list N), NoDup (a ++ b) -> NoDup b.
Proof. induction a as [|x a IH]; intros b H; [exact H|]. cbn [app] in H. inversion H; subst. apply IH. assumption. Qed.

Lemma view_retired : forall c i o, tinv c -> In (i, o) (k_retired c) -> view_of c i = VRet o.
Proof.
  intros c i o Ht Hi. pose proof Ht as (T1 & _). unfold ids in T1. unfold view_of.
  assert (Hr : In i (map fst (k_retired c))) by (apply in_map with (f := fst) in Hi; exact Hi).
  assert (lookup c i = None) as ->.
  { apply lookup_none. intros X. apply in_split in X. destruct X as (a & b & E). rewrite E, <- app_assoc in T1. cbn [app] in T1.
    apply NoDup_remove_2 in T1. apply T1. apply in_or_app. right. apply in_or_app. right. exact Hr. }
  rewrite (find_nodup _ i o (nodup_right _ _ T1) Hi). reflexivity.
Qed.

Lemma data_accounting : forall client p nb nu md mdr br ur ops c,
  srun (scnx0 client p nb nu md mdr br ur) ops = Some (c, true) ->
  exists h, NoDup (opened c) /\ k_rcvd c = total_of (map h (opened c)) /\
    (forall s, In s (k_streams c) -> h (s_id s) = highest (ends_of (s_id s) ops)) /\
    (forall sid, In sid (opened c) -> exists a b, ops = a ++ b /\ h sid = highest (ends_of sid a)) /\
    (forall sid, ~ In sid (opened c) -> ends_of sid ops = []).
Proof.
  intros client p nb nu md mdr br ur ops c H.
  destruct (run_views _ _ _ (winv0 _ _ _ _ _ _ _ _) H) as (W & _ & _ & (A & _)). destruct W as [Ht Hk].
  set (h := fun sid => match view_of c sid with VLive r _ => rx_fin_offset r | VRet o => o | VNone => 0 end).
  exists h. split; [apply Ht|]. split.
  { change (k_rcvd (scnx0 client p nb nu md mdr br ur)) with 0 in A. change (sumoff (scnx0 client p nb nu md mdr br ur)) with 0 in A.
    replace (k_rcvd c) with (sumoff c) by lia. rewrite sumoff_offs. f_equal. unfold offs, opened. rewrite !map_app, !map_map. cbn [snd]. f_equal.
    - apply map_ext_in. intros s Hs. unfold h. rewrite (view_live _ _ _ (lookup_live _ _ Ht Hs)). reflexivity.
    - apply map_ext_in. intros [i o] Hi. unfold h. cbn [fst snd]. rewrite (view_retired _ _ _ Ht Hi). reflexivity. }
  assert (V : forall sid, hinv (vpc (scnx0 client p nb nu md mdr br ur) true sid) (flat_map (labels sid) ops) (view_of c sid))
    by (intros sid; apply (run_high _ _ _ _ _ _ _ _ _ _ H sid true); auto).
  split; [|split].
  - intros s Hs. unfold h. specialize (V (s_id s)). rewrite (view_live _ _ _ (lookup_live _ _ Ht Hs)) in *. cbn [hinv] in V. rewrite lends_labels in V. tauto.
  - intros sid Hin. unfold h. specialize (V sid). destruct (view_of c sid) as [|r g|o] eqn:E; cbn [hinv] in V.
    + exists [], ops. split; reflexivity.
    + exists ops, []. rewrite app_nil_r, <- lends_labels. split; [reflexivity|tauto].
    + destruct V as (a & b & V1 & V2). destruct (labels_split _ _ _ _ V1) as (x & y & -> & <-). exists x, y. split; [reflexivity|]. rewrite V2, lends_labels. reflexivity.
  - intros sid Hin. specialize (V sid). rewrite tinv_none in V; [|exact Ht|].
    + cbn [hinv] in V. rewrite lends_labels in V. tauto.
    + destruct Ht as (_ & T2 & _). destruct (N.le_gt_cases (k_next c (stream_type sid)) sid) as [G|G]; [exact G|]. exfalso. apply Hin. apply (T2 sid). exact G.
Qed.

(** ** Connection limits *)

Lemma total_app2 : forall a b, total_of (a ++ b) = total_of a + total_of b.
Proof. induction a as [|x a IH]; intros b; cbn [app]; [reflexivity|]. rewrite !total_cons, IH. lia. Qed.

Lemma update_max_rest : forall c s, rest (fst (update_max c s)) = rest c.
Proof. intros c s. destruct (update_max c s) as [c1 s1] eqn:E. destruct (update_max_spec _ _ _ _ E) as (U & _). exact U. Qed.

Lemma delete_rest : forall c s, rest (delete_if_closed c s) = rest c.
Proof.
  intros c s. unfold delete_if_closed.
  destruct (if negb (s_closed s) && is_stream_closed s (k_client c) then let '(c1, s1) := update_max c s in (c1, s_set_closed s1 true) else (c, s)) as [c1 s1] eqn:E.
  assert (R : rest c1 = rest c).
  { destruct (negb (s_closed s) && is_stream_closed s (k_client c)); [|injection E as <- <-; reflexivity].
    pose proof (update_max_rest c s) as U. destruct (update_max c s) as [c2 s2]. injection E as <- <-. exact U. }
  destruct (s_closed s1 && is_stream_acked s1); exact R.
Qed.

Lemma sstep_rest : forall c o c', winv c -> sstep c o = Some (c', true) ->
  (match o with OpMaxData _ | OpMaxStreams _ _ | OpSendMaxData _ | OpSendMaxStreams => False | _ => True end) -> rest c' = rest c.
Proof.
  intros c o c' Hw H Ho. destruct o as [sid off fin d|sid final|sid|v|sid v|uni rank|v|sid v| |sid|sid t|sid t|sid|sid]; cbn [sstep] in H; try contradiction; clear Ho.
  - unfold stream_frame in H. destruct (two62 <=? off + blen d); [discriminate|].
    destruct (find_or_create c sid) as [c1 os] eqn:Ef. destruct (find_or_create_spec _ _ _ _ Hw Ef) as ((M1 & M2 & _) & _).
    destruct os as [s|]; [|injection H as <- _; exact M2].
    match type of H with (let '(_, _) := ?e in _) = _ => destruct e as [[[c2 s2] okk] notify] eqn:Ec end.
    assert (R : rest c2 = rest c1).
    { destruct (rx_fin_received (s_rx s)).
      - destruct (if fin then _ else _); injection Ec as <- _ _ _; [apply conn_error_rest|reflexivity].
      - destruct (if fin then update_max c1 (s_set_rx s (r_set_fin (s_rx s) true)) else (c1, s)) as [cA sA] eqn:Eu.
        assert (RA : rest cA = rest c1).
        { destruct fin; [|injection Eu as <- _; reflexivity]. pose proof (update_max_rest c1 (s_set_rx s (r_set_fin (s_rx s) true))) as U. rewrite Eu in U. exact U. }
        destruct (_ <? _); [|injection Ec as <- _ _ _; exact RA].
        destruct (flow_check cA sA (off + blen d)) as [[cB sB] okB] eqn:Efl. injection Ec as <- _ _ _.
        destruct (flow_check_spec _ _ _ _ _ _ Efl) as (_ & _ & _ & _ & F & _). congruence. }
    destruct okk; [|discriminate]. destruct (rx_input _ _ _ _) as [[r' ps]|]; [|discriminate]. injection H as <-.
    destruct (rx_fin_signalled r'); [rewrite delete_rest|]; rewrite <- M2, <- R; reflexivity.
  - unfold reset_frame in H. destruct (find_or_create c sid) as [c1 os] eqn:Ef. destruct (find_or_create_spec _ _ _ _ Hw Ef) as ((M1 & M2 & _) & _).
    destruct os as [s|]; [|injection H as <- _; exact M2].
    destruct ((rx_fin_received (s_rx s) || rx_reset_received (s_rx s)) && negb (final =? rx_fin_offset (s_rx s))); [discriminate|].
    destruct (flow_check c1 s final) as [[c2 s2] okk] eqn:Efl. destruct (flow_check_spec _ _ _ _ _ _ Efl) as (_ & _ & _ & _ & F & _).
    destruct okk; [|discriminate]. destruct (rx_reset_received (s_rx s)); [injection H as <-; rewrite <- M2, <- F; reflexivity|].
    pose proof (update_max_rest c2 (s_set_rx s2 (r_set_reset (s_rx s2)))) as U. destruct (update_max c2 (s_set_rx s2 (r_set_reset (s_rx s2)))) as [c3 s4]. cbn [fst] in U.
    injection H as <-. destruct (rx_reset_signalled (s_rx s)); [|rewrite delete_rest]; rewrite <- M2, <- F, <- U; reflexivity.
  - unfold stop_sending_frame in H. destruct (find_or_create c sid) as [c1 os] eqn:Ef. destruct (find_or_create_spec _ _ _ _ Hw Ef) as ((M1 & M2 & _) & _).
    destruct os as [s|]; [|injection H as <-; exact M2].
    destruct (_ && _); [discriminate|]. destruct (_ && _ && _); injection H as <-; exact M2.
  - unfold max_stream_data_frame in H. destruct (find_or_create c sid) as [c1 os] eqn:Ef. destruct (find_or_create_spec _ _ _ _ Hw Ef) as ((M1 & M2 & _) & _).
    destruct os as [s|]; [|injection H as <-; exact M2]. destruct (_ <? _); injection H as <-; exact M2.
  - injection H as <-. unfold send_max_stream_data. destruct (lookup c sid); [|reflexivity]. destruct (_ <? _); reflexivity.
  - injection H as <-. unfold open_local. destruct (lookup c sid); [reflexivity|]. destruct (Bool.eqb _ _); [|reflexivity].
    destruct (create_missing c sid false) as [c1 okk] eqn:Ec. destruct (create_missing_spec _ _ _ _ _ Hw Ec) as ((M1 & M2 & _) & _). exact M2.
  - injection H as <-. unfold tx_sent. destruct (lookup c sid) as [s|]; [|reflexivity].
    pose proof (update_max_rest c (s_set_tx s t)) as U. destruct (update_max c (s_set_tx s t)) as [c1 s1]. rewrite delete_rest. exact U.
  - injection H as <-. unfold tx_acked. destruct (lookup c sid) as [s|]; [|reflexivity]. rewrite delete_rest. reflexivity.
  - injection H as <-. unfold app_stop_sending. destruct (lookup c sid); [|reflexivity]. destruct (rx_reset_received _); reflexivity.
  - injection H as <-. unfold app_discard. destruct (lookup c sid); reflexivity.
Qed.

Lemma id_of_rank_ok : forall rank client u, rank < two62 -> id_of_rank rank client u < two62 ->
  id_of_rank rank client u = nth_stream client u rank /\ 1 <= rank.
Proof.
  intros rank client u Hr H. unfold id_of_rank in *. unfold nth_stream.
  assert (E64 : two64 = 18446744073709551616) by reflexivity. assert (E62 : two62 = 4611686018427387904) by reflexivity. rewrite E64, E62 in *.
  destruct (N.eq_dec rank 0) as [->|Hz].
  { exfalso. destruct u, client; vm_compute in H; discriminate. }
  replace (rank + (18446744073709551616 - 1)) with (rank - 1 + 1 * 18446744073709551616) in * by lia. rewrite N.mod_add in * by lia.
  rewrite (N.mod_small (rank - 1)) in * by lia. rewrite N.mod_small in * by lia. lia.
Qed.

Definition limits_are (client : bool) (md mdr br ur : N) (ops : list sop) (c : scnx) : Prop :=
  k_md_l c = md + total_of (data_credit ops) /\ k_md_r c = N.max mdr (highest (peer_data_credit ops)) /\
  k_maxb_r c = N.max br (highest (map (nth_stream client false) (peer_streams_credit false ops))) /\
  k_maxu_r c = N.max ur (highest (map (nth_stream client true) (peer_streams_credit true ops))).

Lemma run_limits : forall ops c c' md mdr br ur, winv c -> srun c ops = Some (c', true) ->
  (forall u n, In (OpMaxStreams u n) ops -> n < 2 ^ 62) ->
  k_md_l c = md -> k_md_r c = mdr -> k_maxb_r c = br -> k_maxu_r c = ur -> limits_are (k_client c) md mdr br ur ops c'.
Proof.
  induction ops as [|o ops IH]; intros c c' md mdr br ur Hw H Hwire E1 E2 E3 E4; cbn [srun] in H.
  - injection H as <-. unfold limits_are. cbn. rewrite E1, E2, E3, E4. lia.
  - destruct (sstep c o) as [[c1 ok]|] eqn:E; [|discriminate]. destruct ok; [|discriminate].
    destruct (sstep_spec _ _ _ _ Hw E) as [G _]. destruct (G eq_refl) as (G1 & (G2 & _) & _).
    assert (Hs : limits_are (k_client c) md mdr br ur [o] c1).
    { assert (Hsame : (match o with OpMaxData _ | OpMaxStreams _ _ | OpSendMaxData _ | OpSendMaxStreams => False | _ => True end) ->
        limits_are (k_client c) md mdr br ur [] c1).
      { intros X. pose proof (sstep_rest _ _ _ Hw E X) as R. unfold rest in R. unfold limits_are. cbn. assert (k_md_l c1 = k_md_l c) by congruence.
        assert (k_md_r c1 = k_md_r c) by congruence. assert (k_maxb_r c1 = k_maxb_r c) by congruence. assert (k_maxu_r c1 = k_maxu_r c) by congruence. lia. }
      destruct o as [sid off fin d|sid final|sid|v|sid v|u rank|v|sid v| |sid|sid t|sid t|sid|sid]; try (exact (Hsame I)); cbn [sstep] in E.
      - injection E as <-. unfold limits_are, max_data_frame. destruct (N.ltb_spec (k_md_r c) v); cbn; lia.
      - unfold max_streams_frame in E. specialize (Hwire u rank (or_introl eq_refl)). change (2 ^ 62) with two62 in Hwire.
        set (id := id_of_rank rank (k_client c) u) in *.
        destruct (N.leb_spec two62 id) as [Hbig|Hbig]; [discriminate|]. pose proof (id_of_rank_ok _ _ _ Hwire Hbig) as [Hn _]. fold id in Hn.
        injection E as <-. unfold limits_are. destruct u; cbn [peer_streams_credit peer_data_credit data_credit flat_map Bool.eqb app map highest fold_right total_of]; rewrite <- Hn.
        + destruct (N.ltb_spec (k_maxu_r c) id); cbn [set_max_r k_md_l k_md_r k_maxb_r k_maxu_r]; lia.
        + destruct (N.ltb_spec (k_maxb_r c) id); cbn [set_max_r k_md_l k_md_r k_maxb_r k_maxu_r]; lia.
      - injection E as <-. unfold limits_are. cbn. lia.
      - injection E as <-. unfold limits_are. cbn. lia. }
    destruct Hs as (S1 & S2 & S3 & S4).
    pose proof (IH c1 c' _ _ _ _ G1 H (fun u n X => Hwire u n (or_intror X)) S1 S2 S3 S4) as (T1 & T2 & T3 & T4). rewrite G2 in T3, T4.
    unfold limits_are. change (o :: ops) with ([o] ++ ops). unfold data_credit, peer_data_credit, peer_streams_credit in *. rewrite !flat_map_app, total_app2, !map_app, !highest_app.
    rewrite T1, T2, T3, T4. lia.
Qed.

Lemma connection_limits : forall client p nb nu md mdr br ur ops c,
  srun (scnx0 client p nb nu md mdr br ur) ops = Some (c, true) ->
  (forall u n, In (OpMaxStreams u n) ops -> n < 2 ^ 62) ->
  k_md_r c = N.max mdr (highest (peer_data_credit ops)) /\
  k_maxb_r c = N.max br (highest (map (nth_stream client false) (peer_streams_credit false ops))) /\
  k_maxu_r c = N.max ur (highest (map (nth_stream client true) (peer_streams_credit true ops))).
Proof.
  intros client p nb nu md mdr br ur ops c H Hw. pose proof (run_limits _ _ _ md mdr br ur (winv0 _ _ _ _ _ _ _ _) H Hw eq_refl eq_refl eq_refl eq_refl) as (_ & A). exact A.
Qed.

(** Announced total, whatever the numbers on the wire. *)
Lemma run_md_l : forall ops c c', winv c -> srun c ops = Some (c', true) -> k_md_l c' = k_md_l c + total_of (data_credit ops).
Proof.
  induction ops as [|o ops IH]; intros c c' Hw H; cbn [srun] in H.
  - injection H as <-. cbn. lia.
  - destruct (sstep c o) as [[c1 ok]|] eqn:E; [|discriminate]. destruct ok; [|discriminate].
    destruct (sstep_spec _ _ _ _ Hw E) as [G _]. destruct (G eq_refl) as (G1 & (G2 & _) & _).
    rewrite (IH _ _ G1 H). change (o :: ops) with ([o] ++ ops). unfold data_credit. rewrite flat_map_app, total_app2. cbn [flat_map]. rewrite app_nil_r.
    assert (Hsame : (match o with OpMaxData _ | OpMaxStreams _ _ | OpSendMaxData _ | OpSendMaxStreams => False | _ => True end) -> k_md_l c1 = k_md_l c).
    { intros X. pose proof (sstep_rest _ _ _ Hw E X) as R. unfold rest in R. congruence. }
    destruct o as [sid off fin d|sid final|sid|v|sid v|u rank|v|sid v| |sid|sid t|sid t|sid|sid]; try (rewrite (Hsame I); cbn [total_of fold_right]; lia); cbn [sstep] in E.
    + injection E as <-. unfold max_data_frame. destruct (_ <? _); cbn; lia.
    + unfold max_streams_frame in E. destruct (_ <=? _); [discriminate|]. injection E as <-. destruct u; destruct (_ <? _); cbn; lia.
    + injection E as <-. cbn. lia.
    + injection E as <-. cbn. lia.
Qed.

(** C12, connection. *)
Lemma connection_within_limit : forall client p nb nu md mdr br ur ops c,
  srun (scnx0 client p nb nu md mdr br ur) ops = Some (c, true) ->
  k_rcvd c <= md + total_of (data_credit ops) /\ k_md_l c = md + total_of (data_credit ops).
Proof.
  intros client p nb nu md mdr br ur ops c H. pose proof (run_md_l _ _ _ (winv0 _ _ _ _ _ _ _ _) H) as E. change (k_md_l (scnx0 client p nb nu md mdr br ur)) with md in E.
  destruct (run_views _ _ _ (winv0 _ _ _ _ _ _ _ _) H) as (_ & _ & _ & (_ & A & _)).
  assert (k_rcvd c <= k_md_l c) by (apply A; cbn [scnx0 k_rcvd k_md_l]; lia). rewrite E in H0. auto.
Qed.

(** Buffers. *)
Lemma stored_held : forall s, stored s = held (rx_chunks (s_rx s)).
Proof. intros s. unfold stored, held. induction (rx_chunks (s_rx s)) as [|x l IH]; [reflexivity|]. cbn [map fold_right]. rewrite total_cons, IH. reflexivity. Qed.

Lemma buffers_bounded : forall client p nb nu md mdr br ur ops c,
  srun (scnx0 client p nb nu md mdr br ur) ops = Some (c, true) ->
  (forall s, In s (k_streams c) -> rx_consumed (s_rx s) + stored s <= rx_maxdata (s_rx s)) /\
  total_of (map stored (k_streams c)) <= md + total_of (data_credit ops).
Proof.
  intros client p nb nu md mdr br ur ops c H.
  assert (Hs : forall s, In s (k_streams c) -> rx_consumed (s_rx s) + stored s <= fo s /\ fo s <= rx_maxdata (s_rx s)).
  { intros s Hs. destruct (run_live _ _ _ _ _ _ _ _ _ _ H) as (W & L). specialize (L (s_id s)).
    rewrite (view_live _ _ _ (lookup_live _ _ (proj1 W) Hs)) in L. destruct L as (A & B & _). split; [|exact B].
    apply any_apart in A. destruct A as (A1 & A2). rewrite stored_held. fold (fo s) in *.
    destruct (rx_chunks (s_rx s)) as [|x l] eqn:E; [cbn [held fold_right]; lia|].
    assert (Hne : x :: l <> []) by discriminate. pose proof (apart_held _ _ _ A2 (or_intror Hne)) as A3. cbn [apart] in A2. destruct A2 as (A4 & A5 & A6 & _). unfold c_end in A6. lia. }
  split; [intros s X; destruct (Hs s X); lia|].
  destruct (connection_within_limit _ _ _ _ _ _ _ _ _ _ H) as (A & _).
  destruct (run_views _ _ _ (winv0 _ _ _ _ _ _ _ _) H) as (_ & _ & _ & (B & _)).
  change (k_rcvd (scnx0 client p nb nu md mdr br ur)) with 0 in B. change (sumoff (scnx0 client p nb nu md mdr br ur)) with 0 in B.
  assert (C : total_of (map stored (k_streams c)) <= sumS (k_streams c)).
  { clear - Hs. induction (k_streams c) as [|x l IH]; [cbn; lia|]. rewrite sumS_cons. cbn [map]. rewrite total_cons.
    pose proof (Hs x (or_introl eq_refl)). specialize (IH (fun s X => Hs s (or_intror X))). lia. }
  unfold sumoff in B. lia.
Qed.

(** ** Refusals *)

Lemma lookup_none_fresh : forall c sid, winv c -> ~ In sid (opened c) -> k_next c (stream_type sid) <= sid.
Proof. intros c sid ((_ & T2 & _) & _) H. destruct (N.le_gt_cases (k_next c (stream_type sid)) sid); [assumption|]. exfalso. apply H. apply (T2 sid). assumption. Qed.

(** C12: refusal of a frame on an existing stream. *)
Lemma flow_refused : forall c s off fin d, winv c -> In s (k_streams c) -> k_err c = None ->
  rx_fin_received (s_rx s) = false -> off + blen d < 2 ^ 62 -> rx_fin_offset (s_rx s) < off + blen d ->
  rx_maxdata (s_rx s) < off + blen d \/ k_md_l c < k_rcvd c + (off + blen d - rx_fin_offset (s_rx s)) ->
  exists c', sstep c (OpStream (s_id s) off fin d) = Some (c', false) /\ k_err c' = Some 3 /\ k_out c' = k_out c /\ k_rcvd c' = k_rcvd c.
Proof.
  intros c s off fin d Hw Hs He Hf Hb Hlt Hv. cbn [sstep]. unfold stream_frame. change (2 ^ 62) with two62 in Hb.
  destruct (N.leb_spec two62 (off + blen d)); [lia|]. unfold find_or_create. rewrite (lookup_live _ _ (proj1 Hw) Hs), Hf.
  destruct (if fin then update_max c (s_set_rx s (r_set_fin (s_rx s) true)) else (c, s)) as [cA sA] eqn:Eu.
  assert (HA : rx_fin_offset (s_rx sA) = rx_fin_offset (s_rx s) /\ rx_maxdata (s_rx sA) = rx_maxdata (s_rx s) /\ k_md_l cA = k_md_l c /\ k_rcvd cA = k_rcvd c /\ k_err cA = None /\ k_out cA = k_out c).
  { destruct fin; [|injection Eu as <- <-; auto 10].
    destruct (update_max_spec _ _ _ _ Eu) as (U1 & U2 & U3 & U4 & U5 & U6 & U7 & U8 & U9 & U10 & U11 & U12 & U13). rewrite U9. destruct (rest_max _ _ U1) as (_ & _ & R).
    repeat split; try assumption. congruence. }
  destruct HA as (A1 & A2 & A3 & A4 & A5 & A6).
  destruct (N.ltb_spec (rx_fin_offset (s_rx s)) (off + blen d)); [|lia].
  unfold flow_check. rewrite A1, A2, A3, A4.
  destruct (N.ltb_spec (rx_maxdata (s_rx s)) (off + blen d)).
  - eexists. split; [reflexivity|]. unfold conn_error. rewrite A5. cbn [put set_streams set_err k_err k_out k_rcvd]. auto.
  - destruct (N.ltb_spec (rx_fin_offset (s_rx s)) (off + blen d)); [|lia].
    replace ((k_md_l c <? off + blen d - rx_fin_offset (s_rx s)) || (k_md_l c - (off + blen d - rx_fin_offset (s_rx s)) <? k_rcvd c)) with true
      by (destruct (N.ltb_spec (k_md_l c) (off + blen d - rx_fin_offset (s_rx s))); [reflexivity|]; destruct (N.ltb_spec (k_md_l c - (off + blen d - rx_fin_offset (s_rx s))) (k_rcvd c)); [reflexivity|lia]).
    eexists. split; [reflexivity|]. unfold conn_error. rewrite A5. cbn [put set_streams set_err k_err k_out k_rcvd]. auto.
Qed.

Lemma run_winv : forall client p nb nu md mdr br ur ops c ok,
  srun (scnx0 client p nb nu md mdr br ur) ops = Some (c, ok) -> ok = true -> winv c.
Proof. intros. subst ok. destruct (run_views _ _ _ (winv0 _ _ _ _ _ _ _ _) H) as (W & _). exact W. Qed.

Lemma stream_refused : forall client p nb nu md mdr br ur ops c s off fin d,
  srun (scnx0 client p nb nu md mdr br ur) ops = Some (c, true) -> k_err c = None -> In s (k_streams c) ->
  rx_fin_received (s_rx s) = false -> off + blen d < 2 ^ 62 ->
  (rx_maxdata (s_rx s) < off + blen d \/
   rx_fin_offset (s_rx s) < off + blen d /\ k_md_l c < k_rcvd c + (off + blen d - rx_fin_offset (s_rx s))) ->
  exists c', sstep c (OpStream (s_id s) off fin d) = Some (c', false) /\ k_err c' = Some 3 /\ k_out c' = k_out c /\ k_rcvd c' = k_rcvd c.
Proof.
  intros client p nb nu md mdr br ur ops c s off fin d H He Hs Hf Hb Hv.
  pose proof (stream_within_limit _ _ _ _ _ _ _ _ _ _ _ H Hs) as (A & B & _).
  apply flow_refused; try assumption; [eapply run_winv; [exact H|reflexivity]|lia|lia].
Qed.

Lemma reset_refused : forall client p nb nu md mdr br ur ops c s final,
  srun (scnx0 client p nb nu md mdr br ur) ops = Some (c, true) -> k_err c = None -> In s (k_streams c) ->
  rx_fin_received (s_rx s) = false -> rx_reset_received (s_rx s) = false ->
  (rx_maxdata (s_rx s) < final \/
   rx_fin_offset (s_rx s) < final /\ k_md_l c < k_rcvd c + (final - rx_fin_offset (s_rx s))) ->
  exists c', sstep c (OpReset (s_id s) final) = Some (c', false) /\ k_err c' = Some 3 /\ k_out c' = k_out c /\ k_rcvd c' = k_rcvd c.
Proof.
  intros client p nb nu md mdr br ur ops c s final H He Hs Hf Hr Hv.
  pose proof (stream_within_limit _ _ _ _ _ _ _ _ _ _ _ H Hs) as (A & B & _).
  pose proof (run_winv _ _ _ _ _ _ _ _ _ _ _ H eq_refl) as Hw.
  cbn [sstep]. unfold reset_frame, find_or_create. rewrite (lookup_live _ _ (proj1 Hw) Hs), Hf, Hr. cbn [orb andb].
  destruct (flow_check c s final) as [[c2 s2] okk] eqn:Efl. destruct (flow_check_spec _ _ _ _ _ _ Efl) as (F1 & F2 & F3 & F4 & F5 & F6 & F7 & F8 & F9 & F10 & F11 & F12 & F13).
  destruct okk.
  - exfalso. unfold flow_check in Efl. destruct (N.ltb_spec (rx_maxdata (s_rx s)) final); [discriminate|].
    destruct (N.ltb_spec (rx_fin_offset (s_rx s)) final); [|lia].
    destruct (N.ltb_spec (k_md_l c) (final - rx_fin_offset (s_rx s))); cbn [orb] in Efl; [discriminate|].
    destruct (N.ltb_spec (k_md_l c - (final - rx_fin_offset (s_rx s))) (k_rcvd c)); [discriminate|]. lia.
  - destruct (F13 eq_refl) as (-> & _). eexists. split; [reflexivity|]. unfold conn_error. rewrite He. auto.
Qed.

(** A frame within the limits on a stream whose final size is not known is
    processed. *)
Lemma stream_accepted : forall client p nb nu md mdr br ur ops c s off fin d,
  srun (scnx0 client p nb nu md mdr br ur) ops = Some (c, true) -> In s (k_streams c) ->
  rx_fin_received (s_rx s) = false -> off + blen d < 2 ^ 62 ->
  off + blen d <= rx_maxdata (s_rx s) -> k_rcvd c + (off + blen d - rx_fin_offset (s_rx s)) <= k_md_l c ->
  exists c', sstep c (OpStream (s_id s) off fin d) = Some (c', true).
Proof.
  intros client p nb nu md mdr br ur ops c s off fin d H Hs Hf Hb H1 H2.
  pose proof (run_winv _ _ _ _ _ _ _ _ _ _ _ H eq_refl) as Hw.
  assert (Hd : sstep c (OpStream (s_id s) off fin d) <> None).
  { pose proof (run_defined client p nb nu md mdr br ur (ops ++ [OpStream (s_id s) off fin d])) as X.
    assert (E : srun (scnx0 client p nb nu md mdr br ur) (ops ++ [OpStream (s_id s) off fin d]) =
                match sstep c (OpStream (s_id s) off fin d) with None => None | Some (c1, true) => Some (c1, true) | Some (c1, false) => Some (c1, false) end).
    { clear X. revert H. generalize (scnx0 client p nb nu md mdr br ur). induction ops as [|o ops IH]; intros c0 H; cbn [srun app] in *.
      - injection H as ->. reflexivity.
      - destruct (sstep c0 o) as [[c1 b]|]; [|discriminate]. destruct b; [|discriminate]. apply IH. exact H. }
    rewrite E in X. intros Y. apply X. rewrite Y. reflexivity. }
  destruct (sstep c (OpStream (s_id s) off fin d)) as [[c' ok]|] eqn:E; [|contradiction]. destruct ok; [eauto|]. exfalso. clear Hd.
  cbn [sstep] in E. unfold stream_frame in E. change (2 ^ 62) with two62 in Hb. destruct (N.leb_spec two62 (off + blen d)); [lia|].
  unfold find_or_create in E. rewrite (lookup_live _ _ (proj1 Hw) Hs), Hf in E.
  destruct (if fin then update_max c (s_set_rx s (r_set_fin (s_rx s) true)) else (c, s)) as [cA sA] eqn:Eu.
  assert (HA : rx_fin_offset (s_rx sA) = rx_fin_offset (s_rx s) /\ rx_maxdata (s_rx sA) = rx_maxdata (s_rx s) /\ k_md_l cA = k_md_l c /\ k_rcvd cA = k_rcvd c).
  { destruct fin; [|injection Eu as <- <-; auto 10].
    destruct (update_max_spec _ _ _ _ Eu) as (U1 & U2 & U3 & U4 & U5 & U6 & U7 & U8 & U9 & U10 & U11 & U12 & U13). rewrite U9. destruct (rest_max _ _ U1) as (_ & _ & R). auto. }
  destruct HA as (A1 & A2 & A3 & A4).
  destruct (N.ltb_spec (rx_fin_offset (s_rx s)) (off + blen d)).
  - destruct (flow_check cA sA (off + blen d)) as [[cB sB] okB] eqn:Efl. destruct (flow_check_spec _ _ _ _ _ _ Efl) as (F1 & F2 & F3 & F4 & F5 & F6 & F7 & F8 & F9 & F10 & F11 & F12 & F13).
    destruct okB; [destruct (rx_input _ _ _ _) as [[? ?]|]; discriminate|]. destruct (F13 eq_refl) as (_ & _ & X). rewrite A1, A2, A3, A4 in X. lia.
  - destruct (rx_input _ _ _ _) as [[? ?]|]; discriminate.
Qed.

(** ** Opening of streams *)

Lemma opened_streams : forall client p nb nu md mdr br ur ops c,
  srun (scnx0 client p nb nu md mdr br ur) ops = Some (c, true) ->
  NoDup (opened c) /\
  (forall sid j, In sid (opened c) -> j < sid -> j mod 4 = sid mod 4 -> In j (opened c)) /\
  (forall sid, In sid (opened c) -> by_us client sid = false -> sid <= peer_limit c sid) /\
  (forall sid, ends_of sid ops <> [] -> In sid (opened c)).
Proof.
  intros client p nb nu md mdr br ur ops c H.
  destruct (run_views _ _ _ (winv0 _ _ _ _ _ _ _ _) H) as (W & (Hc & _) & _ & (_ & _ & L & _)). destruct W as [(T1 & T2 & T3) _].
  split; [exact T1|]. split; [|split].
  - intros sid j Hs Hj Hm. apply (T2 j). apply (T2 sid) in Hs. unfold stream_type in *. rewrite Hm. lia.
  - intros sid Hs Hb. rewrite by_us_local in Hb. unfold peer_limit. replace (if is_uni sid then k_maxu_l c else k_maxb_l c) with (if is_bidir_id sid then k_maxb_l c else k_maxu_l c)
      by (rewrite is_uni_bidir; destruct (is_uni sid); reflexivity). apply L; [|exact Hs|rewrite Hc; exact Hb]. intros x [].
  - intros sid Hn. destruct (in_dec N.eq_dec sid (opened c)) as [Hi|Hi]; [exact Hi|]. exfalso. apply Hn.
    destruct (data_accounting _ _ _ _ _ _ _ _ _ _ H) as (h & _ & _ & _ & _ & X). apply X. exact Hi.
Qed.

Lemma missing_refused : forall c sid, winv c -> ~ In sid (opened c) -> k_err c = None ->
  by_us (k_client c) sid = true \/ peer_limit c sid < sid ->
  find_or_create c sid = (set_err c (Some 4), None).
Proof.
  intros c sid Hw Hn He Hl. pose proof (lookup_none_fresh c sid Hw Hn) as Hf. unfold find_or_create.
  assert (lookup c sid = None) as -> by (apply lookup_none; intros X; apply Hn; apply in_or_app; left; exact X).
  unfold create_missing. cbn [andb]. destruct (N.ltb_spec sid (k_next c (stream_type sid))); [lia|].
  rewrite by_us_local in Hl. unfold peer_limit in Hl.
  assert (E : Bool.eqb (is_client_id sid) (xorb (k_client c) true) = negb (is_local_id sid (k_client c))).
  { unfold is_client_id, is_local_id. destruct (sid mod 2 =? 0), (k_client c); reflexivity. }
  rewrite E, negb_involutive, is_uni_bidir. destruct (is_local_id sid (k_client c)) eqn:El.
  - unfold conn_error. rewrite He. reflexivity.
  - destruct Hl as [Hl|Hl]; [discriminate|]. replace (if negb (is_uni sid) then k_maxb_l c else k_maxu_l c) with (if is_uni sid then k_maxu_l c else k_maxb_l c) by (destruct (is_uni sid); reflexivity).
    destruct (N.ltb_spec (if is_uni sid then k_maxu_l c else k_maxb_l c) sid); [|lia]. unfold conn_error. rewrite He. reflexivity.
Qed.

Lemma unopened_refused : forall client p nb nu md mdr br ur ops c sid o,
  srun (scnx0 client p nb nu md mdr br ur) ops = Some (c, true) -> k_err c = None -> ~ In sid (opened c) ->
  by_us client sid = true \/ peer_limit c sid < sid -> frame_on sid o ->
  exists c' ok, sstep c o = Some (c', ok) /\ k_err c' = Some 4 /\ opened c' = opened c /\ k_out c' = k_out c /\ k_rcvd c' = k_rcvd c.
Proof.
  intros client p nb nu md mdr br ur ops c sid o H He Hn Hl Ho.
  destruct (run_views _ _ _ (winv0 _ _ _ _ _ _ _ _) H) as (W & (Hc & _) & _). change (k_client (scnx0 client p nb nu md mdr br ur)) with client in Hc. rewrite <- Hc in Hl.
  pose proof (missing_refused c sid W Hn He Hl) as F.
  destruct o; cbn [frame_on] in Ho; try contradiction; cbn [sstep].
  - destruct Ho as [-> Ho]. unfold stream_frame. change (2 ^ 62) with two62 in Ho. destruct (N.leb_spec two62 (off + blen d)); [lia|]. rewrite F. eexists _, _. split; [reflexivity|]. auto.
  - subst sid0. unfold reset_frame. rewrite F. eexists _, _. split; [reflexivity|]. auto.
  - subst sid0. unfold stop_sending_frame. rewrite F. eexists _, _. split; [reflexivity|]. auto.
  - subst sid0. unfold max_stream_data_frame. rewrite F. eexists _, _. split; [reflexivity|]. auto.
Qed.

(** ** Final size *)

Lemma vt_final : forall u v l p v', vt u v l p v' -> forall r g, v = VLive r g -> rx_fin_received r = true ->
  match v' with VNone => False | VLive r' _ => rx_fin_received r' = true /\ rx_fin_offset r' = rx_fin_offset r | VRet o => o = rx_fin_offset r end.
Proof.
  intros u v l p v' H. induction H; intros r1 g1 E Hf; try discriminate.
  - subst v. auto.
  - specialize (IHvt1 _ _ E Hf). destruct v2 as [|r2 g2|o].
    + contradiction.
    + destruct IHvt1 as [A B]. specialize (IHvt2 _ _ eq_refl A). destruct v3; [contradiction| |congruence]. destruct IHvt2; split; congruence.
    + assert (X : forall w l p w', vt u w l p w' -> forall o, w = VRet o -> w' = VRet o).
      { clear. intros w l p w' H. induction H; intros o' E; try discriminate; try exact E. apply IHvt2, IHvt1, E. }
      rewrite (X _ _ _ _ H0 o eq_refl). exact IHvt1.
  - injection E as <- <-. destruct (_ <? _); auto.
  - injection E as <- <-. auto.
  - injection E as <- <-. auto.
  - subst v. auto.
  - injection E as <- <-. reflexivity.
  - injection E as <- <-. pose proof (rx_input_mono _ _ _ _ _ _ H2) as ((S1 & S2 & S3 & S4 & S5) & _). rewrite S1, S4. unfold rx_note. cbn [rx_fin_received rx_fin_offset].
    rewrite Hf. split; [reflexivity|]. specialize (H0 Hf). destruct (f_fin f); lia.
  - injection E as <- <-. destruct (rx_reset_received r); [auto|]. unfold rx_reset. cbn [rx_fin_received rx_fin_offset]. split; [exact Hf|]. rewrite (H ltac:(rewrite Hf; reflexivity)). lia.
Qed.

Lemma srun_app : forall a b c, srun c (a ++ b) = match srun c a with Some (c1, true) => srun c1 b | x => x end.
Proof.
  induction a as [|o a IH]; intros b c; [reflexivity|]. cbn [app srun]. destruct (sstep c o) as [[c1 ok]|]; [|reflexivity]. destruct ok; [apply IH|reflexivity].
Qed.

Lemma final_size_constant : forall client p nb nu md mdr br ur a b c1 c2 s1 s2,
  srun (scnx0 client p nb nu md mdr br ur) a = Some (c1, true) -> srun (scnx0 client p nb nu md mdr br ur) (a ++ b) = Some (c2, true) ->
  In s1 (k_streams c1) -> In s2 (k_streams c2) -> s_id s1 = s_id s2 -> rx_fin_received (s_rx s1) = true ->
  rx_fin_received (s_rx s2) = true /\ rx_fin_offset (s_rx s2) = rx_fin_offset (s_rx s1).
Proof.
  intros client p nb nu md mdr br ur a b c1 c2 s1 s2 H1 H2 I1 I2 E Hf.
  pose proof (run_winv _ _ _ _ _ _ _ _ _ _ _ H1 eq_refl) as W1. pose proof (run_winv _ _ _ _ _ _ _ _ _ _ _ H2 eq_refl) as W2.
  rewrite srun_app, H1 in H2. destruct (run_views _ _ _ W1 H2) as (_ & _ & (evs & _ & V) & _). specialize (V (s_id s1) true ltac:(auto)).
  rewrite (view_live _ _ _ (lookup_live _ _ (proj1 W1) I1)) in V. rewrite E in V. rewrite (view_live _ _ _ (lookup_live _ _ (proj1 W2) I2)) in V.
  pose proof (vt_final _ _ _ _ _ V _ _ eq_refl Hf) as X. exact X.
Qed.

Lemma final_size_stream : forall client p nb nu md mdr br ur ops c s off fin d,
  srun (scnx0 client p nb nu md mdr br ur) ops = Some (c, true) -> k_err c = None -> In s (k_streams c) ->
  rx_fin_received (s_rx s) = true -> off + blen d < 2 ^ 62 ->
  (rx_fin_offset (s_rx s) < off + blen d \/ fin = true /\ off + blen d <> rx_fin_offset (s_rx s)) ->
  sstep c (OpStream (s_id s) off fin d) = Some (set_err c (Some 6), false).
Proof.
  intros client p nb nu md mdr br ur ops c s off fin d H He Hs Hf Hb Hv.
  pose proof (run_winv _ _ _ _ _ _ _ _ _ _ _ H eq_refl) as Hw.
  cbn [sstep]. unfold stream_frame. change (2 ^ 62) with two62 in Hb. destruct (N.leb_spec two62 (off + blen d)); [lia|].
  unfold find_or_create. rewrite (lookup_live _ _ (proj1 Hw) Hs), Hf.
  assert ((if fin then negb (rx_fin_offset (s_rx s) =? off + blen d) else rx_fin_offset (s_rx s) <? off + blen d) = true) as ->.
  { destruct fin; [|lia]. destruct (N.eqb_spec (rx_fin_offset (s_rx s)) (off + blen d)); [lia|reflexivity]. }
  f_equal. f_equal. unfold conn_error. rewrite He. apply put_id.
  - cbn [set_err]. apply (lookup_live _ _ (proj1 Hw) Hs).
  - apply Hw.
Qed.

Lemma final_size_reset : forall client p nb nu md mdr br ur ops c s final,
  srun (scnx0 client p nb nu md mdr br ur) ops = Some (c, true) -> k_err c = None -> In s (k_streams c) ->
  rx_fin_received (s_rx s) = true \/ rx_reset_received (s_rx s) = true -> final <> rx_fin_offset (s_rx s) ->
  sstep c (OpReset (s_id s) final) = Some (set_err c (Some 6), false).
Proof.
  intros client p nb nu md mdr br ur ops c s final H He Hs Hf Hb.
  pose proof (run_winv _ _ _ _ _ _ _ _ _ _ _ H eq_refl) as Hw.
  cbn [sstep]. unfold reset_frame, find_or_create. rewrite (lookup_live _ _ (proj1 Hw) Hs).
  assert ((rx_fin_received (s_rx s) || rx_reset_received (s_rx s)) && negb (final =? rx_fin_offset (s_rx s)) = true) as ->.
  { assert (rx_fin_received (s_rx s) || rx_reset_received (s_rx s) = true) as -> by (destruct Hf as [-> | ->]; [reflexivity|apply orb_true_r]).
    cbn [andb]. destruct (N.eqb_spec final (rx_fin_offset (s_rx s))); [contradiction|reflexivity]. }
  unfold conn_error. rewrite He. reflexivity.
Qed.

(** ** Forms used by the theorems *)

Lemma delivery_exact : forall client p nb nu md mdr br ur ops c sid D,
  srun (scnx0 client p nb nu md mdr br ur) ops = Some (c, true) ->
  peer_sends client sid -> no_reset sid ops -> wanted sid ops -> Forall (carries D) (frames_of sid ops) ->
  exists n, longest_covered (frames_of sid ops) n /\ n <= blen D /\ bytes_of sid (k_out c) = firstn (N.to_nat n) D.
Proof.
  intros client p nb nu md mdr br ur ops c sid D H Hp Hr Hw Hc.
  destruct (run_exact _ _ _ _ _ _ _ _ _ _ _ _ H Hp Hr Hw Hc) as ((n & A & B & C & _) & _). exists n. auto.
Qed.

Lemma fin_exact : forall client p nb nu md mdr br ur ops c sid D,
  srun (scnx0 client p nb nu md mdr br ur) ops = Some (c, true) ->
  peer_sends client sid -> no_reset sid ops -> wanted sid ops -> Forall (carries D) (frames_of sid ops) ->
  ((exists q, In q (pieces_of sid (k_out c)) /\ snd q = true) <->
   (exists f, In f (frames_of sid ops) /\ f_fin f = true) /\ (forall i, i < blen D -> covered (frames_of sid ops) i)) /\
  (forall q, In q (pieces_of sid (k_out c)) -> snd q = true -> bytes_of sid (k_out c) = D).
Proof.
  intros client p nb nu md mdr br ur ops c sid D H Hp Hr Hw Hc.
  destruct (run_exact _ _ _ _ _ _ _ _ _ _ _ _ H Hp Hr Hw Hc) as ((n & (A1 & A2) & B & C & E) & _).
  split.
  - rewrite E. split; intros [F G]; (split; [exact F|]).
    + subst n. exact A1.
    + destruct (N.lt_ge_cases n (blen D)) as [L|L]; [|lia]. exfalso. apply A2, G, L.
  - intros q Hq Hs. destruct (proj1 E (ex_intro _ q (conj Hq Hs))) as [_ ->]. unfold bytes_of. change (concat (map fst (pieces_of sid (k_out c)))) with (total (pieces_of sid (k_out c))).
    rewrite C. unfold blen. rewrite Nat2N.id. apply firstn_all.
Qed.
