(** Lemmas about the stream table. *)
From Coq Require Import FinFun Permutation.
From Verif Require Import Base Reasm_model Reasm_spec Reasm_proofs Stream_model Stream_spec.

Lemma nodup_app : forall (A : Type) (a b : list A), NoDup a -> NoDup b -> (forall x, In x b -> ~ In x a) -> NoDup (a ++ b).
Proof.
  induction a as [|x a IH]; intros b Ha Hb H; [exact Hb|]. inversion Ha; subst. cbn [app]. constructor.
  - intros Hx. apply in_app_or in Hx. destruct Hx as [Hx|Hx]; [contradiction|]. apply (H x Hx). left. reflexivity.
  - apply IH; [assumption|assumption|]. intros y Hy Hy2. apply (H y Hy). right. exact Hy2.
Qed.

(** ** The stream table *)

Definition ids (c : scnx) : list N := map s_id (k_streams c) ++ map fst (k_retired c).

(** Every id below the next one of its type is a live or a deleted stream. *)
Definition tinv (c : scnx) : Prop :=
  NoDup (ids c) /\ (forall id, In id (ids c) <-> id < k_next c (stream_type id)) /\
  (forall t, t < 4 -> k_next c t mod 4 = t).

Lemma lookup_in : forall c id s, lookup c id = Some s -> In s (k_streams c) /\ s_id s = id.
Proof. intros c id s H. unfold lookup in H. apply find_some in H. destruct H as [H1 H2]. split; [exact H1|]. apply N.eqb_eq. exact H2. Qed.

Lemma lookup_none : forall c id, lookup c id = None <-> ~ In id (map s_id (k_streams c)).
Proof.
  intros c id. unfold lookup. split.
  - intros H Hin. apply in_map_iff in Hin. destruct Hin as (s & Hs & Hin). pose proof (find_none _ _ H s Hin) as G. cbn in G. lia.
  - intros H. destruct (find _ _) as [s|] eqn:E; [|reflexivity]. apply find_some in E. destruct E as [E1 E2]. exfalso. apply H.
    apply in_map_iff. exists s. split; [lia|exact E1].
Qed.

Lemma lookup_some_in : forall c id s, lookup c id = Some s -> In id (map s_id (k_streams c)).
Proof. intros c id s H. apply lookup_in in H. destruct H as [H <-]. apply in_map. exact H. Qed.

Lemma find_map_put : forall (s : strm) l id,
  find (fun x => s_id x =? id) (map (fun x => if s_id x =? s_id s then s else x) l) =
  match find (fun x => s_id x =? id) l with Some x => Some (if s_id x =? s_id s then s else x) | None => None end.
Proof.
  intros s. induction l as [|x l IH]; intros id; [reflexivity|]. cbn [map find].
  destruct (N.eqb_spec (s_id x) (s_id s)) as [E|E].
  - rewrite E. destruct (N.eqb_spec (s_id s) id) as [G|G].
    + rewrite E, N.eqb_refl. reflexivity.
    + apply IH.
  - destruct (N.eqb_spec (s_id x) id) as [G|G].
    + destruct (N.eqb_spec (s_id x) (s_id s)); [contradiction|reflexivity].
    + apply IH.
Qed.

Lemma lookup_put : forall c s id, lookup (put c s) id =
  match lookup c id with Some x => Some (if id =? s_id s then s else x) | None => None end.
Proof.
  intros c s id. unfold lookup, put. cbn [k_streams set_streams]. rewrite find_map_put.
  destruct (find (fun x => s_id x =? id) (k_streams c)) as [x|] eqn:E; [|reflexivity].
  apply find_some in E. destruct E as [_ E]. cbn in E. assert (s_id x = id) as <- by lia. reflexivity.
Qed.

Lemma put_ids : forall c s, ids (put c s) = ids c.
Proof.
  intros c s. unfold ids, put. cbn [k_streams k_retired set_streams]. f_equal. rewrite map_map. apply map_ext.
  intros x. destruct (N.eqb_spec (s_id x) (s_id s)); auto.
Qed.

Lemma tinv_same : forall c c', ids c' = ids c -> k_next c' = k_next c -> tinv c -> tinv c'.
Proof. intros c c' H1 H2 (A & B & C). unfold tinv. rewrite H1, H2. split; [exact A|]. split; assumption. Qed.

Lemma tinv_put : forall c s, tinv c -> tinv (put c s).
Proof. intros. eapply tinv_same; [apply put_ids|reflexivity|assumption]. Qed.

Lemma conn_error_streams : forall c e, k_streams (conn_error c e) = k_streams c /\ k_next (conn_error c e) = k_next c /\
  k_retired (conn_error c e) = k_retired c /\ k_out (conn_error c e) = k_out c /\ k_client (conn_error c e) = k_client c /\ k_par (conn_error c e) = k_par c.
Proof. intros c e. unfold conn_error. destruct (k_err c); repeat split. Qed.

(** ** Views *)

(** What is known of one stream: never opened; live, with its receiving half,
    whether the application still wants the data and the limit of the peer;
    deleted, with the highest offset. *)
Inductive view := VNone | VLive (r : rx) (g : bool * N) | VRet (off : N).

Definition is_open (s : strm) : bool := negb (s_stop_req s || s_discarded s).
Definition gm (s : strm) : bool * N := (is_open s, s_md_remote s).

Definition view_of (c : scnx) (sid : N) : view :=
  match lookup c sid with
  | Some s => VLive (s_rx s) (gm s)
  | None => match find (fun p => fst p =? sid) (k_retired c) with Some p => VRet (snd p) | None => VNone end
  end.

Definition rx0 (md : N) : rx := mk_rx false false false false 0 0 md [].

Definition rx_done (r : rx) : bool :=
  (rx_fin_received r && rx_fin_signalled r) || (rx_reset_received r && rx_reset_signalled r).

(** The receiving half after a RESET_STREAM frame. *)
Definition rx_reset (r : rx) (final : N) : rx :=
  mk_rx (rx_fin_received r) (rx_fin_signalled r) true true (rx_consumed r) (N.max (rx_fin_offset r) final) (rx_maxdata r) (rx_chunks r).

(** A frame, a reset, the application refusing the data, a new limit sent and a new
    limit received. *)
Inductive label := LFrame (f : sframe) | LReset (final : N) | LGate | LMaxL (v : N) | LMaxR (v : N).

(** Fixed facts of one stream: the peer cannot send on it; limits at creation;
    whether an error was raised. *)
Record vpar := mk_vp { vp_uni : bool; vp_l : N; vp_r : N; vp_err : bool }.

Inductive vt (u : vpar) : view -> list label -> list piece -> view -> Prop :=
| vt_refl : forall v, vt u v [] [] v
| vt_trans : forall v1 l1 p1 v2 l2 p2 v3, vt u v1 l1 p1 v2 -> vt u v2 l2 p2 v3 -> vt u v1 (l1 ++ l2) (p1 ++ p2) v3
| vt_create : vt u VNone [] [] (VLive (rx0 (vp_l u)) (true, vp_r u))
| vt_maxl : forall r g v, vt u (VLive r g) [LMaxL v] [] (VLive (if rx_maxdata r <? v then r_set_maxdata r v else r) g)
| vt_maxl_none : forall v, vt u VNone [LMaxL v] [] VNone
| vt_maxr : forall r g v, vt u (VLive r g) [LMaxR v] [] (VLive r (fst g, N.max (snd g) v))
| vt_maxr_none : forall v, vp_err u = true -> vt u VNone [LMaxR v] [] VNone
| vt_gate : forall r g, vt u (VLive r g) [LGate] [] (VLive r (false, snd g))
| vt_no_gate : forall v, vt u v [LGate] [] v
| vt_retire : forall r g, rx_done r = true \/ vp_uni u = true -> vt u (VLive r g) [] [] (VRet (rx_fin_offset r))
| vt_ignored : forall o l, vt u (VRet o) [l] [] (VRet o)
| vt_stream : forall r g f r' ps,
    f_end f < two62 ->
    (rx_fin_received r = true -> if f_fin f then rx_fin_offset r = f_end f else f_end f <= rx_fin_offset r) ->
    f_end f <= N.max (rx_fin_offset r) (rx_maxdata r) ->
    rx_input (rx_note r (f_fin f) (f_end f)) (f_off f) (f_data f) (f_fin f && negb (rx_fin_received r)) = Some (r', ps) ->
    vt u (VLive r g) [LFrame f] (if fst g then ps else []) (VLive r' g)
| vt_reset : forall r g final,
    ((rx_fin_received r || rx_reset_received r) = true -> final = rx_fin_offset r) ->
    final <= rx_maxdata r ->
    vt u (VLive r g) [LReset final] [] (VLive (if rx_reset_received r then r else rx_reset r final) g).

(** ** Effect of the helpers on the views *)

Definition same_view (c c' : scnx) : Prop :=
  (forall sid, view_of c' sid = view_of c sid) /\ k_out c' = k_out c /\ ids c' = ids c /\ k_next c' = k_next c /\ k_client c' = k_client c.

Lemma same_view_of : forall c c', k_streams c' = k_streams c -> k_retired c' = k_retired c -> k_out c' = k_out c ->
  k_next c' = k_next c -> k_client c' = k_client c -> same_view c c'.
Proof.
  intros c c' H1 H2 H3 H4 H5. split; [|split; [exact H3|split; [|split; [exact H4|exact H5]]]].
  - intros sid. unfold view_of, lookup. rewrite H1, H2. reflexivity.
  - unfold ids. rewrite H1, H2. reflexivity.
Qed.

Lemma same_view_tinv : forall c c', same_view c c' -> tinv c -> tinv c'.
Proof. intros c c' (_ & _ & H1 & H2 & _). apply tinv_same; assumption. Qed.

Lemma same_view_trans : forall a b c, same_view a b -> same_view b c -> same_view a c.
Proof.
  intros a b c (A1 & A2 & A3 & A4 & A5) (B1 & B2 & B3 & B4 & B5).
  split; [intros sid; rewrite B1; apply A1|]. split; [congruence|]. split; [congruence|]. split; congruence.
Qed.

Lemma same_view_refl : forall a, same_view a a.
Proof. intros a. split; [reflexivity|]. split; [reflexivity|]. split; [reflexivity|]. split; reflexivity. Qed.

Lemma conn_error_view : forall c e, same_view c (conn_error c e).
Proof. intros c e. destruct (conn_error_streams c e) as (A & B & C & D & E & _). apply same_view_of; assumption. Qed.

Lemma view_put : forall c s sid, view_of (put c s) sid =
  match lookup c sid with
  | Some x => if sid =? s_id s then VLive (s_rx s) (gm s) else VLive (s_rx x) (gm x)
  | None => view_of c sid
  end.
Proof.
  intros c s sid. unfold view_of. rewrite lookup_put. destruct (lookup c sid) as [x|]; [|reflexivity].
  destruct (sid =? s_id s); reflexivity.
Qed.

Lemma put_other : forall c s sid, sid <> s_id s -> view_of (put c s) sid = view_of c sid.
Proof.
  intros c s sid H. rewrite view_put. unfold view_of. destruct (lookup c sid) as [x|]; [|reflexivity].
  destruct (N.eqb_spec sid (s_id s)); [contradiction|reflexivity].
Qed.

Lemma put_this : forall c s s0, lookup c (s_id s) = Some s0 -> view_of (put c s) (s_id s) = VLive (s_rx s) (gm s).
Proof. intros c s s0 H. rewrite view_put, H, N.eqb_refl. reflexivity. Qed.

Lemma find_retired : forall (l : list (N * N)) sid, (exists p, find (fun p => fst p =? sid) l = Some p) <-> In sid (map fst l).
Proof.
  intros l sid. split.
  - intros (p & Hp). apply find_some in Hp. destruct Hp as [Hp E]. apply N.eqb_eq in E. subst sid. apply in_map. exact Hp.
  - intros H. destruct (find _ l) as [p|] eqn:E; [eauto|]. exfalso. apply in_map_iff in H. destruct H as (p & <- & Hp).
    pose proof (find_none _ _ E _ Hp) as X. cbn in X. rewrite N.eqb_refl in X. discriminate.
Qed.

Lemma view_none : forall c sid, view_of c sid = VNone <-> ~ In sid (ids c).
Proof.
  intros c sid. unfold view_of, ids. rewrite in_app_iff. destruct (lookup c sid) as [s|] eqn:E.
  - split; [discriminate|]. intros H. exfalso. apply H. left. eapply lookup_some_in. exact E.
  - apply lookup_none in E. destruct (find _ _) as [p|] eqn:X.
    + split; [discriminate|]. intros H. exfalso. apply H. right. apply find_retired. eauto.
    + split; [|reflexivity]. intros _ [H|H]; [contradiction|]. apply find_retired in H. destruct H. congruence.
Qed.

Lemma view_ret : forall c sid, tinv c -> (exists o, view_of c sid = VRet o) <-> In sid (map fst (k_retired c)).
Proof.
  intros c sid (A & _). unfold view_of. destruct (lookup c sid) as [s|] eqn:E.
  - split; [intros (o & H); discriminate|]. intros H. exfalso. apply lookup_some_in in E. unfold ids in A.
    clear - A E H. induction (map s_id (k_streams c)) as [|x l IH]; [contradiction|]. cbn [app] in A. inversion A; subst.
    destruct E as [->|E]; [|apply IH; assumption]. apply H2. apply in_or_app. right. exact H.
  - rewrite <- find_retired. destruct (find _ _) as [p|] eqn:X.
    + split; [eauto|]. intros _. eexists. reflexivity.
    + split; [intros (o & H); discriminate|]. intros (p & H). discriminate.
Qed.

(** The peer cannot send on the stream. *)
Definition tx_only (client : bool) (sid : N) : bool := negb (is_bidir_id sid) && is_local_id sid client.

Definition lim_l (client : bool) (p : params) (id : N) : N :=
  if is_local_id id client then (if is_bidir_id id then p_lbl p else 0) else (if is_bidir_id id then p_lbr p else p_lu p).
Definition lim_r (client : bool) (p : params) (id : N) : N :=
  if is_local_id id client then (if is_bidir_id id then p_rbr p else p_ru p) else (if is_bidir_id id then p_rbl p else 0).
Definition vpc (c : scnx) (e : bool) (sid : N) : vpar :=
  mk_vp (tx_only (k_client c) sid) (lim_l (k_client c) (k_par c) sid) (lim_r (k_client c) (k_par c) sid) e.

(** Fields that the handling of streams leaves alone. *)
Definition rest (c : scnx) :=
  (k_client c, k_md_l c, k_md_r c, k_maxb_l c, k_maxu_l c, k_maxb_r c, k_maxu_r c, k_par c, k_initb c, k_initu c).

Lemma rest_client : forall c c', rest c' = rest c -> k_client c' = k_client c.
Proof. intros c c' H. unfold rest in H. congruence. Qed.
Lemma rest_par : forall c c', rest c' = rest c -> k_par c' = k_par c.
Proof. intros c c' H. unfold rest in H. congruence. Qed.

Lemma conn_error_rest : forall c e, rest (conn_error c e) = rest c.
Proof. intros c e. unfold conn_error. destruct (k_err c); reflexivity. Qed.

(** A closed stream is one on which nothing more is expected from the peer. *)
Definition cok (client : bool) (s : strm) : Prop :=
  s_closed s = true -> rx_done (s_rx s) = true \/ tx_only client (s_id s) = true.

Definition winv (c : scnx) : Prop := tinv c /\ Forall (cok (k_client c)) (k_streams c).

Lemma winv_put : forall c s, winv c -> cok (k_client c) s -> winv (put c s).
Proof.
  intros c s (H1 & H2) Hs. split; [apply tinv_put; exact H1|]. unfold put. cbn [k_streams k_client set_streams].
  apply Forall_forall. intros x Hx. apply in_map_iff in Hx. destruct Hx as (y & <- & Hy).
  rewrite Forall_forall in H2. destruct (s_id y =? s_id s); [exact Hs|apply H2; exact Hy].
Qed.

Lemma winv_lookup : forall c sid s, winv c -> lookup c sid = Some s -> cok (k_client c) s.
Proof. intros c sid s (_ & H) Hl. apply lookup_in in Hl. rewrite Forall_forall in H. apply H. tauto. Qed.

Lemma winv_same : forall c c', k_streams c' = k_streams c -> k_retired c' = k_retired c -> k_next c' = k_next c ->
  k_client c' = k_client c -> winv c -> winv c'.
Proof.
  intros c c' H1 H2 H3 H4 (A & B). split; [|rewrite H1, H4; exact B].
  eapply tinv_same; [|exact H3|exact A]. unfold ids. rewrite H1, H2. reflexivity.
Qed.

(** The stream returned by [update_max] differs by its flag only, the connection by
    the computed limits only. *)
Lemma update_max_spec : forall c s c1 s1, update_max c s = (c1, s1) ->
  rest c1 = rest c /\ k_rcvd c1 = k_rcvd c /\ k_err c1 = k_err c /\ k_streams c1 = k_streams c /\
  k_retired c1 = k_retired c /\ k_next c1 = k_next c /\ k_out c1 = k_out c /\
  s_id s1 = s_id s /\ s_rx s1 = s_rx s /\ gm s1 = gm s /\ s_tx s1 = s_tx s /\
  s_closed s1 = s_closed s /\ s_md_remote s1 = s_md_remote s.
Proof.
  intros c s c1 s1 H. unfold update_max in H.
  repeat match type of H with context [if ?b then _ else _] => destruct b end;
  injection H as <- <-; repeat split.
Qed.

Lemma is_stream_closed_spec : forall s client, is_stream_closed s client = true ->
  rx_done (s_rx s) = true \/ tx_only client (s_id s) = true.
Proof.
  intros s client H. unfold is_stream_closed in H. unfold tx_only, rx_done.
  destruct (is_bidir_id (s_id s)); [apply andb_prop in H; left; tauto|].
  destruct (is_local_id (s_id s) client); [right; reflexivity|left; exact H].
Qed.

Lemma filter_ids : forall l id, map s_id (filter (fun x => negb (s_id x =? id)) l) = filter (fun x => negb (x =? id)) (map s_id l).
Proof.
  induction l as [|x l IH]; intros id; [reflexivity|]. cbn [filter map]. destruct (s_id x =? id); cbn [negb map]; [apply IH|f_equal; apply IH].
Qed.

Lemma find_filter_id : forall l id sid, sid <> id ->
  find (fun s => s_id s =? sid) (filter (fun x => negb (s_id x =? id)) l) = find (fun s => s_id s =? sid) l.
Proof.
  induction l as [|x l IH]; intros id sid H; [reflexivity|]. cbn [filter find].
  destruct (N.eqb_spec (s_id x) id) as [E|E]; cbn [negb find].
  - destruct (N.eqb_spec (s_id x) sid); [congruence|]. apply IH. exact H.
  - destruct (s_id x =? sid); [reflexivity|]. apply IH. exact H.
Qed.

(** Sum over all streams of the highest offset. *)
Definition fo (s : strm) : N := rx_fin_offset (s_rx s).
Definition sumS (l : list strm) : N := fold_right (fun s n => fo s + n) 0 l.
Definition sumR (l : list (N * N)) : N := fold_right (fun p n => snd p + n) 0 l.
Definition sumoff (c : scnx) : N := sumS (k_streams c) + sumR (k_retired c).

Lemma sumS_cons : forall x l, sumS (x :: l) = fo x + sumS l.
Proof. reflexivity. Qed.

Lemma sumS_app : forall a b, sumS (a ++ b) = sumS a + sumS b.
Proof. induction a as [|s a IH]; intros b; cbn [app]; [reflexivity|]. rewrite !sumS_cons, IH. lia. Qed.

Lemma sumS_map_other : forall s l, ~ In (s_id s) (map s_id l) -> map (fun x => if s_id x =? s_id s then s else x) l = l.
Proof.
  intros s. induction l as [|x l IH]; intros H; [reflexivity|]. cbn [map] in *. cbn [In] in H.
  destruct (N.eqb_spec (s_id x) (s_id s)) as [E|E]; [exfalso; apply H; left; exact E|]. rewrite IH by tauto. reflexivity.
Qed.

Lemma sumS_put : forall s s0 l, NoDup (map s_id l) -> find (fun x => s_id x =? s_id s) l = Some s0 ->
  sumS (map (fun x => if s_id x =? s_id s then s else x) l) + fo s0 = sumS l + fo s.
Proof.
  intros s s0. induction l as [|x l IH]; intros Hn Hf; cbn [find] in Hf; [discriminate|]. cbn [map] in Hn |- *. inversion Hn as [|y z Hy Hz]. subst.
  destruct (N.eqb_spec (s_id x) (s_id s)) as [E|E].
  - injection Hf as <-. rewrite sumS_map_other by (rewrite <- E; exact Hy). rewrite !sumS_cons. lia.
  - rewrite !sumS_cons. specialize (IH Hz Hf). lia.
Qed.

Lemma filter_other : forall id l, ~ In id (map s_id l) -> filter (fun x => negb (s_id x =? id)) l = l.
Proof.
  intros id. induction l as [|x l IH]; intros H; [reflexivity|]. cbn [map filter] in *. cbn [In] in H.
  destruct (N.eqb_spec (s_id x) id) as [E|E]; [exfalso; apply H; left; exact E|]. cbn [negb]. rewrite IH by tauto. reflexivity.
Qed.

Lemma sumS_filter : forall id s0 l, NoDup (map s_id l) -> find (fun x => s_id x =? id) l = Some s0 ->
  sumS (filter (fun x => negb (s_id x =? id)) l) + fo s0 = sumS l.
Proof.
  intros id s0. induction l as [|x l IH]; intros Hn Hf; cbn [find] in Hf; [discriminate|]. cbn [map filter] in Hn |- *. inversion Hn as [|y z Hy Hz]. subst.
  destruct (N.eqb_spec (s_id x) id) as [E|E]; cbn [negb].
  - injection Hf as <-. rewrite filter_other by (rewrite <- E; exact Hy). rewrite !sumS_cons. lia.
  - rewrite !sumS_cons. specialize (IH Hz Hf). lia.
Qed.

Lemma tinv_nodup : forall c, tinv c -> NoDup (map s_id (k_streams c)).
Proof.
  intros c (A & _). unfold ids in A. clear - A. induction (map s_id (k_streams c)) as [|x l IH]; [constructor|].
  cbn [app] in A. inversion A; subst. constructor; [|apply IH; assumption]. intros H. apply H1. apply in_or_app. left. exact H.
Qed.

Lemma sum_put : forall c s s0, tinv c -> lookup c (s_id s) = Some s0 -> sumoff (put c s) + fo s0 = sumoff c + fo s.
Proof.
  intros c s s0 Ht Hl. unfold sumoff, put. cbn [set_streams k_streams k_retired].
  pose proof (sumS_put s s0 (k_streams c) (tinv_nodup c Ht) Hl). lia.
Qed.

(** No stream of the peer is above the limit. *)
Definition lim_ok (c : scnx) : Prop := forall id, In id (ids c) -> is_local_id id (k_client c) = false ->
  id <= (if is_bidir_id id then k_maxb_l c else k_maxu_l c).

Lemma lim_same : forall c c', (forall x, In x (ids c') -> In x (ids c)) -> k_client c' = k_client c -> k_maxb_l c <= k_maxb_l c' -> k_maxu_l c <= k_maxu_l c' ->
  lim_ok c -> lim_ok c'.
Proof.
  intros c c' Hi Hc Hb Hu H id Hid Hl. rewrite Hc in Hl. specialize (H id (Hi _ Hid) Hl). destruct (is_bidir_id id); lia.
Qed.

Lemma rest_max : forall c c', rest c' = rest c -> k_maxb_l c' = k_maxb_l c /\ k_maxu_l c' = k_maxu_l c /\ k_md_l c' = k_md_l c.
Proof. intros c c' H. unfold rest in H. repeat split; congruence. Qed.

Lemma lim_rest : forall c c', (forall x, In x (ids c') -> In x (ids c)) -> rest c' = rest c -> lim_ok c -> lim_ok c'.
Proof.
  intros c c' Hi Hr. destruct (rest_max _ _ Hr) as (A & B & _). apply lim_same; [exact Hi|apply rest_client; exact Hr|lia|lia].
Qed.

Lemma delete_if_closed_spec : forall c s s0, winv c -> cok (k_client c) s -> lookup c (s_id s) = Some s0 ->
  let c' := delete_if_closed c s in
  winv c' /\ k_out c' = k_out c /\ rest c' = rest c /\ k_rcvd c' = k_rcvd c /\ k_err c' = k_err c /\ k_next c' = k_next c /\
  (forall sid, sid <> s_id s -> view_of c' sid = view_of c sid) /\
  (forall e, vt (vpc c e (s_id s)) (VLive (s_rx s) (gm s)) [] [] (view_of c' (s_id s))) /\
  sumoff c' + fo s0 = sumoff c + fo s /\ (lim_ok c -> lim_ok c').
Proof.
  intros c s s0 Hw Hk Hl. unfold delete_if_closed.
  destruct (if negb (s_closed s) && is_stream_closed s (k_client c) then let '(c1, s1) := update_max c s in (c1, s_set_closed s1 true) else (c, s)) as [c1 s1] eqn:E.
  assert (Hcs : rest c1 = rest c /\ k_rcvd c1 = k_rcvd c /\ k_err c1 = k_err c /\ k_streams c1 = k_streams c /\
     k_retired c1 = k_retired c /\ k_next c1 = k_next c /\ k_out c1 = k_out c /\
     s_id s1 = s_id s /\ s_rx s1 = s_rx s /\ gm s1 = gm s /\ cok (k_client c) s1).
  { destruct (negb (s_closed s) && is_stream_closed s (k_client c)) eqn:Ec.
    - destruct (update_max c s) as [c2 s2] eqn:Eu. injection E as <- <-.
      destruct (update_max_spec _ _ _ _ Eu) as (U1 & U2 & U3 & U4 & U5 & U6 & U7 & U8 & U9 & U10 & U11 & U12 & U13).
      apply andb_prop in Ec. destruct Ec as [_ Ec]. apply is_stream_closed_spec in Ec.
      repeat split; try assumption. unfold cok, s_set_closed. cbn [s_rx s_id s_closed]. rewrite U8, U9. intros _. exact Ec.
    - injection E as <- <-. repeat split. exact Hk. }
  clear E. destruct Hcs as (U1 & U2 & U3 & U4 & U5 & U6 & U7 & U8 & U9 & U10 & U11).
  assert (Hw1 : winv c1) by (eapply winv_same; try eassumption; eapply rest_client; exact U1).
  assert (Hl1 : lookup c1 (s_id s1) = Some s0) by (unfold lookup; rewrite U4, U8; exact Hl).
  assert (Hv1 : forall sid, view_of c1 sid = view_of c sid) by (intros sid; unfold view_of, lookup; rewrite U4, U5; reflexivity).
  destruct (s_closed s1 && is_stream_acked s1) eqn:Ed.
  - apply andb_prop in Ed. destruct Ed as [Ed _]. pose proof (U11 Ed) as Hdone.
    destruct Hw1 as ((T1 & T2 & T3) & T4).
    assert (Hin : In (s_id s1) (map s_id (k_streams c1))) by (eapply lookup_some_in; exact Hl1).
    set (c' := add_retired _ _ _).
    assert (Hids : forall x, In x (ids c') <-> In x (ids c1)).
    { intros x. unfold ids, c'. cbn [add_retired set_streams k_streams k_retired map fst]. rewrite filter_ids, !in_app_iff, filter_In.
      cbn [In]. destruct (N.eqb_spec x (s_id s1)) as [->|Hne]; cbn [negb]; [tauto|].
      split; [intros [[H _]|[H|H]]|intros [H|H]]; try tauto. congruence. }
    assert (Hw' : winv c').
    { split; [split; [|split]|].
      - unfold ids, c'. cbn [add_retired set_streams k_streams k_retired map fst]. rewrite filter_ids.
        apply NoDup_Add with (a := s_id s1) (l := filter (fun x => negb (x =? s_id s1)) (map s_id (k_streams c1)) ++ map fst (k_retired c1)).
        + apply Add_app.
        + unfold ids in T1. split.
          * clear - T1. induction (map s_id (k_streams c1)) as [|y l IH]; [exact T1|]. cbn [app] in T1. inversion T1; subst. cbn [filter].
            destruct (negb (y =? s_id s1)); [|apply IH; assumption]. cbn [app]. constructor; [|apply IH; assumption].
            intros Hy. apply H1. apply in_app_or in Hy. apply in_or_app. destruct Hy as [Hy|Hy]; [left|right; exact Hy].
            apply filter_In in Hy. tauto.
          * intros Hx. apply in_app_or in Hx. destruct Hx as [Hx|Hx].
            { apply filter_In in Hx. destruct Hx as [_ Hx]. rewrite N.eqb_refl in Hx. discriminate. }
            { apply in_split in Hin. destruct Hin as (a & b & Hab). rewrite Hab in T1. rewrite <- app_assoc in T1.
              apply NoDup_remove_2 in T1. apply T1. apply in_or_app. right. apply in_or_app. right. exact Hx. }
      - intros id. rewrite Hids. apply T2.
      - exact T3.
      - unfold c'. cbn [add_retired set_streams k_streams k_client]. apply Forall_forall. intros x Hx. apply filter_In in Hx.
        rewrite Forall_forall in T4. apply T4. tauto. }
    split; [exact Hw'|]. split; [exact U7|]. split; [exact U1|]. split; [exact U2|]. split; [exact U3|]. split; [exact U6|].
    assert (Hthis : view_of c' (s_id s1) = VRet (rx_fin_offset (s_rx s1))).
    { unfold view_of. assert (lookup c' (s_id s1) = None) as ->.
      { apply lookup_none. unfold c'. cbn [add_retired set_streams k_streams]. rewrite filter_ids, filter_In. intros [_ X]. rewrite N.eqb_refl in X. discriminate. }
      unfold c'. cbn [add_retired set_streams k_retired find fst]. rewrite N.eqb_refl. reflexivity. }
    split; [|split; [|split]].
    + intros sid Hne. rewrite <- U8 in Hne. rewrite <- Hv1. unfold view_of, lookup, c'. cbn [add_retired set_streams k_streams k_retired find fst].
      rewrite find_filter_id by exact Hne. destruct (N.eqb_spec (s_id s1) sid); [congruence|]. reflexivity.
    + intros e. rewrite <- U8, Hthis, <- U9, <- U10. rewrite U8 in Hdone. rewrite U8. apply vt_retire. exact Hdone.
    + unfold sumoff, c'. cbn [add_retired set_streams k_streams k_retired sumR fold_right snd]. fold (sumR (k_retired c1)).
      pose proof (sumS_filter (s_id s1) s0 (k_streams c1) (tinv_nodup c1 (conj T1 (conj T2 T3))) Hl1) as X. rewrite U4, U5 in *. unfold fo in *. rewrite U9. lia.
    + apply lim_rest; [|exact U1]. intros x Hx. apply Hids in Hx. unfold ids in *. rewrite U4, U5 in Hx. exact Hx.
  - assert (Hw' : winv (put c1 s1)).
    { apply winv_put; [exact Hw1|]. rewrite (rest_client _ _ U1). exact U11. }
    split; [exact Hw'|]. split; [exact U7|]. split; [exact U1|]. split; [exact U2|]. split; [exact U3|]. split; [exact U6|].
    split; [|split; [|split]].
    + intros sid Hne. rewrite put_other by (rewrite U8; exact Hne). apply Hv1.
    + intros e. rewrite <- U8, (put_this _ _ _ Hl1), U9, U10. apply vt_refl.
    + destruct Hw1 as [Ht1 _]. pose proof (sum_put c1 s1 s0 Ht1 Hl1) as X. unfold sumoff in X at 2. rewrite U4, U5 in X. fold (sumoff c) in X. unfold fo in *. rewrite U9 in X. exact X.
    + apply lim_rest; [|exact U1]. intros x Hx. rewrite put_ids in Hx. unfold ids in *. rewrite U4, U5 in Hx. exact Hx.
Qed.

(** ** Creation of streams *)

Lemma same_type : forall a b client, stream_type a = stream_type b -> is_local_id a client = is_local_id b client /\ is_bidir_id a = is_bidir_id b.
Proof.
  intros a b client H. unfold stream_type in H. unfold is_local_id, is_bidir_id.
  assert (E : forall x, x mod 2 = (x mod 4) mod 2 /\ (x / 2) mod 2 = (x mod 4) / 2).
  { intros x. pose proof (N.div_mod x 4 ltac:(lia)). pose proof (N.mod_lt x 4 ltac:(lia)). generalize dependent (x / 4). generalize dependent (x mod 4). intros m Hm q Hx. subst x.
    replace (4 * q + m) with (m + (2 * q) * 2) by lia. rewrite N.mod_add, N.div_add by lia. split; [reflexivity|].
    replace (m / 2 + 2 * q) with (m / 2 + q * 2) by lia. rewrite N.mod_add by lia. apply N.mod_small. apply N.div_lt_upper_bound; lia. }
  destruct (E a) as [E1 E2], (E b) as [E3 E4]. rewrite E1, E2, E3, E4, H. split; reflexivity.
Qed.

(** The stream created for an id. *)
Definition fresh (client : bool) (p : params) (id : N) : strm :=
  let c := mk_scnx client [] (fun t => t) 0 0 0 0 0 0 0 0 0 0 0 p None [] [] in
  if negb (is_bidir_id id) && negb (is_local_id id client)
  then s_set_tx (new_stream c id) (mk_tx true true false false false false) else new_stream c id.

Lemma fresh_spec : forall client p id, s_id (fresh client p id) = id /\
  s_rx (fresh client p id) = rx0 (lim_l client p id) /\ gm (fresh client p id) = (true, lim_r client p id) /\ s_closed (fresh client p id) = false.
Proof.
  intros client p id. unfold fresh, new_stream, s_set_tx, lim_l, lim_r. cbn [k_client k_par].
  destruct (is_local_id id client), (is_bidir_id id); repeat split.
Qed.

(** Ids from [a] on, by steps of 4. *)
Definition idseq (a : N) (n : nat) : list N := map (fun k => a + 4 * N.of_nat k) (seq 0 n).

Lemma create_iter : forall n c t, t < 4 -> k_next c t mod 4 = t ->
  let c' := N.iter n (fun x => create_stream x (k_next x t)) c in
  k_streams c' = k_streams c ++ map (fresh (k_client c) (k_par c)) (idseq (k_next c t) (N.to_nat n)) /\
  (forall x, k_next c' x = if x =? t then k_next c t + 4 * n else k_next c x) /\
  rest c' = rest c /\ k_rcvd c' = k_rcvd c /\ k_err c' = k_err c /\ k_retired c' = k_retired c /\ k_out c' = k_out c /\
  k_compb c' = k_compb c /\ k_compu c' = k_compu c.
Proof.
  intros n c t Ht Hm. induction n as [|n IH] using N.peano_ind.
  - cbn [N.iter]. split; [cbn; symmetry; apply app_nil_r|]. split; [|repeat split].
    intros x. destruct (N.eqb_spec x t) as [->|]; [lia|reflexivity].
  - rewrite N.iter_succ. cbn zeta in *. set (c1 := N.iter n (fun x => create_stream x (k_next x t)) c) in *.
    destruct IH as (I1 & I2 & I3 & I4 & I5 & I6 & I7 & I8 & I9).
    pose proof (I2 t) as Hn. rewrite N.eqb_refl in Hn.
    assert (Hty : stream_type (k_next c1 t) = t).
    { unfold stream_type. rewrite Hn. rewrite <- N.add_mod_idemp_l, Hm by lia. replace (t + 4 * n) with (t + n * 4) by lia. rewrite N.mod_add by lia. apply N.mod_small. exact Ht. }
    unfold create_stream. rewrite Hty. rewrite N.leb_refl.
    split; [|split; [|repeat split; try assumption]].
    + cbn [set_next set_streams k_streams]. rewrite I1, <- app_assoc. f_equal. rewrite N2Nat.inj_succ. unfold idseq.
      rewrite seq_S, !map_app. f_equal. cbn [map]. f_equal. rewrite Nat.add_0_l, N2Nat.id, <- Hn.
      unfold fresh, new_stream. rewrite (rest_client _ _ I3), (rest_par _ _ I3). reflexivity.
    + intros x. cbn [set_next set_streams k_next]. destruct (N.eqb_spec x t) as [->|Hx]; [rewrite Hn; lia|].
      rewrite I2. destruct (N.eqb_spec x t); [contradiction|reflexivity].
Qed.

Lemma in_idseq : forall a n x, In x (idseq a n) <-> exists k, (k < n)%nat /\ x = a + 4 * N.of_nat k.
Proof.
  intros a n x. unfold idseq. rewrite in_map_iff. split.
  - intros (k & <- & Hk). apply in_seq in Hk. exists k. split; [lia|reflexivity].
  - intros (k & Hk & ->). exists k. split; [reflexivity|]. apply in_seq. lia.
Qed.

Lemma nodup_idseq : forall n a, NoDup (idseq a n).
Proof.
  intros n a. unfold idseq. apply FinFun.Injective_map_NoDup; [|apply seq_NoDup]. intros x y H. lia.
Qed.

Lemma mod4_lt : forall x, x mod 4 < 4.
Proof. intros. apply N.mod_lt. discriminate. Qed.

(** Same residue: the difference is a multiple. *)
Lemma mod4_diff : forall a b, a mod 4 = b mod 4 -> a <= b -> b = a + 4 * ((b - a) / 4).
Proof.
  intros a b H Hl. pose proof (N.div_mod a 4). pose proof (N.div_mod b 4).
  assert (E : b - a = (b / 4 - a / 4) * 4) by lia. rewrite E, N.div_mul by lia. lia.
Qed.

Lemma create_loop_spec : forall c id, winv c -> k_next c (stream_type id) <= id ->
  let c' := create_loop c id in
  winv c' /\ rest c' = rest c /\ k_rcvd c' = k_rcvd c /\ k_err c' = k_err c /\ k_retired c' = k_retired c /\ k_out c' = k_out c /\
  k_compb c' = k_compb c /\ k_compu c' = k_compu c /\
  (forall x, k_next c' x = if x =? stream_type id then id + 4 else k_next c x) /\
  (exists l, k_streams c' = k_streams c ++ map (fresh (k_client c) (k_par c)) l /\
     NoDup l /\ forall x, In x l <-> stream_type x = stream_type id /\ k_next c (stream_type id) <= x <= id).
Proof.
  intros c id Hw Hn. destruct Hw as ((T1 & T2 & T3) & T4).
  set (t := stream_type id) in *. assert (Ht : t < 4) by apply mod4_lt.
  pose proof (T3 t Ht) as Hm.
  assert (Hd : id = k_next c t + 4 * ((id - k_next c t) / 4)) by (apply mod4_diff; [exact Hm|exact Hn]).
  unfold create_loop. fold t. set (q := (id - k_next c t) / 4) in *.
  destruct (create_iter (q + 1) c t Ht Hm) as (I1 & I2 & I3 & I4 & I5 & I6 & I7 & I8 & I9).
  cbn zeta in *. set (c' := N.iter (q + 1) _ c) in *.
  set (l := idseq (k_next c t) (N.to_nat (q + 1))) in *.
  assert (Hl : forall x, In x l <-> stream_type x = t /\ k_next c t <= x <= id).
  { intros x. unfold l. rewrite in_idseq. split.
    - intros (k & Hk & ->). split; [|lia]. unfold stream_type. replace (k_next c t + 4 * N.of_nat k) with (k_next c t + N.of_nat k * 4) by lia.
      rewrite N.mod_add by lia. exact Hm.
    - intros (H1 & H2 & H3). assert (Hx : x = k_next c t + 4 * ((x - k_next c t) / 4)) by (apply mod4_diff; [unfold stream_type in H1; lia|lia]).
      exists (N.to_nat ((x - k_next c t) / 4)). split; [lia|]. rewrite N2Nat.id. exact Hx. }
  assert (Hnd : NoDup l) by apply nodup_idseq.
  assert (Hnext : forall x, k_next c' x = if x =? t then id + 4 else k_next c x).
  { intros x. rewrite I2. destruct (x =? t); [lia|reflexivity]. }
  assert (Hids : ids c' = map s_id (k_streams c) ++ l ++ map fst (k_retired c)).
  { unfold ids. rewrite I1, I6, map_app, <- app_assoc. f_equal. f_equal. rewrite map_map. rewrite <- (map_id l) at 2.
    apply map_ext. intros x. apply fresh_spec. }
  assert (Hin : forall x, In x (ids c') <-> In x (ids c) \/ In x l).
  { intros x. rewrite Hids. unfold ids. rewrite !in_app_iff. tauto. }
  assert (Hdis : forall x, In x l -> ~ In x (ids c)).
  { intros x Hx Hi. apply Hl in Hx. apply T2 in Hi. destruct Hx as (E & H1 & H2). rewrite E in Hi. lia. }
  split; [|split; [exact I3|repeat split; try assumption; exists l; split; [exact I1|split; [exact Hnd|exact Hl]]]].
  split; [split; [|split]|].
  - rewrite Hids.
    assert (P : Permutation.Permutation (ids c ++ l) (map s_id (k_streams c) ++ l ++ map fst (k_retired c))).
    { unfold ids. rewrite <- app_assoc. apply Permutation.Permutation_app_head. apply Permutation.Permutation_app_comm. }
    eapply Permutation.Permutation_NoDup; [exact P|].
    apply nodup_app; assumption.
  - intros x. rewrite Hin, Hnext, Hl, T2. destruct (N.eqb_spec (stream_type x) t) as [E|E].
    + rewrite E. split; [intros [H|H]; lia|]. intros H. destruct (N.lt_ge_cases x (k_next c t)); [left; assumption|right].
      split; [reflexivity|]. split; [assumption|].
      pose proof (mod4_diff id x). pose proof (N.div_mod id 4). pose proof (N.div_mod x 4).
      unfold stream_type in E. assert (Ex : x mod 4 = id mod 4) by (rewrite E; reflexivity). lia.
    + split; [intros [H|H]; [exact H|destruct H; congruence]|intros H; left; exact H].
  - intros x Hx. rewrite Hnext. destruct (N.eqb_spec x t) as [->|]; [|apply T3; exact Hx].
    replace (id + 4) with (id + 1 * 4) by lia. rewrite N.mod_add by lia. reflexivity.
  - rewrite I1, (rest_client _ _ I3). apply Forall_app. split; [exact T4|]. apply Forall_forall. intros x Hx.
    apply in_map_iff in Hx. destruct Hx as (y & <- & _). intros Hcl. destruct (fresh_spec (k_client c) (k_par c) y) as (_ & _ & _ & F). congruence.
Qed.

(** ** Monotonicity of the flags *)

Lemma chunk_callback_mono : forall r d r' ps, chunk_callback r d = (r', ps) ->
  same_frame r r' /\ (rx_fin_signalled r = true -> rx_fin_signalled r' = true) /\ rx_consumed r <= rx_consumed r' /\ rx_chunks r' = rx_chunks r.
Proof.
  intros r d r' ps H. unfold chunk_callback in H. injection H as <- <-. split; [repeat split|].
  cbn [rx_fin_signalled rx_consumed rx_chunks]. split; [intros ->; reflexivity|]. split; [lia|reflexivity].
Qed.

Lemma drain_mono : forall t r r' ps, drain t r = (r', ps) ->
  same_frame r r' /\ (rx_fin_signalled r = true -> rx_fin_signalled r' = true) /\ rx_consumed r <= rx_consumed r'.
Proof.
  induction t as [|x t IH]; intros r r' ps H; cbn [drain] in H.
  - injection H as <- <-. split; [repeat split|]. split; [auto|]. cbn [set_chunks rx_consumed]. lia.
  - destruct (c_off x <=? rx_consumed r).
    + destruct (rx_consumed r - c_off x <=? blen (c_data x)).
      * destruct (chunk_callback r _) as [r1 p1] eqn:E1. destruct (drain t r1) as [r2 p2] eqn:E2. injection H as <- <-.
        apply chunk_callback_mono in E1. apply IH in E2. destruct E1 as (A & B & C & _), E2 as (A' & B' & C').
        split; [eapply same_frame_trans; eassumption|]. split; [auto|lia].
      * eapply IH. exact H.
    + injection H as <- <-. split; [repeat split|]. split; [auto|]. cbn [set_chunks rx_consumed]. lia.
Qed.

Lemma data_callback_mono : forall r r' ps, data_callback r = (r', ps) ->
  same_frame r r' /\ (rx_fin_signalled r = true -> rx_fin_signalled r' = true) /\ rx_consumed r <= rx_consumed r'.
Proof.
  intros r r' ps H. unfold data_callback in H. destruct (drain _ r) as [r1 p1] eqn:E1. destruct (chunk_callback r1 []) as [r2 p2] eqn:E2.
  injection H as <- <-. apply drain_mono in E1. apply chunk_callback_mono in E2. destruct E1 as (A & B & C), E2 as (A' & B' & C' & _).
  split; [eapply same_frame_trans; eassumption|]. split; [auto|lia].
Qed.

Lemma rx_input_mono : forall r off d n r' ps, rx_input r off d n = Some (r', ps) ->
  same_frame r r' /\ (rx_fin_signalled r = true -> rx_fin_signalled r' = true) /\ rx_consumed r <= rx_consumed r'.
Proof.
  intros r off d n r' ps H. unfold rx_input in H. destruct (off <=? rx_consumed r).
  - destruct (rx_consumed r <=? off + blen d).
    + destruct (chunk_callback r _) as [r1 p1] eqn:E1. destruct (data_callback r1) as [r2 p2] eqn:E2. injection H as <- <-.
      apply chunk_callback_mono in E1. apply data_callback_mono in E2. destruct E1 as (A & B & C & _), E2 as (A' & B' & C').
      split; [eapply same_frame_trans; eassumption|]. split; [auto|lia].
    + injection H as <- <-. split; [repeat split|]. split; [auto|lia].
  - destruct (queue_network_input _ _ _ _) as [[t new]|]; [|discriminate]. destruct (n || new).
    + destruct (data_callback (set_chunks r t)) as [r2 p2] eqn:E2. injection H as <- <-. apply data_callback_mono in E2. exact E2.
    + injection H as <- <-. split; [repeat split|]. split; [auto|]. cbn [set_chunks rx_consumed]. lia.
Qed.

(** ** Finding or creating a stream *)

Definition mild (c c' : scnx) : Prop :=
  winv c' /\ rest c' = rest c /\ k_out c' = k_out c /\ k_rcvd c' = k_rcvd c /\ k_retired c' = k_retired c /\
  (forall sid e, vt (vpc c e sid) (view_of c sid) [] [] (view_of c' sid)) /\
  sumoff c' = sumoff c /\ (lim_ok c -> lim_ok c') /\ (k_err c <> None -> k_err c' <> None).

Lemma mild_refl : forall c, winv c -> mild c c.
Proof. intros c H. split; [exact H|]. repeat split; auto. intros sid e. apply vt_refl. Qed.

Lemma conn_error_sticky : forall c e, k_err (conn_error c e) <> None.
Proof. intros x e. unfold conn_error. destruct (k_err x) eqn:E; [rewrite E; discriminate|discriminate]. Qed.

Lemma winv_error : forall c e, winv c -> winv (conn_error c e).
Proof. intros c e H. destruct (conn_error_streams c e) as (A & B & C & D & E & F). eapply winv_same; eassumption. Qed.

Lemma mild_error : forall c e, winv c -> mild c (conn_error c e).
Proof.
  intros c e H. destruct (conn_error_streams c e) as (A & B & C & D & E & F). split; [apply winv_error; exact H|].
  split; [apply conn_error_rest|]. split; [exact D|]. split; [unfold conn_error; destruct (k_err c); reflexivity|]. split; [exact C|].
  split; [intros sid e'; unfold view_of, lookup; rewrite A, C; apply vt_refl|]. split; [unfold sumoff; rewrite A, C; reflexivity|].
  split; [apply lim_rest; [unfold ids; rewrite A, C; auto|apply conn_error_rest]|]. intros _. apply conn_error_sticky.
Qed.

Lemma find_app : forall (A : Type) (f : A -> bool) a b, find f (a ++ b) = match find f a with Some x => Some x | None => find f b end.
Proof. induction a as [|x a IH]; intros b; [reflexivity|]. cbn [app find]. destruct (f x); [reflexivity|apply IH]. Qed.

Lemma create_loop_lookup : forall c id, winv c -> k_next c (stream_type id) <= id -> forall sid,
  lookup (create_loop c id) sid =
  match lookup c sid with
  | Some s => Some s
  | None => if (stream_type sid =? stream_type id) && (k_next c (stream_type id) <=? sid) && (sid <=? id)
            then Some (fresh (k_client c) (k_par c) sid) else None
  end.
Proof.
  intros c id Hw Hn sid. destruct (create_loop_spec c id Hw Hn) as (_ & _ & _ & _ & _ & _ & _ & _ & _ & (l & E & Hnd & Hl)).
  unfold lookup. rewrite E, find_app. destruct (find _ (k_streams c)) as [s|]; [reflexivity|].
  specialize (Hl sid). clear - Hl. set (b := _ && _ && _).
  assert (Hb : b = true <-> In sid l).
  { rewrite Hl. unfold b. rewrite !andb_true_iff, N.eqb_eq, !N.leb_le. tauto. }
  clear Hl. clearbody b. revert Hb. induction l as [|x l IH]; intros Hb.
  - cbn [map find]. destruct b; [|reflexivity]. exfalso. apply Hb. reflexivity.
  - cbn [map find]. destruct (fresh_spec (k_client c) (k_par c) x) as (-> & _). destruct (N.eqb_spec x sid) as [->|Hne].
    + assert (b = true) as -> by (apply Hb; left; reflexivity). reflexivity.
    + apply IH. rewrite Hb. cbn [In]. tauto.
Qed.

Lemma create_missing_spec : forall c id rem c' ok, winv c -> create_missing c id rem = (c', ok) ->
  mild c c' /\
  (ok = true -> lookup c id = None /\ lookup c' id = Some (fresh (k_client c) (k_par c) id) /\ k_err c' = k_err c /\
                k_next c (stream_type id) <= id) /\
  (ok = false -> k_streams c' = k_streams c /\ k_next c' = k_next c /\ (k_err c' = k_err c /\ c' = c /\ rem = true /\ id < k_next c (stream_type id) \/ k_err c' <> None)).
Proof.
  intros c id rem c' ok Hw H. unfold create_missing in H.
  assert (Herr : forall e, k_streams (conn_error c e) = k_streams c /\ k_next (conn_error c e) = k_next c /\
     (k_err (conn_error c e) = k_err c /\ conn_error c e = c /\ rem = true /\ id < k_next c (stream_type id) \/ k_err (conn_error c e) <> None)).
  { intros e. unfold conn_error. destruct (k_err c) eqn:E; cbn; (split; [reflexivity|]; split; [reflexivity|]; right; congruence). }
  destruct (rem && (id <? k_next c (stream_type id))) eqn:E1.
  { injection H as <- <-. split; [apply mild_refl; exact Hw|]. split; [discriminate|]. intros _.
    apply andb_prop in E1. destruct E1 as [-> E1]. split; [reflexivity|]. split; [reflexivity|]. left. repeat split. lia. }
  match type of H with (if ?b then _ else _) = _ => destruct b eqn:E2 end.
  { injection H as <- <-. split; [apply mild_error; exact Hw|]. split; [discriminate|]. intros _. apply Herr. }
  match type of H with (if ?b then _ else _) = _ => destruct b eqn:E3 end.
  { injection H as <- <-. split; [apply mild_error; exact Hw|]. split; [discriminate|]. intros _. apply Herr. }
  destruct (N.ltb_spec id (k_next c (stream_type id))) as [E4|E4].
  { injection H as <- <-. split; [apply mild_error; exact Hw|]. split; [discriminate|]. intros _. apply Herr. }
  injection H as <- <-.
  destruct (create_loop_spec c id Hw E4) as (L1 & L2 & L3 & L4 & L5 & L6 & L7 & L8 & L9 & L10).
  pose proof (create_loop_lookup c id Hw E4) as Hlk.
  assert (Hnone : forall x, k_next c (stream_type x) <= x -> lookup c x = None /\ find (fun p => fst p =? x) (k_retired c) = None).
  { intros x Hx. destruct Hw as ((_ & T2 & _) & _). assert (Hni : ~ In x (ids c)) by (rewrite T2; lia).
    unfold ids in Hni. rewrite in_app_iff in Hni. split; [apply lookup_none; tauto|].
    destruct (find (fun p => fst p =? x) _) as [p|] eqn:X; [|reflexivity]. exfalso. assert (In x (map fst (k_retired c))) by (apply find_retired; eauto). tauto. }
  split; [|split].
  - split; [exact L1|]. split; [exact L2|]. split; [exact L6|]. split; [exact L3|]. split; [exact L5|]. split.
    { intros sid e. unfold view_of. rewrite Hlk, L5.
      destruct (lookup c sid) as [s|] eqn:El; [apply vt_refl|].
      destruct (_ && _ && _) eqn:Eb; [|apply vt_refl].
      apply andb_prop in Eb. destruct Eb as [Eb _]. apply andb_prop in Eb. destruct Eb as [Eb1 Eb2].
      apply N.eqb_eq in Eb1. rewrite <- Eb1 in Eb2. destruct (Hnone sid ltac:(lia)) as [_ ->].
      destruct (fresh_spec (k_client c) (k_par c) sid) as (_ & -> & -> & _). apply vt_create. }
    destruct L10 as (l & Q1 & Q2 & Q3). split; [|split].
    { unfold sumoff. rewrite Q1, L5, sumS_app. assert (sumS (map (fresh (k_client c) (k_par c)) l) = 0) as ->; [|lia]. clear. induction l as [|x l IH]; [reflexivity|].
      cbn [map]. rewrite sumS_cons, IH. unfold fo. destruct (fresh_spec (k_client c) (k_par c) x) as (_ & -> & _). reflexivity. }
    { intros Hlim x Hx Hlo. destruct (rest_max _ _ L2) as (R1 & R2 & _). rewrite (rest_client _ _ L2) in Hlo. rewrite R1, R2.
      unfold ids in Hx. rewrite Q1, L5, map_app, map_map in Hx. apply in_app_or in Hx. destruct Hx as [Hx|Hx]; [apply in_app_or in Hx; destruct Hx as [Hx|Hx]|].
      - apply Hlim; [unfold ids; apply in_or_app; left; exact Hx|exact Hlo].
      - apply in_map_iff in Hx. destruct Hx as (y & <- & Hy). destruct (fresh_spec (k_client c) (k_par c) y) as (-> & _). apply Q3 in Hy.
        destruct (fresh_spec (k_client c) (k_par c) y) as (Ey & _). rewrite Ey in Hlo.
        destruct Hy as [Hy1 Hy2]. assert (Hp : is_local_id y (k_client c) = is_local_id id (k_client c) /\ is_bidir_id y = is_bidir_id id) by (apply same_type; exact Hy1).
        destruct Hp as [Hp1 Hp2]. rewrite Hp1 in Hlo. rewrite Hp2.
        assert (Hrem : rem = true).
        { destruct rem; [reflexivity|]. exfalso. clear - E2 Hlo. unfold is_local_id in Hlo. unfold is_client_id in E2. destruct (id mod 2 =? 0), (k_client c); cbn in E2, Hlo; discriminate. }
        subst rem. cbn [andb] in E3. apply N.ltb_ge in E3. lia.
      - apply Hlim; [unfold ids; apply in_or_app; right; exact Hx|exact Hlo]. }
    { rewrite L4. auto. }
  - intros _. destruct (Hnone id E4) as [Hn _]. split; [exact Hn|]. split; [|split; [exact L4|exact E4]].
    rewrite Hlk, Hn, N.eqb_refl. destruct (N.leb_spec (k_next c (stream_type id)) id); [|lia]. rewrite N.leb_refl. reflexivity.
  - discriminate.
Qed.

Lemma find_or_create_spec : forall c id c' os, winv c -> find_or_create c id = (c', os) ->
  mild c c' /\
  match os with
  | Some s => lookup c' id = Some s /\ k_err c' = k_err c
  | None => k_streams c' = k_streams c /\ k_next c' = k_next c /\
      ((c' = c /\ id < k_next c (stream_type id) /\ exists o, view_of c id = VRet o) \/
       (k_err c' <> None /\ k_next c (stream_type id) <= id))
  end.
Proof.
  intros c id c' os Hw H. unfold find_or_create in H. destruct (lookup c id) as [s|] eqn:El.
  - injection H as <- <-. split; [apply mild_refl; exact Hw|]. auto.
  - destruct (create_missing c id true) as [c1 ok] eqn:Ec. injection H as <- <-.
    pose proof (create_missing_spec _ _ _ _ _ Hw Ec) as (M1 & M2 & M3). split; [exact M1|].
    destruct ok.
    + destruct (M2 eq_refl) as (_ & -> & E & _). auto.
    + destruct (M3 eq_refl) as (A & B & C). split; [exact A|]. split; [exact B|].
      destruct (N.lt_ge_cases id (k_next c (stream_type id))) as [Hlt|Hge].
      * left. assert (c1 = c).
        { unfold create_missing in Ec. destruct (N.ltb_spec id (k_next c (stream_type id))); [|lia]. cbn [andb] in Ec. congruence. }
        split; [assumption|]. split; [exact Hlt|].
        destruct Hw as (Ht & _). apply view_ret; [exact Ht|]. destruct Ht as (_ & T2 & _). apply T2 in Hlt.
        unfold ids in Hlt. apply in_app_or in Hlt. destruct Hlt as [Hlt|Hlt]; [|exact Hlt]. apply lookup_none in El. contradiction.
      * right. split; [|exact Hge]. destruct C as [(_ & _ & _ & C)|C]; [lia|exact C].
Qed.

(** ** Flow control *)

Lemma flow_check_spec : forall c s nfo c' s' ok, flow_check c s nfo = (c', s', ok) ->
  k_streams c' = k_streams c /\ k_retired c' = k_retired c /\ k_next c' = k_next c /\ k_out c' = k_out c /\ rest c' = rest c /\
  s_id s' = s_id s /\ gm s' = gm s /\ s_closed s' = s_closed s /\ s_tx s' = s_tx s /\ s_md_remote s' = s_md_remote s /\ s_discarded s' = s_discarded s /\
  (ok = true -> nfo <= rx_maxdata (s_rx s) /\ s_rx s' = r_set_fin_offset (s_rx s) (N.max (rx_fin_offset (s_rx s)) nfo) /\
     k_err c' = k_err c /\ k_rcvd c' = k_rcvd c + (nfo - rx_fin_offset (s_rx s)) /\
     (k_rcvd c <= k_md_l c -> k_rcvd c' <= k_md_l c)) /\
  (ok = false -> c' = conn_error c 3 /\ s' = s /\
     (rx_maxdata (s_rx s) < nfo \/ k_md_l c < k_rcvd c + (nfo - rx_fin_offset (s_rx s)))).
Proof.
  intros c s nfo c' s' ok H. unfold flow_check in H.
  destruct (N.ltb_spec (rx_maxdata (s_rx s)) nfo) as [E1|E1].
  - injection H as <- <- <-. destruct (conn_error_streams c 3) as (A & B & C & D & E & F).
    repeat (split; [first [assumption|reflexivity|apply conn_error_rest]|]). split; [discriminate|]. intros _. auto.
  - destruct (N.ltb_spec (rx_fin_offset (s_rx s)) nfo) as [E2|E2].
    + destruct ((k_md_l c <? nfo - rx_fin_offset (s_rx s)) || (k_md_l c - (nfo - rx_fin_offset (s_rx s)) <? k_rcvd c)) eqn:E3.
      * injection H as <- <- <-. destruct (conn_error_streams c 3) as (A & B & C & D & E & F).
        repeat (split; [first [assumption|reflexivity|apply conn_error_rest]|]). split; [discriminate|]. intros _.
        split; [reflexivity|]. split; [reflexivity|]. right. apply orb_prop in E3. destruct E3 as [E3|E3]; lia.
      * injection H as <- <- <-. repeat (split; [reflexivity|]). split; [|discriminate]. intros _. split; [exact E1|].
        split; [cbn [s_set_rx s_rx]; f_equal; lia|]. split; [reflexivity|]. split; [reflexivity|].
        apply orb_false_elim in E3. cbn [set_rcvd k_rcvd]. intros. lia.
    + injection H as <- <- <-. repeat (split; [reflexivity|]). split; [|discriminate]. intros _. split; [exact E1|].
      split; [rewrite N.max_l by exact E2; destruct (s_rx s); reflexivity|]. split; [reflexivity|]. split; [lia|auto].
Qed.

(** ** One step, seen from the streams *)

Definition labels (sid : N) (o : sop) : list label :=
  match o with
  | OpStream i off fin d => if i =? sid then [LFrame (mk_sframe off d fin)] else []
  | OpReset i final => if i =? sid then [LReset final] else []
  | OpStop i | OpDiscard i => if i =? sid then [LGate] else []
  | OpMaxStreamData i v => if i =? sid then [LMaxR v] else []
  | OpSendMaxStreamData i v => if i =? sid then [LMaxL v] else []
  | _ => []
  end.

Lemma pieces_gate : forall s ps sid, pieces_of sid (gate s ps) = if s_id s =? sid then (if is_open s then ps else []) else [].
Proof.
  intros s ps sid. unfold gate, is_open. destruct (s_stop_req s || s_discarded s); cbn [negb].
  - destruct (s_id s =? sid); reflexivity.
  - induction ps as [|p ps IH]; cbn [map pieces_of flat_map]; [destruct (s_id s =? sid); reflexivity|].
    unfold pieces_of in IH. rewrite IH. destruct (s_id s =? sid); reflexivity.
Qed.

Lemma view_live : forall c sid s, lookup c sid = Some s -> view_of c sid = VLive (s_rx s) (gm s).
Proof. intros c sid s H. unfold view_of. rewrite H. reflexivity. Qed.

Lemma view_congr : forall c c' sid, k_streams c' = k_streams c -> k_retired c' = k_retired c -> view_of c' sid = view_of c sid.
Proof. intros c c' sid H1 H2. unfold view_of, lookup. rewrite H1, H2. reflexivity. Qed.

Lemma vt_nil_l : forall u v1 l p v2 v3, vt u v1 [] [] v2 -> vt u v2 l p v3 -> vt u v1 l p v3.
Proof. intros. change l with ([] ++ l). change p with ([] ++ p). eapply vt_trans; eassumption. Qed.
Lemma vt_nil_r : forall u v1 l p v2 v3, vt u v1 l p v2 -> vt u v2 [] [] v3 -> vt u v1 l p v3.
Proof. intros. rewrite <- (app_nil_r l), <- (app_nil_r p). eapply vt_trans; eassumption. Qed.

(** Outcome of a step that goes on. *)
Definition good (c c' : scnx) (L : N -> list label) : Prop :=
  winv c' /\ (k_client c' = k_client c /\ k_par c' = k_par c) /\
  (exists evs, k_out c' = k_out c ++ evs /\
    forall sid e, (k_err c' <> None -> e = true) -> vt (vpc c e sid) (view_of c sid) (L sid) (pieces_of sid evs) (view_of c' sid)) /\
  (k_rcvd c' + sumoff c = k_rcvd c + sumoff c' /\ (k_rcvd c <= k_md_l c -> k_rcvd c' <= k_md_l c') /\
   (lim_ok c -> lim_ok c') /\ (k_err c <> None -> k_err c' <> None)).

Definition good_step (c c' : scnx) (o : sop) : Prop := good c c' (fun sid => labels sid o).

Lemma vpc_eq : forall c c' e sid, k_client c' = k_client c -> k_par c' = k_par c -> vpc c' e sid = vpc c e sid.
Proof. intros c c' e sid H1 H2. unfold vpc. rewrite H1, H2. reflexivity. Qed.

Lemma good_same : forall c c' L, winv c -> (forall sid, L sid = []) -> k_streams c' = k_streams c -> k_retired c' = k_retired c ->
  k_next c' = k_next c -> k_client c' = k_client c -> k_par c' = k_par c -> k_out c' = k_out c -> k_rcvd c' = k_rcvd c ->
  k_md_l c <= k_md_l c' -> k_maxb_l c <= k_maxb_l c' -> k_maxu_l c <= k_maxu_l c' -> (k_err c <> None -> k_err c' <> None) -> good c c' L.
Proof.
  intros c c' L Hw Hl H1 H2 H3 H4 Hp H5 H6 H7 H8 H9 H10. split; [eapply winv_same; eassumption|]. split; [split; [exact H4|exact Hp]|]. split.
  - exists []. split; [rewrite app_nil_r; exact H5|]. intros sid e _. rewrite Hl, (view_congr c c' sid H1 H2). apply vt_refl.
  - assert (Es : sumoff c' = sumoff c) by (unfold sumoff; rewrite H1, H2; reflexivity). rewrite H6, Es. split; [reflexivity|]. split; [intros; lia|].
    split; [apply lim_same; [unfold ids; rewrite H1, H2; auto|exact H4|exact H8|exact H9]|exact H10].
Qed.

Lemma good_refl : forall c, winv c -> good c c (fun _ => []).
Proof. intros c Hw. apply good_same; try reflexivity; try lia; auto. Qed.

Lemma good_mild : forall c c' L, (forall sid, L sid = []) -> mild c c' -> good c c' L.
Proof.
  intros c c' L Hl (M1 & M2 & M3 & M4 & M5 & M6 & M7 & M8 & M9). split; [exact M1|]. split; [split; [apply rest_client|apply rest_par]; exact M2|]. split.
  - exists []. split; [rewrite app_nil_r; exact M3|]. intros sid e _. rewrite Hl. apply M6.
  - rewrite M4, M7. destruct (rest_max _ _ M2) as (_ & _ & ->). split; [reflexivity|]. split; [auto|]. split; [exact M8|exact M9].
Qed.

(** Writing back a stream that changed in a way allowed by [vt]. *)
Lemma good_put : forall c s s0 L, winv c -> (forall sid, sid <> s_id s -> L sid = []) -> cok (k_client c) s -> lookup c (s_id s) = Some s0 -> fo s = fo s0 ->
  (forall e, vt (vpc c e (s_id s)) (VLive (s_rx s0) (gm s0)) (L (s_id s)) [] (VLive (s_rx s) (gm s))) ->
  good c (put c s) L.
Proof.
  intros c s s0 L Hw Hl Hk Hlk Hf Hv. split; [apply winv_put; assumption|]. split; [split; reflexivity|]. split.
  - exists []. split; [cbn [put set_streams k_out]; rewrite app_nil_r; reflexivity|].
    intros sid e _. destruct (N.eq_dec sid (s_id s)) as [->|Hne].
    + rewrite (put_this c s s0 Hlk), (view_live _ _ _ Hlk). apply Hv.
    + rewrite Hl, put_other by exact Hne. apply vt_refl.
  - destruct Hw as [Ht _]. pose proof (sum_put _ _ _ Ht Hlk). change (k_rcvd (put c s)) with (k_rcvd c). change (k_md_l (put c s)) with (k_md_l c). change (k_err (put c s)) with (k_err c). split; [lia|]. split; [auto|]. split; [|auto].
    apply lim_same; try reflexivity. intros x. rewrite put_ids. auto.
Qed.

Lemma good_trans : forall c c1 c2 L1 L2 L, (forall sid, L sid = L1 sid ++ L2 sid) -> good c c1 L1 -> good c1 c2 L2 -> good c c2 L.
Proof.
  intros c c1 c2 L1 L2 L Hl (A1 & (A2 & A3) & (e1 & A4 & A5) & (A6 & A7 & A8 & A9)) (B1 & (B2 & B3) & (e2 & B4 & B5) & (B6 & B7 & B8 & B9)).
  split; [exact B1|]. split; [split; congruence|]. split.
  - exists (e1 ++ e2). split; [rewrite B4, A4, app_assoc; reflexivity|]. intros sid e He. rewrite Hl. unfold pieces_of. rewrite flat_map_app.
    eapply vt_trans; [apply A5; auto|]. rewrite <- (vpc_eq c c1 e sid A2 A3). apply B5. exact He.
  - split; [lia|]. split; [auto|]. split; auto.
Qed.

Lemma good_delete : forall c s s0 L, winv c -> (forall sid, L sid = []) -> cok (k_client c) s -> lookup c (s_id s) = Some s0 ->
  s_rx s0 = s_rx s -> gm s0 = gm s -> good c (delete_if_closed c s) L.
Proof.
  intros c s s0 L Hw Hl Hk Hlk Hr Ho. destruct (delete_if_closed_spec c s s0 Hw Hk Hlk) as (D1 & D2 & D3 & D4 & D5 & D6 & D7 & D8 & D9 & D10).
  cbn zeta in *. split; [exact D1|]. split; [split; [apply rest_client|apply rest_par]; exact D3|]. split.
  - exists []. split; [rewrite app_nil_r; exact D2|].
    intros sid e _. rewrite Hl. destruct (N.eq_dec sid (s_id s)) as [->|Hne].
    + rewrite (view_live _ _ _ Hlk), Hr, Ho. apply D8.
    + rewrite D7 by exact Hne. apply vt_refl.
  - rewrite D4, D5. destruct (rest_max _ _ D3) as (_ & _ & ->). unfold fo in D9. rewrite Hr in D9. split; [lia|]. split; [auto|]. split; [exact D10|auto].
Qed.

Lemma good_out : forall c ev L, winv c -> (forall sid, L sid = []) -> (forall sid, pieces_of sid ev = []) -> good c (add_out c ev) L.
Proof.
  intros c ev L Hw Hl He. split; [eapply winv_same with (c := c); try reflexivity; exact Hw|]. split; [split; reflexivity|]. split.
  - exists ev. split; [reflexivity|]. intros sid e _. rewrite Hl, He, (view_congr c (add_out c ev) sid) by reflexivity. apply vt_refl.
  - cbn [add_out k_rcvd k_md_l k_err]. split; [reflexivity|]. split; [auto|]. split; [|auto]. apply lim_same; try reflexivity; auto.
Qed.

(** The general form of a write. *)
Lemma good_write : forall c c2 s s0 evs L, winv c -> (forall sid, sid <> s_id s -> L sid = []) ->
  k_streams c2 = k_streams c -> k_retired c2 = k_retired c -> k_next c2 = k_next c -> k_out c2 = k_out c -> rest c2 = rest c ->
  (k_err c <> None -> k_err c2 <> None) ->
  k_rcvd c2 + fo s0 = k_rcvd c + fo s -> (k_rcvd c <= k_md_l c -> k_rcvd c2 <= k_md_l c) ->
  cok (k_client c) s -> lookup c (s_id s) = Some s0 -> (forall sid, sid <> s_id s -> pieces_of sid evs = []) ->
  (forall e, vt (vpc c e (s_id s)) (VLive (s_rx s0) (gm s0)) (L (s_id s)) (pieces_of (s_id s) evs) (VLive (s_rx s) (gm s))) ->
  good c (add_out (put c2 s) evs) L.
Proof.
  intros c c2 s s0 evs L Hw Hl H1 H2 H3 H4 H5 He H6 H7 Hk Hlk Hp Hv.
  assert (Hcl : k_client c2 = k_client c) by (apply rest_client; exact H5).
  assert (Hw2 : winv c2) by (eapply winv_same; try eassumption).
  assert (Hlk2 : lookup c2 (s_id s) = Some s0) by (unfold lookup; rewrite H1; exact Hlk).
  assert (Hvv : forall x, view_of (add_out (put c2 s) evs) x = view_of (put c2 s) x) by (intros x; apply view_congr; reflexivity).
  split; [eapply winv_same with (c := put c2 s); try reflexivity; apply winv_put; [exact Hw2|rewrite Hcl; exact Hk]|].
  split; [split; [exact Hcl|apply rest_par; exact H5]|]. split.
  - exists evs. split; [cbn [add_out put set_streams k_out]; rewrite H4; reflexivity|].
    intros sid e _. rewrite Hvv. destruct (N.eq_dec sid (s_id s)) as [->|Hne].
    + rewrite (put_this _ _ _ Hlk2), (view_live _ _ _ Hlk). apply Hv.
    + rewrite Hl, Hp, put_other, (view_congr c c2) by assumption. apply vt_refl.
  - change (k_rcvd (add_out (put c2 s) evs)) with (k_rcvd c2). change (k_md_l (add_out (put c2 s) evs)) with (k_md_l c2). change (k_err (add_out (put c2 s) evs)) with (k_err c2).
    change (sumoff (add_out (put c2 s) evs)) with (sumoff (put c2 s)). destruct Hw2 as [Ht2 _]. pose proof (sum_put _ _ _ Ht2 Hlk2) as X.
    assert (Y : sumoff c2 = sumoff c) by (unfold sumoff; rewrite H1, H2; reflexivity). destruct (rest_max _ _ H5) as (R1 & R2 & R3). rewrite R3.
    split; [lia|]. split; [exact H7|]. split; [|exact He]. apply lim_rest; [|exact H5]. change (ids (add_out (put c2 s) evs)) with (ids (put c2 s)).
    intros x. rewrite put_ids. unfold ids. rewrite H1, H2. auto.
Qed.

Lemma cok_rx : forall cl s s', cok cl s -> s_id s' = s_id s -> s_closed s' = s_closed s -> (rx_done (s_rx s) = true -> rx_done (s_rx s') = true) -> cok cl s'.
Proof. intros cl s s' H H1 H2 H3 Hc. rewrite H2 in Hc. destruct (H Hc) as [G|G]; [left; auto|right; rewrite H1; exact G]. Qed.
