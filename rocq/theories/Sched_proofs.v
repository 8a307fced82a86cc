(** Stream scheduling: every event is a sequence of elementary changes. *)
From Verif Require Import Base Tac Varint_model Stream_model Send_model Send_spec Sched_spec
  Send_proofs Send2_proofs Send3_proofs Send4_proofs Send5_proofs Send7_proofs.

Definition over (s : wstream) : bool := w_fin_sent s || w_rst_sent s.

(** [strict]: the time of the last service does not change; [free]: limits on
    stream ids may change, and streams may be deleted. *)
Inductive prim (strict free : bool) : snd_cnx -> snd_cnx -> Prop :=
| p_put c s s' : w_lookup c (w_id s) = Some s -> w_id s' = w_id s -> w_prio s' = w_prio s ->
    (strict = true -> w_last s' = w_last s /\ w_fin_sent s' = w_fin_sent s) ->
    (exhausted s = true -> exhausted s' = true) ->
    (over s' = true -> over s = true \/ (strict = false /\ above_limit c (w_id s) = false)) ->
    prim strict free c (w_put c s')
| p_prio c s p : w_lookup c (w_id s) = Some s ->
    prim strict free c (reorder_output (w_put c (w_set_prio s p)) (w_set_prio s p))
| p_stop c s err : w_lookup c (w_id s) = Some s ->
    prim strict free c (insert_output (w_put c (w_set_stop s true (w_stop_sent s) err))
      (w_set_stop s true (w_stop_sent s) err))
| p_insert c s : w_lookup c (w_id s) = Some s -> prim strict free c (insert_output c s)
| p_remove c s : w_lookup c (w_id s) = Some s -> exhausted s = true ->
    prim strict free c (remove_output c (w_id s))
| p_create c t : t < 4 -> prim strict free c (w_create c (n_next c t))
| p_delete c s : free = true -> w_lookup c (w_id s) = Some s -> over s = true ->
    prim strict free c (n_set_streams c (filter (fun x => negb (w_id x =? w_id s)) (n_streams c))
      (filter (fun x => negb (x =? w_id s)) (n_out c)))
| p_misc c c' : n_client c' = n_client c -> n_streams c' = n_streams c -> n_out c' = n_out c ->
    (forall t, n_next c' t = n_next c t) -> n_max_bidi c' = n_max_bidi c -> n_max_uni c' = n_max_uni c ->
    prim strict free c c'
| p_raise c : prim strict free c (raise_initial c)
| p_limits c m b u : free = true -> prim strict free c (n_set_limits c m b u).

Inductive prims (strict free : bool) : snd_cnx -> snd_cnx -> Prop :=
| ps_nil c : prims strict free c c
| ps_cons a b c : prim strict free a b -> prims strict free b c -> prims strict free a c.

Lemma ps_one a f c c' : prim a f c c' -> prims a f c c'.
Proof. intro H. eapply ps_cons; [exact H | apply ps_nil]. Qed.
Lemma ps_app a f x y z : prims a f x y -> prims a f y z -> prims a f x z.
Proof. induction 1; intro H2; [exact H2 |]. eapply ps_cons; [eassumption | auto]. Qed.

Lemma prims_ind2 (P : snd_cnx -> Prop) a f : (forall c c', prim a f c c' -> P c -> P c') ->
  forall c c', prims a f c c' -> P c -> P c'.
Proof. intros H c c' S. induction S; eauto. Qed.

(** ** Decomposition of the operations *)
Lemma ps_create_missing a f c id : prims a f c (w_create_missing c id).
Proof.
  unfold w_create_missing. destruct (_ <? _); [apply ps_nil |].
  generalize (N.to_nat ((id - n_next c (stream_type id)) / 4 + 1)). intro k. revert c.
  induction k as [| k IH]; intro c; cbn [w_create_loop]; [apply ps_nil |].
  eapply ps_cons; [apply p_create, mod4_lt | apply IH].
Qed.

Lemma ps_writing a f c id c' o : for_writing c id = (c', o) ->
  prims a f c c' /\ forall s, o = Some s -> w_lookup c' (w_id s) = Some s /\ w_id s = id.
Proof.
  unfold for_writing. destruct (w_lookup c id) as [s |] eqn:E.
  - intro H. apply pair_inj in H. destruct H as [<- <-]. split; [apply ps_nil |].
    intros x Hx. apply some_inj in Hx. subst x. rewrite (lookup_id _ _ _ E). auto.
  - destruct (Bool.eqb _ _).
    + cbv zeta. intro H. apply pair_inj in H. destruct H as [<- <-]. split; [apply ps_create_missing |].
      intros x Hx. rewrite (lookup_id _ _ _ Hx). auto.
    + intro H. apply pair_inj in H. destruct H as [<- <-]. split; [apply ps_nil | congruence].
Qed.

Ltac pput s := eapply ps_one, (p_put _ _ _ s);
  [assumption | reflexivity | reflexivity | intros _; split; reflexivity | |].

Lemma exh_fin s a r : exhausted s = true -> exhausted (w_set_fin s a (w_fin_req s || r) (w_fin_sent s)) = true.
Proof. unfold exhausted. cbn. destruct (w_fin_req s), (w_fin_sent s), (w_rst_req s), (w_rst_sent s), (w_stop_req s), (w_stop_sent s), r; cbn; auto. Qed.

Lemma ps_add a f c id d fin c' its : add_to_stream c id d fin = (c', its) -> prims a f c c'.
Proof.
  unfold add_to_stream. destruct (for_writing c id) as [c1 o] eqn:Ew.
  destruct (ps_writing a f _ _ _ _ Ew) as [K Hin]. destruct o as [s |].
  2: { intro H. apply pair_inj in H. destruct H as [<- _]. exact K. }
  destruct (Hin s eq_refl) as [L _].
  destruct (_ && _ && _). { intro H. apply pair_inj in H. destruct H as [<- _]. exact K. }
  cbv zeta. destruct (w_rst_sent s || w_stop_rcvd s); intro H; apply pair_inj in H; destruct H as [<- _];
    (eapply ps_app; [exact K |]); pput s; try (intro H; left; exact H).
  - apply exh_fin.
  - intro H. exact (exh_fin s false fin H).
Qed.

Lemma ps_active a f c id b : prims a f c (mark_active c id b).
Proof.
  unfold mark_active. destruct (for_writing c id) as [c1 o] eqn:Ew.
  destruct (ps_writing a f _ _ _ _ Ew) as [K Hin]. destruct o as [s |]; [| exact K].
  destruct (Hin s eq_refl) as [L _].
  destruct b.
  - destruct (_ && _); [| exact K]. eapply ps_app; [exact K |]. pput s; auto.
  - eapply ps_app; [exact K |]. pput s; auto.
Qed.

Lemma ps_prio a f c id p : prims a f c (set_priority c id p).
Proof.
  unfold set_priority. destruct (for_writing c id) as [c1 o] eqn:Ew.
  destruct (ps_writing a f _ _ _ _ Ew) as [K Hin]. destruct o as [s |]; [| exact K].
  destruct (Hin s eq_refl) as [L _].
  cbv zeta. eapply ps_app; [exact K |]. apply ps_one, p_prio, L.
Qed.

Lemma ps_app_reset a f c id e u : prims a f c (app_reset c id e u).
Proof.
  unfold app_reset. destruct (w_lookup c id) as [s |] eqn:Hl; [| apply ps_nil].
  destruct (_ && _); [apply ps_nil |]. destruct (w_rst_req s) eqn:Er; [apply ps_nil |].
  assert (L : w_lookup c (w_id s) = Some s) by (rewrite (lookup_id _ _ _ Hl); exact Hl).
  pput s; [| intro H; left; exact H].
  unfold exhausted. cbn. rewrite Er. destruct (w_fin_req s), (w_fin_sent s), (w_rst_sent s), (w_stop_req s), (w_stop_sent s); cbn; auto.
Qed.

Lemma ps_app_stop a f c id e u : prims a f c (app_stop c id e u).
Proof.
  unfold app_stop. destruct (w_lookup c id) as [s |] eqn:Hl; [| apply ps_nil].
  destruct u; [apply ps_nil |]. destruct (w_stop_req s); [apply ps_nil |].
  cbv zeta. apply ps_one, p_stop. rewrite (lookup_id _ _ _ Hl). exact Hl.
Qed.

Lemma ps_peer a f c id : prims a f c (peer_stream c id).
Proof.
  unfold peer_stream. destruct (w_lookup c id); [apply ps_nil |].
  destruct (is_local_id _ _); [apply ps_nil | apply ps_create_missing].
Qed.

Lemma ps_max_stream_data a f c id v : prims a f c (recv_max_stream_data c id v).
Proof.
  unfold recv_max_stream_data. cbv zeta. eapply ps_app; [apply (ps_peer a f c id) |].
  destruct (w_lookup (peer_stream c id) id) as [s |] eqn:Hl; [| apply ps_nil].
  assert (L : w_lookup (peer_stream c id) (w_id s) = Some s) by (rewrite (lookup_id _ _ _ Hl); exact Hl).
  destruct (_ <? _); [| apply ps_nil]. pput s; auto.
Qed.

Lemma ps_add_output a f c o n b : prims a f c (add_output_streams c o n b).
Proof.
  unfold add_output_streams. cbv zeta. destruct (w_lookup c _); [| apply ps_nil].
  generalize (sorted_ids (ids_from (n_streams c) (id_of_rank (u64 (rank_of_id o + 1)) (n_client c) (negb b)) [])).
  intro l. clear. revert c. induction l as [| id l IH]; intro c; cbn [add_out_loop]; [apply ps_nil |].
  destruct (o <? id); [| apply IH]. destruct (n <? id); [apply ps_nil |].
  match goal with |- context [if ?b then _ else _] => destruct b end; [| apply IH].
  destruct (w_lookup c id) as [s |] eqn:Hl; [| apply ps_nil].
  eapply ps_cons; [apply p_insert; rewrite (lookup_id _ _ _ Hl); exact Hl | apply IH].
Qed.

Ltac misc := eapply ps_one, p_misc; reflexivity.

Lemma ps_tp a c p : prims a true c (recv_tp c p).
Proof.
  destruct p as [k v]. destruct k; unfold recv_tp; cbn [fst snd]; cbv zeta.
  1-3: (eapply ps_app; [| apply ps_one, p_raise]; misc).
  - misc.
  - eapply ps_app; [| apply ps_add_output]. apply ps_one, p_limits. reflexivity.
  - eapply ps_app; [| apply ps_add_output]. apply ps_one, p_limits. reflexivity.
Qed.

(** ** Filling *)
Lemma walk_gone c l : forall found gone o g,
  Forall (fun id => exists s, w_lookup c id = Some s /\ exhausted s = true) gone ->
  find_walk c l found gone = (o, g) ->
  Forall (fun id => exists s, w_lookup c id = Some s /\ exhausted s = true) g.
Proof.
  induction l as [| id l IH]; intros found gone o g Hg; cbn [find_walk].
  - intro H. apply pair_inj in H. destruct H as [_ <-]. exact Hg.
  - assert (Now : forall a b : option wstream, (a, gone) = (b, g) -> Forall (fun id => exists s, w_lookup c id = Some s /\ exhausted s = true) g).
    { intros a b H. apply pair_inj in H. destruct H as [_ <-]. exact Hg. }
    destruct (w_lookup c id) as [x |] eqn:E; [| apply IH; exact Hg].
    destruct (match found with Some f => w_prio f <? w_prio x | None => false end); [apply Now |].
    destruct (urgent x) eqn:Eu; [apply Now |].
    destruct (has_data c x) eqn:Eh.
    + destruct ((w_sent x =? 0) && above_limit c (w_id x)); [apply IH; exact Hg |].
      destruct (N.odd (w_prio x)); [apply Now |].
      destruct found as [f |]; [destruct (w_last x <? w_last f) |]; apply IH; exact Hg.
    + destruct (exhausted x) eqn:Ex; apply IH; [| exact Hg]. constructor; [eauto | exact Hg].
Qed.

Lemma ps_find_ready a f c c' o : find_ready c = (c', o) -> prims a f c c'.
Proof.
  unfold find_ready. destruct (find_walk c (n_out c) None []) as [x gone] eqn:E. intro H.
  apply pair_inj in H. destruct H as [<- _].
  apply walk_gone in E; [| constructor].
  assert (S : forall g, same_but_out c (fold_right (fun id c => remove_output c id) c g)).
  { induction g as [| i g IH]; [apply same_refl |]. cbn [fold_right]. apply remove_same, IH. }
  induction gone as [| i gone IH]; [apply ps_nil |]. inversion E as [| ? ? (s & L & X) E2]; subst.
  cbn [fold_right]. eapply ps_app; [exact (IH E2) |]. apply ps_one.
  assert (i = w_id s) as -> by (symmetry; exact (lookup_id _ _ _ L)).
  apply p_remove; [| exact X]. destruct (S gone) as [out ->]. exact L.
Qed.

Lemma exhausted_stop s : w_rst_req s = false -> w_stop_req s && negb (w_stop_sent s) = false ->
  exhausted (w_set_fin s false true true) = true.
Proof. unfold exhausted. cbn. destruct (w_stop_req s), (w_stop_sent s); cbn; intros; auto. Qed.

Lemma ps_format f c s room now r c' b its asked :
  w_lookup c (w_id s) = Some s -> format_stream c s room now r = FOk c' b its asked -> prims false f c c'.
Proof.
  intros L. unfold format_stream.
  destruct (above_limit c (w_id s)) eqn:Ea; [discriminate |].
  assert (Put : forall s', w_id s' = w_id s -> w_prio s' = w_prio s ->
    (exhausted s = true -> exhausted s' = true) -> prims false f c (w_put c s')).
  { intros s' H1 H2 H3. apply ps_one, (p_put _ _ _ s); auto; try discriminate. }
  destruct (w_rst_sent s) eqn:Er; [intro H; injection H as <- <- <- <-; apply ps_nil |].
  destruct (w_rst_req s) eqn:Eq.
  { destruct (reset_writer _ _ _ _) as [bb |]; [| intro H; injection H as <- <- <- <-; apply ps_nil].
    cbv zeta. intro H. injection H as <- <- <- <-. apply Put; try reflexivity.
    unfold exhausted. cbn. rewrite Eq, Er. destruct (w_fin_req s), (w_fin_sent s), (w_stop_req s), (w_stop_sent s); cbn; auto. }
  destruct (w_stop_req s && negb (w_stop_sent s)) eqn:Es.
  { assert (X : exhausted s = true -> exhausted (w_set_stop s true true (w_stop_err s)) = true).
    { unfold exhausted. cbn. destruct (w_fin_req s), (w_fin_sent s), (w_rst_req s), (w_rst_sent s), (w_stop_req s), (w_stop_sent s); cbn; auto. }
    destruct (w_rcv_end s).
    { intro H. injection H as <- <- <- <-. apply Put; auto. }
    destruct (stop_writer _ _ _); intro H; injection H as <- <- <- <-; [apply Put; auto | apply ps_nil]. }
  destruct (negb (w_active s) && negb (queue_ready s) && (negb (w_fin_req s) || w_fin_sent s)).
  { intro H. injection H as <- <- <- <-. apply ps_nil. }
  destruct (stream_frame_header _ _ _) as [hdr |]; [| intro H; injection H as <- <- <- <-; apply ps_nil].
  destruct (w_active s && match w_queue s with [] => true | _ :: _ => false end && negb (w_fin_req s)) eqn:Eact.
  - unfold format_active. cbv zeta. destruct r as [| | d fin still]; [discriminate | |].
    { intro H. injection H as <- <- <- <-. apply Put; auto. }
    destruct (_ <? _).
    { intro H. injection H as <- <- <- <-. apply Put; auto. }
    destruct ((blen d =? 0) && negb fin).
    { intro H. injection H as <- <- <- <-. apply Put; auto. }
    destruct (_ <? _); [discriminate |].
    destruct fin; intro H; injection H as <- <- <- <-.
    + set (s2 := w_set_fin (w_set_data s (w_sent s + blen d) (w_queue s) now) false true true).
      assert (X : exhausted s2 = true).
      { unfold s2, exhausted. cbn. revert Es. clear.
        destruct (w_stop_req s), (w_stop_sent s); cbn; intros; auto; discriminate. }
      eapply ps_app; [apply (Put s2); auto |].
      eapply ps_cons; [apply (p_misc _ _ _ (n_add_sent (w_put c s2) (blen d))); reflexivity |].
      apply ps_one. apply (p_remove _ _ _ s2); [| exact X].
      change (w_lookup (w_put c s2) (w_id s2) = Some s2). rewrite lookup_put, N.eqb_refl.
      change (w_id s2) with (w_id s). rewrite L. reflexivity.
    + set (s2 := w_set_fin (w_set_data s (w_sent s + blen d) (w_queue s) now) still (w_fin_req s) (w_fin_sent s)).
      eapply ps_app; [apply (Put s2); auto |].
      apply ps_one, (p_misc _ _ (w_put c s2)); reflexivity.
  - unfold format_queued. cbv zeta. destruct (_ <? _); [discriminate |].
    match goal with |- context [n_add_sent (w_put c ?s2) ?n] => set (c1 := n_add_sent (w_put c s2) n) end.
    assert (K : prims false f c c1).
    { unfold c1. match goal with |- prims _ _ _ (n_add_sent (w_put c ?s2) ?n) =>
        eapply ps_app; [| apply ps_one, (p_misc _ _ (w_put c s2) (n_add_sent (w_put c s2) n)); reflexivity] end.
      match goal with |- context [if 0 <? ?len then w_set_data ?x ?y ?q ?n else _] => destruct (0 <? len) end;
        (apply Put; [reflexivity | reflexivity |]; unfold exhausted; cbn;
         destruct (w_fin_req s), (w_fin_sent s), (w_rst_req s), (w_rst_sent s), (w_stop_req s), (w_stop_sent s); cbn;
         rewrite ?orb_true_r; auto; discriminate). }
    clearbody c1. intro H; repeat match type of H with
    | (match ?x with _ => _ end) = _ => destruct x; try discriminate
    end; injection H as <- <- <- <-; exact K.
Qed.

Lemma ps_fill_loop f now prio app fuel : forall c st pos bytes its asks c' bytes' its' ok,
  (forall s, st = Some s -> w_lookup c (w_id s) = Some s) ->
  fill_loop fuel c st pos bytes its asks now prio app = LDone c' bytes' its' ok -> prims false f c c'.
Proof.
  induction fuel as [| fuel IH]; intros c st pos bytes its asks c' bytes' its' ok Hc; [discriminate |].
  destruct pos as [room |]; [| intro H; apply none_not_done in H; destruct H].
  cbn [fill_loop]. cbv zeta.
  assert (Fin : LDone c bytes its true = LDone c' bytes' its' ok -> prims false f c c').
  { intro H. injection H as <- _ <- _. apply ps_nil. }
  destruct st as [s |]; [| exact Fin].
  destruct (_ && _); [| exact Fin].
  assert (Hs := Hc s eq_refl).
  destruct (format_stream c s room now (app asks)) as [| c1 b its1 asked | c1 asked |] eqn:Ef.
  - destruct (find_ready c). intro H. apply none_not_done in H. destruct H.
  - assert (K1 := ps_format f _ _ _ _ _ _ _ _ _ Hs Ef).
    destruct (find_ready c1) as [c2 st2] eqn:Er. destruct (find_ready_spec _ _ _ Er) as [F1 F2].
    assert (K2 : prims false f c c2) by (eapply ps_app; [exact K1 | eapply ps_find_ready, Er]).
    assert (C3 : forall x, st2 = Some x -> w_lookup c2 (w_id x) = Some x).
    { intros x Hx. destruct (same_chosen _ _ _ F1 (F2 x Hx)) as [L _]. exact L. }
    destruct st2 as [s2 |].
    + destruct (_ <=? 17).
      { intro H. injection H as <- _ <- _. exact K2. }
      intro H. eapply ps_app; [exact K2 | eapply IH; [exact C3 | exact H]].
    + intro H. eapply ps_app; [exact K2 | eapply IH; [exact C3 | exact H]].
  - intro H. injection H as <- _ <- _. apply format_err_same in Ef. subst c1. apply ps_nil.
  - discriminate.
Qed.

Lemma ps_fill f c fuel room now prio app c' bytes its ok :
  fill fuel c room now prio app = LDone c' bytes its ok -> prims false f c c'.
Proof.
  unfold fill. destruct (find_ready c) as [c1 st] eqn:Ef. destruct (find_ready_spec _ _ _ Ef) as [F1 F2].
  intro H. eapply ps_app; [eapply ps_find_ready, Ef |]. eapply ps_fill_loop; [| exact H].
  intros x Hx. destruct (same_chosen _ _ _ F1 (F2 x Hx)) as [L _]. exact L.
Qed.

Definition special (e : sev) : bool :=
  match e with SStart _ _ _ _ | STransport _ | SMaxStreams _ _ | SDelete _ => true | _ => false end.

Lemma ps_step c e c' its : snd_step c e = Some (c', its) -> prims (not_fill e) (special e) c c'.
Proof.
  destruct e; cbn [snd_step not_fill special]; intro E.
  - inv_pair E. unfold start_client. eapply ps_cons; [| apply ps_one, p_limits; reflexivity].
    apply p_misc; reflexivity.
  - inv_pair E. unfold recv_transport, clear_tp.
    eapply ps_app.
    { eapply ps_cons; [apply (p_misc _ _ c (n_set_cr c (mk_cr 0 0 0))); reflexivity |].
      apply ps_one, (p_limits _ _ _ 0 0 0). reflexivity. }
    generalize (n_set_limits (n_set_cr c (mk_cr 0 0 0)) 0 0 0). clear.
    induction l as [| p l IH]; intro x; [apply ps_nil |]. cbn [fold_left]. eapply ps_app; [apply ps_tp | apply IH].
  - inv_pair E. unfold recv_max_data. destruct (_ <? _); [misc | apply ps_nil].
  - inv_pair E. apply ps_max_stream_data.
  - inv_pair E. unfold recv_max_streams. cbv zeta.
    destruct uni; match goal with |- context [if ?b then _ else _] => destruct b end; try apply ps_nil;
      (eapply ps_cons; [apply p_limits; reflexivity | apply ps_add_output]).
  - inv_pair E. apply ps_peer.
  - inv_pair E. destruct (w_lookup c id) as [s |] eqn:Hl; [| apply ps_nil].
    assert (L : w_lookup c (w_id s) = Some s) by (rewrite (lookup_id _ _ _ Hl); exact Hl). pput s; auto.
  - inv_pair E. destruct (w_lookup c id) as [s |] eqn:Hl; [| apply ps_nil].
    assert (L : w_lookup c (w_id s) = Some s) by (rewrite (lookup_id _ _ _ Hl); exact Hl). pput s; auto.
  - apply some_inj in E. eapply ps_add, E.
  - inv_pair E. apply ps_active.
  - inv_pair E. apply ps_prio.
  - inv_pair E. apply ps_app_reset.
  - inv_pair E. apply ps_app_stop.
  - inv_pair E. destruct (w_lookup c id) as [s |] eqn:Hl; [| apply ps_nil].
    assert (id = w_id s) as -> by (symmetry; exact (lookup_id _ _ _ Hl)).
    destruct (_ || _) eqn:Eo; [| apply ps_nil]. apply ps_one, p_delete; [reflexivity | exact Hl |].
    unfold over. destruct (w_fin_sent s), (w_rst_sent s); try reflexivity.
    rewrite !andb_false_r in Eo. discriminate.
  - destruct (fill fuel c room now prio app) as [c1 b1 i1 ok1 | | |] eqn:Ef; try discriminate.
    inv_pair E. eapply ps_fill, Ef.
Qed.
