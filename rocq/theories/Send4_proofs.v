(** Proofs about the sending side: limits on stream numbers, end of the filling
    loop. *)
From Verif Require Import Base Tac Varint_model Varint_proofs Stream_model Frames_model Frames5_proofs
  Send_model Send_spec Send_proofs Send2_proofs Send3_proofs.

(** ** What the operations leave unchanged *)
Definition lims (c : snd_cnx) : bool * N * N := (n_client c, n_max_bidi c, n_max_uni c).
Definition sticky (s : wstream) : Prop := w_rst_sent s = true -> w_rst_req s = true /\ w_fin_sent s = true.

Definition keeps (c c' : snd_cnx) : Prop :=
  lims c' = lims c /\ (Forall sticky (n_streams c) -> Forall sticky (n_streams c')).

Lemma keeps_refl c : keeps c c.
Proof. split; [reflexivity | auto]. Qed.
Lemma keeps_trans a b c : keeps a b -> keeps b c -> keeps a c.
Proof. intros [A1 A2] [B1 B2]. split; [congruence | auto]. Qed.
Lemma keeps_same c c' : lims c' = lims c -> n_streams c' = n_streams c -> keeps c c'.
Proof. intros H1 H2. split; [exact H1 |]. rewrite H2. auto. Qed.

Lemma keeps_put c s : (Forall sticky (n_streams c) -> sticky s) -> keeps c (w_put c s).
Proof.
  intro Hs. split; [reflexivity |]. intro H. unfold w_put. cbn [n_set_streams n_streams].
  apply Forall_forall. intros x Hx. apply in_map_iff in Hx. destruct Hx as (y & <- & Hy).
  destruct (w_id y =? w_id s); [auto |]. rewrite Forall_forall in H. apply H, Hy.
Qed.

Lemma keeps_put_from c s s0 : In s0 (n_streams c) -> (sticky s0 -> sticky s) -> keeps c (w_put c s).
Proof. intros Hi Hs. apply keeps_put. intro H. rewrite Forall_forall in H. auto. Qed.

Lemma keeps_insert c s : keeps c (insert_output c s).
Proof.
  unfold insert_output. destruct (is_out c (w_id s)); [apply keeps_refl |].
  destruct (above_limit c (w_id s)); [apply keeps_refl |]. apply keeps_same; reflexivity.
Qed.

Lemma keeps_reorder c s : keeps c (reorder_output c s).
Proof.
  unfold reorder_output. destruct (is_out c (w_id s)); [| apply keeps_refl].
  match goal with |- context [if ?b then _ else _] => destruct b end; [| apply keeps_refl].
  eapply keeps_trans; [| apply keeps_insert]. apply keeps_same; reflexivity.
Qed.

Lemma keeps_create c id : keeps c (w_create c id).
Proof.
  unfold w_create. cbv zeta.
  assert (K : keeps c (n_set_streams c (n_streams c ++ [new_wstream c id]) (n_out c))).
  { split; [reflexivity |]. intro H. cbn [n_set_streams n_streams]. apply Forall_app. split; [exact H |].
    constructor; [| constructor]. intro X. discriminate X. }
  destruct (new_output c id).
  - eapply keeps_trans; [exact K |]. eapply keeps_trans; [apply keeps_insert |]. apply keeps_same; reflexivity.
  - eapply keeps_trans; [exact K |]. apply keeps_same; reflexivity.
Qed.

Lemma keeps_create_missing c id : keeps c (w_create_missing c id).
Proof.
  unfold w_create_missing. destruct (_ <? _); [apply keeps_refl |].
  generalize (N.to_nat ((id - n_next c (stream_type id)) / 4 + 1)). intro k. revert c.
  induction k as [| k IH]; intro c; cbn [w_create_loop]; [apply keeps_refl |].
  eapply keeps_trans; [apply keeps_create | apply IH].
Qed.

Lemma keeps_writing c id c' o : for_writing c id = (c', o) ->
  keeps c c' /\ forall s, o = Some s -> In s (n_streams c').
Proof.
  unfold for_writing. destruct (w_lookup c id) as [s |] eqn:E.
  - intro H. apply pair_inj in H. destruct H as [<- <-]. split; [apply keeps_refl |].
    intros x Hx. apply some_inj in Hx. subst x. apply lookup_in in E. tauto.
  - destruct (Bool.eqb _ _).
    + cbv zeta. intro H. apply pair_inj in H. destruct H as [<- <-]. split; [apply keeps_create_missing |].
      intros x Hx. apply lookup_in in Hx. tauto.
    + intro H. apply pair_inj in H. destruct H as [<- <-]. split; [apply keeps_refl | congruence].
Qed.

Ltac put_from Hin := eapply keeps_put_from; [exact Hin | let X := fresh in intro X; try exact X].

Lemma keeps_add c id d fin c' its : add_to_stream c id d fin = (c', its) -> keeps c c'.
Proof.
  unfold add_to_stream. destruct (for_writing c id) as [c1 o] eqn:Ew.
  destruct (keeps_writing _ _ _ _ Ew) as [K Hin]. destruct o as [s |].
  2: { intro H. apply pair_inj in H. destruct H as [<- _]. exact K. }
  specialize (Hin s eq_refl).
  destruct (_ && _ && _). { intro H. apply pair_inj in H. destruct H as [<- _]. exact K. }
  cbv zeta. destruct (w_rst_sent s || w_stop_rcvd s); intro H; apply pair_inj in H; destruct H as [<- _];
    (eapply keeps_trans; [exact K |]); put_from Hin.
Qed.

Lemma keeps_active c id b : keeps c (mark_active c id b).
Proof.
  unfold mark_active. destruct (for_writing c id) as [c1 o] eqn:Ew.
  destruct (keeps_writing _ _ _ _ Ew) as [K Hin]. destruct o as [s |]; [| exact K]. specialize (Hin s eq_refl).
  destruct b.
  - destruct (_ && _); [| exact K]. eapply keeps_trans; [exact K |]. put_from Hin.
  - eapply keeps_trans; [exact K |]. put_from Hin.
Qed.

Lemma keeps_prio c id p : keeps c (set_priority c id p).
Proof.
  unfold set_priority. destruct (for_writing c id) as [c1 o] eqn:Ew.
  destruct (keeps_writing _ _ _ _ Ew) as [K Hin]. destruct o as [s |]; [| exact K]. specialize (Hin s eq_refl).
  cbv zeta. eapply keeps_trans; [exact K |]. eapply keeps_trans; [| apply keeps_reorder]. put_from Hin.
Qed.

Lemma keeps_app_reset c id e u : keeps c (app_reset c id e u).
Proof.
  unfold app_reset. destruct (w_lookup c id) as [s |] eqn:Hl; [| apply keeps_refl].
  apply lookup_in in Hl. destruct (_ && _); [apply keeps_refl |]. destruct (w_rst_req s); [apply keeps_refl |].
  put_from (proj1 Hl). intro X. cbn in X. destruct (H X). split; [reflexivity | assumption].
Qed.

Lemma keeps_app_stop c id e u : keeps c (app_stop c id e u).
Proof.
  unfold app_stop. destruct (w_lookup c id) as [s |] eqn:Hl; [| apply keeps_refl].
  apply lookup_in in Hl. destruct u; [apply keeps_refl |]. destruct (w_stop_req s); [apply keeps_refl |].
  cbv zeta. eapply keeps_trans; [| apply keeps_insert]. put_from (proj1 Hl).
Qed.

Lemma keeps_peer c id : keeps c (peer_stream c id).
Proof.
  unfold peer_stream. destruct (w_lookup c id); [apply keeps_refl |].
  destruct (is_local_id _ _); [apply keeps_refl | apply keeps_create_missing].
Qed.

Lemma keeps_max_stream_data c id v : keeps c (recv_max_stream_data c id v).
Proof.
  unfold recv_max_stream_data. cbv zeta. eapply keeps_trans; [apply (keeps_peer c id) |].
  destruct (w_lookup (peer_stream c id) id) as [s |] eqn:Hl; [| apply keeps_refl].
  apply lookup_in in Hl. destruct (_ <? _); [| apply keeps_refl]. put_from (proj1 Hl).
Qed.

Lemma keeps_add_output c o n b : keeps c (add_output_streams c o n b).
Proof.
  unfold add_output_streams. cbv zeta. destruct (w_lookup c _); [| apply keeps_refl].
  generalize (sorted_ids (ids_from (n_streams c) (id_of_rank (u64 (rank_of_id o + 1)) (n_client c) (negb b)) [])).
  intro l. clear. revert c. induction l as [| id l IH]; intro c; cbn [add_out_loop]; [apply keeps_refl |].
  destruct (o <? id); [| apply IH]. destruct (n <? id); [apply keeps_refl |].
  match goal with |- context [if ?b then _ else _] => destruct b end; [| apply IH].
  destruct (w_lookup c id); [| apply keeps_refl]. eapply keeps_trans; [apply keeps_insert | apply IH].
Qed.

(** Filling: sticky flags and limits, and the ids of the frames. *)
Definition inside (c : snd_cnx) (its : list item) : Prop :=
  Forall (fun x => match x with
    | IStream id _ _ _ => above_limit c id = false
    | IReset id _ _ => above_limit c id = false
    | IStop id _ => above_limit c id = false
    | _ => True end) its.

Lemma above_lims c c' id : lims c' = lims c -> above_limit c' id = above_limit c id.
Proof. unfold lims, above_limit. intro H. injection H as H1 H2 H3. rewrite H1, H2, H3. reflexivity. Qed.

Lemma inside_lims c c' its : lims c' = lims c -> inside c its -> inside c' its.
Proof.
  intros H. apply Forall_impl. intros x. destruct x; rewrite ?(above_lims _ _ _ H); auto.
Qed.

Lemma format_keeps c s room now r c' b its asked :
  w_lookup c (w_id s) = Some s -> format_stream c s room now r = FOk c' b its asked ->
  keeps c c' /\ inside c its.
Proof.
  intros Hl. apply lookup_in in Hl. destruct Hl as [Hin _]. unfold format_stream.
  destruct (above_limit c (w_id s)) eqn:Ea; [discriminate |].
  assert (N0 : keeps c c /\ inside c []) by (split; [apply keeps_refl | constructor]).
  destruct (w_rst_sent s) eqn:Er; [intro H; injection H as <- <- <- <-; auto |].
  destruct (w_rst_req s) eqn:Eq.
  { destruct (reset_writer _ _ _ _) as [bb |]; [| intro H; injection H as <- <- <- <-; auto].
    cbv zeta. intro H. injection H as <- <- <- <-. split; [| repeat constructor; exact Ea].
    put_from Hin. intros _. split; reflexivity. }
  destruct (w_stop_req s && negb (w_stop_sent s)).
  { destruct (w_rcv_end s).
    { intro H. injection H as <- <- <- <-. split; [| constructor]. put_from Hin. }
    destruct (stop_writer _ _ _); intro H; injection H as <- <- <- <-; [| auto].
    split; [put_from Hin | repeat constructor; exact Ea]. }
  destruct (negb (w_active s) && negb (queue_ready s) && (negb (w_fin_req s) || w_fin_sent s)).
  { intro H. injection H as <- <- <- <-. auto. }
  destruct (stream_frame_header _ _ _) as [hdr |]; [| intro H; injection H as <- <- <- <-; auto].
  assert (St : forall s', w_rst_sent s' = w_rst_sent s -> sticky s').
  { intros s' H X. congruence. }
  destruct (w_active s && match w_queue s with [] => true | _ :: _ => false end && negb (w_fin_req s)).
  - unfold format_active. cbv zeta. destruct r as [| | d fin still]; [discriminate | |].
    { intro H. injection H as <- <- <- <-. split; [| constructor]. apply keeps_put. intros _. apply St. reflexivity. }
    destruct (_ <? _).
    { intro H. injection H as <- <- <- <-. split; [| constructor]. apply keeps_put. intros _. apply St. reflexivity. }
    destruct (_ && _).
    { intro H. injection H as <- <- <- <-. split; [| constructor]. apply keeps_put. intros _. apply St. reflexivity. }
    destruct (_ <? _); [discriminate |].
    assert (P : forall a fr fs n, keeps c (n_add_sent (w_put c
       (w_set_fin (w_set_data s (w_sent s + blen d) (w_queue s) now) a fr fs)) n)).
    { intros. eapply keeps_trans; [apply keeps_put; intros _; apply (St (w_set_fin (w_set_data s (w_sent s + blen d) (w_queue s) now) a fr fs)); reflexivity |].
      apply keeps_same; reflexivity. }
    destruct fin; intro H; injection H as <- <- <- <-; (split; [| repeat constructor; exact Ea]).
    + eapply keeps_trans; [apply P |]. apply keeps_same; reflexivity.
    + apply P.
  - unfold format_queued. cbv zeta. destruct (_ <? _); [discriminate |].
    match goal with |- context [n_add_sent (w_put c ?s2) ?n] => set (c1 := n_add_sent (w_put c s2) n) end.
    assert (K : keeps c c1).
    { unfold c1. eapply keeps_trans; [apply keeps_put; intros _; apply St | apply keeps_same; reflexivity].
      match goal with |- context [if ?b then _ else _] => destruct b end; reflexivity. }
    clearbody c1. intro H; repeat match type of H with
    | (match ?x with _ => _ end) = _ => destruct x; try discriminate
    end; injection H as <- <- <- <-; split; try exact K; repeat constructor; exact Ea.
Qed.

Lemma keeps_out c c' : same_but_out c c' -> keeps c c'.
Proof. intros [out ->]. apply keeps_same; reflexivity. Qed.

Lemma fill_loop_keeps c0 now prio app fuel : forall c st pos bytes its asks c' bytes' its' ok,
  keeps c0 c -> inside c0 its -> (forall s, st = Some s -> chosen c s) ->
  fill_loop fuel c st pos bytes its asks now prio app = LDone c' bytes' its' ok ->
  keeps c0 c' /\ inside c0 its'.
Proof.
  induction fuel as [| fuel IH]; intros c st pos bytes its asks c' bytes' its' ok K G Hc; [discriminate |].
  destruct pos as [room |]; [| intro H; apply none_not_done in H; destruct H].
  cbn [fill_loop]. cbv zeta.
  assert (Fin : LDone c bytes its true = LDone c' bytes' its' ok -> keeps c0 c' /\ inside c0 its').
  { intro H. injection H as <- _ <- _. auto. }
  destruct st as [s |]; [| exact Fin].
  destruct (_ && _); [| exact Fin].
  assert (Hs := Hc s eq_refl).
  destruct (format_stream c s room now (app asks)) as [| c1 b its1 asked | c1 asked |] eqn:Ef.
  - destruct (find_ready c). intro H. apply none_not_done in H. destruct H.
  - destruct (format_keeps _ _ _ _ _ _ _ _ _ (proj1 Hs) Ef) as [K1 G1].
    destruct (find_ready c1) as [c2 st2] eqn:Er. destruct (find_ready_spec _ _ _ Er) as [F1 F2].
    assert (K2 : keeps c0 c2) by (eapply keeps_trans; [exact K |]; eapply keeps_trans; [exact K1 | apply keeps_out, F1]).
    assert (G2 : inside c0 (its ++ its1)).
    { apply Forall_app. split; [exact G |]. eapply inside_lims; [| exact G1]. symmetry. apply K. }
    assert (C3 : forall x, st2 = Some x -> chosen c2 x) by (intros x Hx; eapply same_chosen; [exact F1 | auto]).
    destruct st2 as [s2 |].
    + destruct (_ <=? 17).
      { intro H. injection H as <- _ <- _. auto. }
      apply IH; assumption.
    + apply IH; assumption.
  - intro H. injection H as <- _ <- _. apply format_err_same in Ef. subst c1. auto.
  - discriminate.
Qed.

Lemma fill_keeps c fuel room now prio app c' bytes its ok :
  fill fuel c room now prio app = LDone c' bytes its ok -> keeps c c' /\ inside c its.
Proof.
  unfold fill. destruct (find_ready c) as [c1 st] eqn:Ef. destruct (find_ready_spec _ _ _ Ef) as [F1 F2].
  apply fill_loop_keeps.
  - apply keeps_out, F1.
  - constructor.
  - intros x Hx. eapply same_chosen; [exact F1 | auto].
Qed.

(** ** Limits on stream numbers *)
Definition top (n : N) : N := 4 * (N.max 1 n - 1) + 3.

Definition bounded (b u : N) (c : snd_cnx) : Prop := n_max_bidi c <= top b /\ n_max_uni c <= top u.

Lemma bounded_lims b u c c' : lims c' = lims c -> bounded b u c -> bounded b u c'.
Proof. unfold lims, bounded. intro H. injection H as H1 H2 H3. rewrite H2, H3. auto. Qed.

Lemma bounded_mono b u b' u' c : b <= b' -> u <= u' -> bounded b u c -> bounded b' u' c.
Proof. unfold bounded, top. intros. lia. Qed.

Lemma id_of_rank_top v cl uni n : sane_count v = true -> v <= n -> id_of_rank v cl uni <= top n.
Proof.
  unfold sane_count. rewrite !andb_true_iff, !N.ltb_lt. intros [[H1 H2] _] Hn. unfold id_of_rank, top.
  replace ((v + (two64 - 1)) mod two64) with (v - 1).
  - rewrite N.mod_small by (unfold two64; lia). destruct uni, cl; lia.
  - replace (v + (two64 - 1)) with (v - 1 + 1 * two64) by (unfold two64; lia).
    rewrite N.mod_add by (unfold two64; lia). symmetry. apply N.mod_small. unfold two64. lia.
Qed.

Lemma bounded_tp b u c p :
  sane_tp p = true -> tp_streams false p <= b -> tp_streams true p <= u ->
  bounded b u c -> bounded b u (recv_tp c p).
Proof.
  intros Hs Hb Hu H. destruct p as [k v]. cbn [sane_tp tp_streams] in *.
  destruct k; unfold recv_tp; cbn [fst snd]; cbv zeta; try exact H.
  - eapply bounded_lims; [apply keeps_add_output |].
    assert (v <> 4294967295).
    { unfold sane_count in Hs. rewrite !andb_true_iff, negb_true_iff, N.eqb_neq in Hs. tauto. }
    destruct (N.eqb_spec v 4294967295); [contradiction |].
    split; cbn [n_set_limits n_max_bidi n_max_uni]; [apply id_of_rank_top; assumption | apply H].
  - eapply bounded_lims; [apply keeps_add_output |].
    assert (v <> 4294967295).
    { unfold sane_count in Hs. rewrite !andb_true_iff, negb_true_iff, N.eqb_neq in Hs. tauto. }
    destruct (N.eqb_spec v 4294967295); [contradiction |].
    split; cbn [n_set_limits n_max_bidi n_max_uni]; [apply H | apply id_of_rank_top; assumption].
Qed.

Lemma bounded_step b u c e c' its :
  sane_counts e = true -> bounded b u c -> snd_step c e = Some (c', its) ->
  bounded (N.max b (streams_limit false e)) (N.max u (streams_limit true e)) c' /\
  n_client c' = n_client c.
Proof.
  intros Hs H0. set (b' := N.max b (streams_limit false e)). set (u' := N.max u (streams_limit true e)).
  assert (H : bounded b' u' c) by (eapply bounded_mono; [| | exact H0]; unfold b', u'; lia).
  assert (Hb : streams_limit false e <= b') by (unfold b'; lia).
  assert (Hu : streams_limit true e <= u') by (unfold u'; lia).
  clearbody b' u'. clear H0.
  assert (K : forall x, keeps c x -> bounded b' u' x /\ n_client x = n_client c).
  { intros x [X _]. split; [eapply bounded_lims; eassumption |]. unfold lims in X. congruence. }
  destruct e; cbn [snd_step streams_limit sane_counts] in *; intro E.
  - inv_pair E. apply andb_true_iff in Hs. destruct Hs as [Hs1 Hs2]. split; [| reflexivity].
    unfold start_client. split; cbn [n_set_limits n_max_bidi n_max_uni]; apply id_of_rank_top; assumption.
  - inv_pair E. unfold recv_transport.
    assert (H1 : bounded b' u' (clear_tp c)).
    { split; cbn [clear_tp n_set_limits n_max_bidi n_max_uni]; apply N.le_0_l. }
    assert (C1 : n_client (clear_tp c) = n_client c) by reflexivity.
    revert H1 C1. generalize (clear_tp c). clear K H.
    assert (P : forall p, In p l -> sane_tp p = true /\ tp_streams false p <= b' /\ tp_streams true p <= u').
    { intros p Hp. rewrite forallb_forall in Hs. split; [apply Hs, Hp |].
      assert (X := fold_max_le (tp_streams false) l p Hp). assert (Y := fold_max_le (tp_streams true) l p Hp). lia. }
    clear Hs Hb Hu. induction l as [| p l IH]; intros x H1 C1; [auto |].
    cbn [fold_left]. destruct (P p (or_introl eq_refl)) as (P1 & P2 & P3). apply IH.
    + intros q Hq. apply P. right. exact Hq.
    + apply bounded_tp; assumption.
    + rewrite <- C1. destruct p as [[] v]; unfold recv_tp; cbn [fst snd]; cbv zeta; try reflexivity;
        match goal with |- n_client (add_output_streams ?y ?o ?n ?b) = _ =>
          assert (Z := proj1 (keeps_add_output y o n b)); unfold lims in Z; injection Z as Z1 Z2 Z3; rewrite Z1; reflexivity end.
  - inv_pair E. unfold recv_max_data. destruct (_ <? _); split; try exact H; reflexivity.
  - inv_pair E. apply K, keeps_max_stream_data.
  - inv_pair E. unfold recv_max_streams. cbv zeta.
    destruct uni; cbn [Bool.eqb] in *; match goal with |- context [if ?b then _ else _] => destruct b end;
      try (apply K, keeps_refl);
      match goal with |- bounded _ _ (add_output_streams ?y ?o ?n ?b) /\ _ =>
        assert (Z := proj1 (keeps_add_output y o n b)); split;
        [eapply bounded_lims; [exact Z |] | unfold lims in Z; injection Z as Z1 Z2 Z3; rewrite Z1; reflexivity] end;
      split; cbn [n_set_limits n_max_bidi n_max_uni]; try apply H; apply id_of_rank_top; assumption.
  - inv_pair E. apply K, keeps_peer.
  - inv_pair E. apply K. destruct (w_lookup c id) as [s |] eqn:Hl; [| apply keeps_refl].
    apply lookup_in in Hl. put_from (proj1 Hl).
  - inv_pair E. apply K. destruct (w_lookup c id) as [s |] eqn:Hl; [| apply keeps_refl].
    apply lookup_in in Hl. put_from (proj1 Hl).
  - apply some_inj in E. apply K. eapply keeps_add, E.
  - inv_pair E. apply K, keeps_active.
  - inv_pair E. apply K, keeps_prio.
  - inv_pair E. apply K, keeps_app_reset.
  - inv_pair E. apply K, keeps_app_stop.
  - inv_pair E. destruct (w_lookup c id); [| auto]. destruct (_ || _); [| auto]. split; [exact H | reflexivity].
  - destruct (fill fuel c room now prio app) as [c1 b1 i1 ok1 | | |] eqn:Ef; try discriminate.
    inv_pair E. apply K. eapply fill_keeps, Ef.
Qed.

Lemma step_inside c e c' its x id :
  snd_step c e = Some (c', its) -> In x its -> item_id x = Some id -> above_limit c id = false.
Proof.
  intros E Hx Hi.
  assert (Z : its = [] -> above_limit c id = false) by (intros ->; destruct Hx).
  destruct e; cbn [snd_step] in E; try (inv_pair E; apply Z; reflexivity).
  - apply some_inj in E. unfold add_to_stream in E. destruct (for_writing c id0) as [c1 [s |]].
    + destruct (_ && _ && _); [apply pair_inj in E; destruct E as [_ <-]; destruct Hx |].
      cbv zeta in E. destruct (w_rst_sent s || w_stop_rcvd s); apply pair_inj in E; destruct E as [_ <-];
        destruct (fin && negb (w_fin_req s)); cbn in Hx;
        repeat destruct Hx as [<- | Hx]; try discriminate; destruct Hx.
    + apply pair_inj in E; destruct E as [_ <-]; destruct Hx.
  - destruct (fill fuel c room now prio app) as [c1 b1 i1 ok1 | | |] eqn:Ef; try discriminate.
    inv_pair E. apply fill_keeps in Ef. destruct Ef as [_ G]. unfold inside in G. rewrite Forall_forall in G.
    specialize (G x Hx). destruct x; cbn [item_id] in Hi; try discriminate; apply some_inj in Hi; subst; exact G.
Qed.

Lemma inside_rank b u c id :
  bounded b u c -> above_limit c id = false -> mine (n_client c) id = true ->
  rank id <= N.max 1 (if bidi id then b else u).
Proof.
  unfold above_limit, bounded, top, rank. intros [Hb Hu] Ha Hm.
  rewrite <- mine_local in Hm.
  assert (El : Bool.eqb (is_client_id id) (n_client c) = is_local_id id (n_client c)).
  { unfold is_client_id, is_local_id. destruct (id mod 2 =? 0), (n_client c); reflexivity. }
  rewrite El, Hm in Ha. cbn [andb] in Ha. rewrite bidi_bidir in Ha. apply N.ltb_ge in Ha.
  destruct (bidi id); lia.
Qed.

Lemma run_rank evs : forall b u c c' log x id,
  forallb sane_counts evs = true -> bounded b u c ->
  snd_run c evs = Some (c', log) -> In x log -> item_id x = Some id -> mine (n_client c) id = true ->
  rank id <= N.max 1 (N.max (if bidi id then b else u) (streams_announced (negb (bidi id)) evs)).
Proof.
  induction evs as [| e evs IH]; intros b u c c' log x id Hs Hb H Hx Hi Hm.
  - cbn [snd_run] in H. inv_pair H. destruct Hx.
  - cbn [snd_run] in H. destruct (snd_step c e) as [[c1 i1] |] eqn:Es; [| discriminate].
    destruct (snd_run c1 evs) as [[c2 i2] |] eqn:Er; [| discriminate]. inv_pair H.
    cbn [forallb] in Hs. apply andb_true_iff in Hs. destruct Hs as [Hs1 Hs2].
    destruct (bounded_step _ _ _ _ _ _ Hs1 Hb Es) as [Hb1 Hc1].
    cbn [streams_announced fold_right]. fold (streams_announced (negb (bidi id)) evs).
    apply in_app_iff in Hx. destruct Hx as [Hx | Hx].
    + assert (A := step_inside _ _ _ _ _ _ Es Hx Hi).
      assert (R := inside_rank _ _ _ _ Hb A Hm). lia.
    + rewrite <- Hc1 in Hm.
      assert (R := IH _ _ _ _ _ _ _ Hs2 Hb1 Er Hx Hi Hm).
      destruct (bidi id); cbn [negb] in *; lia.
Qed.

Lemma opened_within_limit cl p evs c log x id :
  forallb sane_counts evs = true -> snd_run (snd0 cl p) evs = Some (c, log) ->
  In x log -> item_id x = Some id -> mine cl id = true ->
  rank id <= N.max 1 (streams_announced (negb (bidi id)) evs).
Proof.
  intros Hs H Hx Hi Hm.
  assert (B : bounded 0 0 (snd0 cl p)) by (split; cbn; apply N.le_0_l).
  assert (R := run_rank evs 0 0 _ _ _ _ _ Hs B H Hx Hi Hm).
  destruct (bidi id); cbn [negb] in *; lia.
Qed.
