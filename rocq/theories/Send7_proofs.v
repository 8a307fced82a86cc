(** A requested STOP_SENDING stays scheduled until it is sent. *)
From Verif Require Import Base Varint_model Stream_model Frames_model Send_model Send_spec Stop_spec Send_proofs Send2_proofs Send3_proofs Send4_proofs Send5_proofs.

Definition waits (id err : N) (s : wstream) : Prop :=
  w_id s = id /\ w_stop_req s = true /\ w_stop_sent s = false /\ w_stop_err s = err /\ w_rcv_end s = false.
Definition pend (id err : N) (c : snd_cnx) : Prop :=
  In id (n_out c) /\ exists s, w_lookup c id = Some s /\ waits id err s.

Lemma find_map_put (s : wstream) id l :
  find (fun x => w_id x =? id) (map (fun x => if w_id x =? w_id s then s else x) l)
  = if w_id s =? id then match find (fun x => w_id x =? id) l with Some _ => Some s | None => None end
    else find (fun x => w_id x =? id) l.
Proof.
  induction l as [| x l IH]; cbn [map find]; [destruct (w_id s =? id); reflexivity |].
  destruct (N.eqb_spec (w_id s) id) as [E | E].
  - destruct (N.eqb_spec (w_id x) (w_id s)) as [F | F].
    + rewrite (proj2 (N.eqb_eq (w_id s) id) E), (proj2 (N.eqb_eq (w_id x) id)) by congruence. reflexivity.
    + rewrite (proj2 (N.eqb_neq (w_id x) id)) by congruence. exact IH.
  - destruct (N.eqb_spec (w_id x) (w_id s)) as [F | F].
    + rewrite (proj2 (N.eqb_neq (w_id s) id)), (proj2 (N.eqb_neq (w_id x) id)) by congruence. exact IH.
    + destruct (N.eqb_spec (w_id x) id); [reflexivity | exact IH].
Qed.

Lemma lookup_put c s id :
  w_lookup (w_put c s) id
  = if w_id s =? id then match w_lookup c id with Some _ => Some s | None => None end else w_lookup c id.
Proof. unfold w_lookup, w_put. cbn [n_streams n_set_streams]. apply find_map_put. Qed.

Lemma pend_put id err c s : pend id err c ->
  (forall s0, w_lookup c (w_id s) = Some s0 -> waits id err s0 -> waits id err s) -> pend id err (w_put c s).
Proof.
  intros (I & s0 & L & W) H. split; [exact I |]. rewrite lookup_put.
  destruct (N.eqb_spec (w_id s) id) as [E | E]; [| exists s0; split; assumption].
  rewrite L. exists s. split; [reflexivity |]. apply (H s0); [rewrite E; exact L | exact W].
Qed.

Lemma pend_same id err c c' : n_streams c' = n_streams c -> n_out c' = n_out c -> pend id err c -> pend id err c'.
Proof. intros A B (I & s & L & W). unfold pend, w_lookup. rewrite A, B. eauto. Qed.

Lemma in_out_insert c p i l x : In x l -> In x (out_insert c p i l).
Proof.
  induction l as [| y l IH]; intros H; [destruct H |]. cbn [out_insert].
  destruct (prio_lt p i (prio_of c y) y); [right; exact H |].
  destruct H as [-> | H]; [left; reflexivity | right; apply IH, H].
Qed.
Lemma in_out_insert_self c p i l : In i (out_insert c p i l).
Proof.
  induction l as [| y l IH]; cbn [out_insert]; [left; reflexivity |].
  destruct (prio_lt p i (prio_of c y) y); [left; reflexivity | right; exact IH].
Qed.
Lemma in_out_place c p i l x : In x l \/ x = i -> In x (out_place c p i l).
Proof.
  intros H. unfold out_place. destruct (rev l) as [| y r] eqn:E.
  - assert (l = []) as -> by (destruct l; [reflexivity | cbn in E; destruct (rev l); discriminate]).
    destruct H as [[] | ->]. left; reflexivity.
  - destruct (prio_lt p i (prio_of c y) y).
    + destruct H as [H | ->]; [apply in_out_insert, H | apply in_out_insert_self].
    + apply in_or_app. destruct H as [H | ->]; [left; exact H | right; left; reflexivity].
Qed.

Lemma pend_insert id err c s : pend id err c -> pend id err (insert_output c s).
Proof.
  intros (I & H). unfold insert_output. destruct (is_out c (w_id s)); [split; assumption |].
  destruct (above_limit c (w_id s)); [split; assumption |]. split; [| exact H].
  cbn [n_out n_set_streams]. apply in_out_place. left; exact I.
Qed.

Lemma above_limit_out c out id : above_limit (n_set_streams c (n_streams c) out) id = above_limit c id.
Proof. reflexivity. Qed.

Lemma is_out_in c id : is_out c id = true <-> In id (n_out c).
Proof.
  unfold is_out. rewrite existsb_exists. split.
  - intros (x & H & E). apply N.eqb_eq in E. congruence.
  - intros H. exists id. split; [exact H | apply N.eqb_refl].
Qed.

Lemma is_out_filter c id : is_out (remove_output c id) id = false.
Proof.
  destruct (is_out (remove_output c id) id) eqn:E; [| reflexivity].
  apply is_out_in in E. cbn [remove_output n_out n_set_streams] in E. apply filter_In in E.
  rewrite N.eqb_refl in E. destruct E; discriminate.
Qed.

(** Reordering moves a stream within the list, provided that it is allowed back. *)
Lemma pend_reorder id err c s : (w_id s = id -> above_limit c id = false) -> pend id err c -> pend id err (reorder_output c s).
Proof.
  intros HL (I & H). unfold reorder_output. destruct (is_out c (w_id s)) eqn:Eo; [| split; assumption].
  match goal with |- context [if ?b then _ else _] => destruct b end; [| split; assumption].
  unfold insert_output. rewrite is_out_filter.
  change (above_limit (remove_output c (w_id s)) (w_id s)) with (above_limit c (w_id s)).
  destruct (above_limit c (w_id s)) eqn:Ea.
  - destruct (N.eq_dec (w_id s) id) as [E | E]; [rewrite E, (HL E) in Ea; discriminate |].
    split; [| exact H]. cbn [remove_output n_out n_set_streams]. apply filter_In. split; [exact I |].
    apply negb_true_iff, N.eqb_neq. congruence.
  - split; [| exact H]. cbn [n_out n_set_streams]. apply in_out_place. cbn [remove_output n_out n_set_streams].
    destruct (N.eq_dec (w_id s) id) as [E | E]; [right; congruence | left].
    apply filter_In. split; [exact I |]. apply negb_true_iff, N.eqb_neq. congruence.
Qed.

Lemma lookup_app c l id s : w_lookup c id = Some s -> find (fun x => w_id x =? id) (n_streams c ++ l) = Some s.
Proof.
  unfold w_lookup. induction (n_streams c) as [| x r IH]; cbn [find app]; [discriminate |].
  destruct (w_id x =? id); [exact (fun H => H) | exact IH].
Qed.

Lemma pend_create id err c i : pend id err c -> pend id err (w_create c i).
Proof.
  intros (I & s & L & W). unfold w_create.
  assert (H : pend id err (n_set_streams c (n_streams c ++ [new_wstream c i]) (n_out c))).
  { split; [exact I |]. exists s. split; [apply lookup_app, L | exact W]. }
  destruct (new_output c i).
  - eapply pend_same; [| | apply pend_insert, H]; reflexivity.
  - eapply pend_same; [| | exact H]; reflexivity.
Qed.

Lemma pend_create_missing id err c i : pend id err c -> pend id err (w_create_missing c i).
Proof.
  intros H. unfold w_create_missing. destruct (i <? n_next c (stream_type i)); [exact H |].
  generalize (N.to_nat ((i - n_next c (stream_type i)) / 4 + 1)). intros k. revert c H.
  induction k as [| k IH]; intros c H; cbn [w_create_loop]; [exact H |]. apply IH, pend_create, H.
Qed.

Lemma pend_writing id err c i c' o : for_writing c i = (c', o) -> pend id err c ->
  pend id err c' /\ (forall s, o = Some s -> w_lookup c' i = Some s) /\ n_client c' = n_client c /\
  n_max_bidi c' = n_max_bidi c /\ n_max_uni c' = n_max_uni c.
Proof.
  unfold for_writing. intros E H. destruct (w_lookup c i) as [s |] eqn:L.
  - injection E as <- <-. split; [exact H |]. split; [intros s' [= <-]; exact L | repeat split].
  - destruct (Bool.eqb (is_client_id i) (n_client c)).
    + injection E as <- <-. split; [apply pend_create_missing, H |]. split; [intros s E; exact E |].
      assert (K : lims (w_create_missing c i) = lims c) by (apply (proj1 (keeps_create_missing c i))).
      unfold lims in K. injection K as -> -> ->. repeat split.
    + injection E as <- <-. split; [exact H |]. split; [discriminate | repeat split].
Qed.

Definition ready (id err : N) (c : snd_cnx) : Prop := pend id err c /\ above_limit c id = false.

Lemma above_raise c c' id : n_client c' = n_client c -> n_max_bidi c <= n_max_bidi c' -> n_max_uni c <= n_max_uni c' ->
  above_limit c id = false -> above_limit c' id = false.
Proof.
  intros E B U. unfold above_limit. rewrite E. destruct (Bool.eqb (is_client_id id) (n_client c)); [| auto].
  cbn [andb]. destruct (is_bidir_id id); rewrite !N.ltb_ge; lia.
Qed.

Lemma ready_lims id err c c' : lims c' = lims c -> pend id err c' -> above_limit c id = false -> ready id err c'.
Proof. intros L P A. split; [exact P |]. rewrite (above_lims c c'); assumption. Qed.

Lemma pend_set id err c s s' : w_lookup c (w_id s) = Some s -> w_id s' = w_id s -> w_stop_req s' = w_stop_req s ->
  w_stop_sent s' = w_stop_sent s -> w_stop_err s' = w_stop_err s -> (w_id s = id -> w_rcv_end s' = w_rcv_end s) ->
  pend id err c -> pend id err (w_put c s').
Proof.
  intros L A B C D E H. apply pend_put; [exact H |]. rewrite A. intros s0 L0. rewrite L in L0. injection L0 as <-.
  intros (W1 & W2 & W3 & W4 & W5). unfold waits. rewrite A, B, C, D, (E W1). auto.
Qed.

Ltac put0 L := eapply pend_set; [| | | | | | eassumption]; cbn [w_id w_set_fin w_set_data w_set_prio w_set_rst w_set_max w_set_peer]; try reflexivity; try (rewrite (lookup_id _ _ _ L); exact L).

Lemma pend_add id err c i d fin c' its : add_to_stream c i d fin = (c', its) -> pend id err c -> pend id err c'.
Proof.
  unfold add_to_stream. destruct (for_writing c i) as [c0 o] eqn:E. intros F H.
  destruct (pend_writing _ _ _ _ _ _ E H) as (H0 & L & _). destruct o as [s |]; [| injection F as <- _; exact H0].
  specialize (L s eq_refl). destruct (fin && w_fin_req s && (0 <? blen d)); [injection F as <- _; exact H0 |].
  destruct (w_rst_sent s || w_stop_rcvd s); injection F as <- _.
  - put0 L; auto.
  - put0 L; auto.
Qed.

Lemma pend_active id err c i b : pend id err c -> pend id err (mark_active c i b).
Proof.
  unfold mark_active. destruct (for_writing c i) as [c0 o] eqn:E. intros H.
  destruct (pend_writing _ _ _ _ _ _ E H) as (H0 & L & _). destruct o as [s |]; [| exact H0].
  specialize (L s eq_refl). destruct b; [destruct (negb (w_fin_req s) && negb (w_rst_req s)); [| exact H0] |].
  - put0 L; auto.
  - put0 L; auto.
Qed.

Lemma pend_prio id err c i p : ready id err c -> pend id err (set_priority c i p).
Proof.
  unfold set_priority. destruct (for_writing c i) as [c0 o] eqn:E. intros (H & A).
  destruct (pend_writing _ _ _ _ _ _ E H) as (H0 & L & K1 & K2 & K3). destruct o as [s |]; [| exact H0].
  specialize (L s eq_refl). apply pend_reorder.
  - intros _. rewrite (above_lims c); [exact A |]. unfold lims. cbn [w_put n_set_streams n_client n_max_bidi n_max_uni]. congruence.
  - put0 L; auto.
Qed.

Lemma pend_app_reset id err c i e u : pend id err c -> pend id err (app_reset c i e u).
Proof.
  unfold app_reset. intros H. destruct (w_lookup c i) as [s |] eqn:L; [| exact H].
  destruct (w_fin_sent s && u); [exact H |]. destruct (w_rst_req s); [exact H |]. put0 L; auto.
Qed.

Lemma pend_app_stop id err c i e u : pend id err c -> pend id err (app_stop c i e u).
Proof.
  unfold app_stop. intros H. destruct (w_lookup c i) as [s |] eqn:L; [| exact H].
  destruct u; [exact H |]. destruct (w_stop_req s) eqn:R; [exact H |]. apply pend_insert.
  apply pend_put; [exact H |]. cbn [w_id w_set_stop]. rewrite (lookup_id _ _ _ L), L. intros s0 [= <-] (_ & W & _). congruence.
Qed.

Lemma pend_peer id err c i : pend id err c -> pend id err (peer_stream c i).
Proof.
  unfold peer_stream. intros H. destruct (w_lookup c i); [exact H |].
  destruct (is_local_id i (n_client c)); [exact H | apply pend_create_missing, H].
Qed.

Lemma pend_max_stream_data id err c i v : pend id err c -> pend id err (recv_max_stream_data c i v).
Proof.
  unfold recv_max_stream_data. intros H. apply (pend_peer id err c i) in H.
  destruct (w_lookup (peer_stream c i) i) as [s |] eqn:L; [| exact H].
  destruct (w_max s <? v); [| exact H]. put0 L; auto.
Qed.

Lemma pend_add_output id err c o n b : pend id err c -> pend id err (add_output_streams c o n b).
Proof.
  unfold add_output_streams. intros H. destruct (w_lookup c _); [| exact H].
  generalize (sorted_ids (ids_from (n_streams c) (id_of_rank (u64 (rank_of_id o + 1)) (n_client c) (negb b)) [])).
  intros l. revert c H. induction l as [| x l IH]; intros c H; cbn [add_out_loop]; [exact H |].
  destruct (o <? x); [| apply IH, H]. destruct (n <? x); [exact H |].
  destruct (is_local_id x (n_client c) && Bool.eqb (is_bidir_id x) b); [| apply IH, H].
  destruct (w_lookup c x); [apply IH, pend_insert, H | exact H].
Qed.

Lemma ready_max_streams id err c u r : ready id err c -> ready id err (recv_max_streams c u r).
Proof.
  intros (H & A). unfold recv_max_streams. destruct u.
  - destruct (N.ltb_spec (n_max_uni c) (id_of_rank r (n_client c) true)) as [B | B]; [| split; assumption].
    eapply ready_lims; [exact (proj1 (keeps_add_output _ _ _ _)) | apply pend_add_output; eapply pend_same; [| | exact H]; reflexivity |].
    eapply above_raise; [| | | exact A]; cbn [n_set_limits n_client n_max_bidi n_max_uni]; lia || reflexivity.
  - destruct (N.ltb_spec (n_max_bidi c) (id_of_rank r (n_client c) false)) as [B | B]; [| split; assumption].
    eapply ready_lims; [exact (proj1 (keeps_add_output _ _ _ _)) | apply pend_add_output; eapply pend_same; [| | exact H]; reflexivity |].
    eapply above_raise; [| | | exact A]; cbn [n_set_limits n_client n_max_bidi n_max_uni]; lia || reflexivity.
Qed.

(** ** Filling *)
Lemma walk_gone c l : forall found gone f g, find_walk c l found gone = (f, g) ->
  forall x, In x g -> In x gone \/ (exists s, w_lookup c x = Some s /\ exhausted s = true).
Proof.
  induction l as [| i l IH]; intros found gone f g E x Hx; cbn [find_walk] in E.
  - injection E as _ <-. left; exact Hx.
  - destruct (w_lookup c i) as [s |] eqn:L; [| eapply IH; eassumption].
    repeat match type of E with
      | (if ?b then _ else _) = _ => destruct b eqn:?
      | (match ?o with Some _ => _ | None => _ end) = _ => destruct o eqn:?
      end; try (injection E as _ <-; left; exact Hx); try (eapply IH; eassumption).
    destruct (IH _ _ _ _ E x Hx) as [[-> | H] | H]; [right; eauto | left; exact H | right; exact H].
Qed.

Lemma fold_remove_out l c : forall x, In x (n_out (fold_right (fun id c => remove_output c id) c l)) <-> In x (n_out c) /\ ~ In x l.
Proof.
  induction l as [| i l IH]; intros x; cbn [fold_right In]; [tauto |].
  cbn [remove_output n_out n_set_streams]. rewrite filter_In, IH, negb_true_iff, N.eqb_neq.
  intuition congruence.
Qed.

Lemma pend_find id err c c' o : find_ready c = (c', o) -> pend id err c -> pend id err c'.
Proof.
  intros E (I & s & L & W). destruct (find_ready_spec _ _ _ E) as ((out & Eq) & _).
  unfold find_ready in E. destruct (find_walk c (n_out c) None []) as [f g] eqn:Ew. injection E as <- _.
  split.
  - apply fold_remove_out. split; [exact I |]. intros G.
    destruct (walk_gone _ _ _ _ _ _ Ew id G) as [[] | (s' & L' & X)]. rewrite L in L'. injection L' as <-.
    destruct W as (_ & W2 & W3 & _). unfold exhausted in X. rewrite W2, W3 in X. apply andb_true_iff in X. destruct X; discriminate.
  - exists s. split; [rewrite Eq; exact L | exact W].
Qed.

Lemma pend_remove id err c i : i <> id -> pend id err c -> pend id err (remove_output c i).
Proof.
  intros N (I & H). split; [| exact H]. cbn [remove_output n_out n_set_streams]. apply filter_In. split; [exact I |].
  apply negb_true_iff, N.eqb_neq. congruence.
Qed.

Lemma pend_sent id err c n : pend id err c -> pend id err (n_add_sent c n).
Proof. apply pend_same; reflexivity. Qed.

Lemma pend_format id err c s room now r c' b its asked :
  chosen c s -> format_stream c s room now r = FOk c' b its asked -> pend id err c ->
  pend id err c' \/ In (IStop id err) its.
Proof.
  intros (L & _) F H. unfold format_stream in F.
  destruct (above_limit c (w_id s)); [discriminate |].
  destruct (w_rst_sent s); [injection F as <- _ _ _; left; exact H |].
  destruct (w_rst_req s).
  { destruct (reset_writer (w_id s) (w_err s) (w_sent s) room); injection F as <- _ _ _; left; [| exact H].
    eapply pend_set; [| | | | | | exact H]; cbn [w_id w_set_fin w_set_data w_set_rst]; try reflexivity; exact L. }
  destruct (w_stop_req s && negb (w_stop_sent s)) eqn:Ep.
  { assert (K : w_id s = id -> waits id err s).
    { intros E. destruct H as (_ & s0 & L0 & W). rewrite E, L0 in L. injection L as <-. exact W. }
    destruct (N.eq_dec (w_id s) id) as [E | E].
    - destruct (K E) as (_ & _ & _ & K4 & K5). rewrite K5 in F.
      destruct (stop_writer (w_id s) (w_stop_err s) room); injection F as <- _ <- _; [| left; exact H].
      right. left. congruence.
    - left. destruct (w_rcv_end s); [| destruct (stop_writer (w_id s) (w_stop_err s) room)]; injection F as <- _ _ _;
        try exact H; apply pend_put; try exact H; cbn [w_id w_set_stop]; intros s0 L0 (W1 & _);
        rewrite L in L0; injection L0 as <-; contradiction. }
  destruct (negb (w_active s) && negb (queue_ready s) && (negb (w_fin_req s) || w_fin_sent s));
    [injection F as <- _ _ _; left; exact H |].
  destruct (stream_frame_header (w_id s) (w_sent s) room) as [hdr |]; [| injection F as <- _ _ _; left; exact H].
  assert (NE : w_id s <> id).
  { intros E. destruct H as (_ & s0 & L0 & _ & W2 & W3 & _). rewrite E, L0 in L. injection L as <-.
    rewrite W2, W3 in Ep. discriminate. }
  assert (P : forall s', w_id s' = w_id s -> pend id err (w_put c s')).
  { intros s' E. apply pend_put; [exact H |]. rewrite E. intros s0 L0 (W1 & _). rewrite L in L0. injection L0 as <-. contradiction. }
  left. destruct (w_active s && match w_queue s with [] => true | _ => false end && negb (w_fin_req s)).
  - unfold format_active in F. destruct r as [| | d fin still]; [discriminate | injection F as <- _ _ _; apply P; reflexivity |].
    destruct (allowed_space c s (room - blen hdr) <? blen d); [injection F as <- _ _ _; apply P; reflexivity |].
    destruct ((blen d =? 0) && negb fin); [injection F as <- _ _ _; apply P; reflexivity |].
    destruct (room <? _); [discriminate |]. destruct fin; injection F as <- _ _ _.
    + apply pend_remove; [exact NE |]. apply pend_sent, P. reflexivity.
    + apply pend_sent, P. reflexivity.
  - unfold format_queued in F. destruct (room <? _); [discriminate |].
    match type of F with context [n_add_sent (w_put c ?s') ?n] => set (s2 := s') in *; set (n1 := n) in * end.
    assert (Q : pend id err (n_add_sent (w_put c s2) n1)).
    { apply pend_sent, P. unfold s2. match goal with |- context [if ?b then _ else _] => destruct b end; reflexivity. }
    repeat match type of F with
      | (match ?q with [] => _ | _ :: _ => _ end) = _ => destruct q
      | (if ?b then _ else _) = _ => destruct b end; injection F as <- _ _ _; exact Q.
Qed.

Lemma pend_loop id err now prio app fuel : forall c st pos bytes its asks c' bytes' its' ok,
  (forall s, st = Some s -> chosen c s) -> pend id err c ->
  fill_loop fuel c st pos bytes its asks now prio app = LDone c' bytes' its' ok ->
  pend id err c' \/ In (IStop id err) its'.
Proof.
  assert (Mono : forall fuel c st pos bytes its asks c' bytes' its' ok,
    fill_loop fuel c st pos bytes its asks now prio app = LDone c' bytes' its' ok -> incl its its').
  { clear fuel. induction fuel as [| fuel IH]; intros c st pos bytes its asks c' bytes' its' ok F; cbn [fill_loop] in F; [discriminate |].
    destruct st as [s |]; [| destruct pos; [injection F as _ _ <- _; apply incl_refl | discriminate]].
    destruct ((w_prio s <=? prio) && _); [| destruct pos; [injection F as _ _ <- _; apply incl_refl | discriminate]].
    destruct pos as [room |].
    - destruct (format_stream c s room now (app asks)) as [| c1 b i asked | c1 asked |]; [| | injection F as _ _ <- _; apply incl_refl | discriminate].
      + destruct (find_ready c) as [c2 st2]. exact (IH _ _ _ _ _ _ _ _ _ _ F).
      + destruct (find_ready c1) as [c2 st2]. destruct st2 as [s2 |].
        * destruct (room - blen b <=? 17); [injection F as _ _ <- _; apply incl_appl, incl_refl |].
          intros x Hx. apply (IH _ _ _ _ _ _ _ _ _ _ F). apply in_or_app. left; exact Hx.
        * intros x Hx. apply (IH _ _ _ _ _ _ _ _ _ _ F). apply in_or_app. left; exact Hx.
    - destruct (above_limit c (w_id s)); [| discriminate]. destruct (find_ready c) as [c2 st2]. exact (IH _ _ _ _ _ _ _ _ _ _ F). }
  induction fuel as [| fuel IH]; intros c st pos bytes its asks c' bytes' its' ok Hc H F; cbn [fill_loop] in F; [discriminate |].
  destruct st as [s |]; [| destruct pos; [injection F as <- _ _ _; left; exact H | discriminate]].
  destruct ((w_prio s <=? prio) && _); [| destruct pos; [injection F as <- _ _ _; left; exact H | discriminate]].
  specialize (Hc s eq_refl). destruct pos as [room |].
  - destruct (format_stream c s room now (app asks)) as [| c1 b i asked | c1 asked |] eqn:Ef; [| | | discriminate].
    + destruct (find_ready c) as [c2 st2] eqn:E2. destruct (find_ready_spec _ _ _ E2) as (S2 & C2).
      eapply IH; [| exact (pend_find _ _ _ _ _ E2 H) | exact F]. intros s' ->. apply (same_chosen c); [exact S2 | apply C2; reflexivity].
    + destruct (find_ready c1) as [c2 st2] eqn:E2. destruct (find_ready_spec _ _ _ E2) as (S2 & C2).
      destruct (pend_format _ _ _ _ _ _ _ _ _ _ _ Hc Ef H) as [H1 | H1].
      * pose proof (pend_find _ _ _ _ _ E2 H1) as H2.
        assert (C3 : forall s', st2 = Some s' -> chosen c2 s') by (intros s' ->; apply (same_chosen c1); [exact S2 | apply C2; reflexivity]).
        destruct st2 as [s2 |]; [destruct (room - blen b <=? 17); [injection F as <- _ _ _; left; exact H2 |] |]; eapply IH; eassumption.
      * right. assert (In (IStop id err) (its ++ i)) as X by (apply in_or_app; right; exact H1).
        destruct st2 as [s2 |]; [destruct (room - blen b <=? 17); [injection F as _ _ <- _; exact X |] |]; exact (Mono _ _ _ _ _ _ _ _ _ _ _ F _ X).
    + injection F as <- _ _ _. left. apply format_err_same in Ef. subst. exact H.
  - destruct (above_limit c (w_id s)); [| discriminate]. destruct (find_ready c) as [c2 st2] eqn:E2.
    destruct (find_ready_spec _ _ _ E2) as (S2 & C2).
    eapply IH; [| exact (pend_find _ _ _ _ _ E2 H) | exact F]. intros s' ->. apply (same_chosen c); [exact S2 | apply C2; reflexivity].
Qed.

Lemma lookup_filter c i id out : i <> id ->
  w_lookup (n_set_streams c (filter (fun x => negb (w_id x =? i)) (n_streams c)) out) id = w_lookup c id.
Proof.
  intros NE. unfold w_lookup. cbn [n_streams n_set_streams]. induction (n_streams c) as [| x l IH]; [reflexivity |].
  cbn [filter find]. destruct (N.eqb_spec (w_id x) i) as [E | E]; cbn [negb].
  - rewrite (proj2 (N.eqb_neq (w_id x) id)) by congruence. exact IH.
  - cbn [find]. destruct (w_id x =? id); [reflexivity | exact IH].
Qed.

Lemma pend_step id err c e c' its : undisturbed id e = true -> ready id err c -> snd_step c e = Some (c', its) ->
  ready id err c' \/ In (IStop id err) its.
Proof.
  intros U R E. assert (R0 := R). destruct R as (H & A). destruct e; cbn [undisturbed snd_step] in *; try discriminate U;
    try (injection E as <- _).
  - left. unfold recv_max_data. destruct (n_max c <? v); split; try assumption.
  - left. eapply ready_lims; [exact (proj1 (keeps_max_stream_data _ _ _)) | apply pend_max_stream_data, H | exact A].
  - left. apply ready_max_streams, R0.
  - left. eapply ready_lims; [exact (proj1 (keeps_peer _ _)) | apply pend_peer, H | exact A].
  - left. destruct (w_lookup c id0) as [s |] eqn:L; [| exact R0]. split; [| exact A].
    apply pend_put; [exact H |]. cbn [w_id w_set_peer]. rewrite (lookup_id _ _ _ L), L. intros s0 [= <-] (W & _).
    rewrite (lookup_id _ _ _ L) in W. rewrite W, N.eqb_refl in U. discriminate.
  - left. destruct (w_lookup c id0) as [s |] eqn:L; [| exact R0]. split; [| exact A]. put0 L; auto.
  - injection E as E. left. eapply ready_lims; [exact (proj1 (keeps_add _ _ _ _ _ _ E)) | eapply pend_add; eassumption | exact A].
  - left. eapply ready_lims; [exact (proj1 (keeps_active _ _ _)) | apply pend_active, H | exact A].
  - left. eapply ready_lims; [exact (proj1 (keeps_prio _ _ _)) | apply pend_prio, R0 | exact A].
  - left. eapply ready_lims; [exact (proj1 (keeps_app_reset _ _ _ _)) | apply pend_app_reset, H | exact A].
  - left. eapply ready_lims; [exact (proj1 (keeps_app_stop _ _ _ _)) | apply pend_app_stop, H | exact A].
  - left. destruct (w_lookup c id0) as [s |] eqn:L; [| exact R0].
    destruct ((w_fin_req s && w_fin_sent s) || (w_rst_req s && w_rst_sent s)); [| exact R0].
    apply negb_true_iff, N.eqb_neq in U. split; [| exact A]. destruct H as (I & x & Lx & W). split.
    + cbn [n_out n_set_streams]. apply filter_In. split; [exact I |]. apply negb_true_iff, N.eqb_neq. congruence.
    + exists x. rewrite lookup_filter by exact U. split; assumption.
  - unfold fill in E. destruct (find_ready c) as [c1 st] eqn:Ef. destruct (find_ready_spec _ _ _ Ef) as (S1 & C1).
    destruct (fill_loop fuel c1 st (Some room) [] [] 0 now prio app) as [c2 b i ok | | |] eqn:El; try discriminate.
    injection E as <- <-.
    destruct (pend_loop id err now prio app fuel c1 st (Some room) [] [] 0 c2 b i ok) as [P | P];
      [| exact (pend_find _ _ _ _ _ Ef H) | exact El | | right; exact P].
    + intros s ->. apply (same_chosen c); [exact S1 | apply C1; reflexivity].
    + left. eapply ready_lims; [| exact P | exact A].
      assert (F : fill fuel c room now prio app = LDone c2 b i ok) by (unfold fill; rewrite Ef; exact El).
      exact (proj1 (proj1 (fill_keeps _ _ _ _ _ _ _ _ _ _ F))).
Qed.

Lemma stop_scheduled id err : forall evs c c' log, forallb (undisturbed id) evs = true ->
  ready id err c -> snd_run c evs = Some (c', log) -> In (IStop id err) log \/ ready id err c'.
Proof.
  induction evs as [| e evs IH]; intros c c' log U R E; cbn [snd_run forallb] in *.
  - injection E as <- <-. right; exact R.
  - apply andb_true_iff in U. destruct U as (U1 & U2). destruct (snd_step c e) as [[c1 i1] |] eqn:E1; [| discriminate].
    destruct (snd_run c1 evs) as [[c2 i2] |] eqn:E2; [| discriminate]. injection E as <- <-.
    destruct (pend_step _ _ _ _ _ _ U1 R E1) as [R1 | R1]; [| left; apply in_or_app; left; exact R1].
    destruct (IH _ _ _ U2 R1 E2) as [X | X]; [left; apply in_or_app; right; exact X | right; exact X].
Qed.

(** The request itself. *)
Lemma stop_requested c id err s : w_lookup c id = Some s -> w_stop_req s = false -> w_stop_sent s = false ->
  w_rcv_end s = false -> above_limit c id = false -> ready id err (app_stop c id err false).
Proof.
  intros L R1 R2 R3 A. unfold app_stop. rewrite L, R1.
  assert (Ei := lookup_id _ _ _ L).
  split; [| rewrite (above_lims c); [exact A |]; exact (proj1 (keeps_insert _ _))].
  split.
  - unfold insert_output. cbn [w_id w_set_stop].
    change (above_limit (w_put c (w_set_stop s true (w_stop_sent s) err)) (w_id s)) with (above_limit c (w_id s)).
    rewrite Ei, A. destruct (is_out (w_put c (w_set_stop s true (w_stop_sent s) err)) id) eqn:O.
    + apply is_out_in, O.
    + cbn [n_out n_set_streams]. apply in_out_place. right; reflexivity.
  - exists (w_set_stop s true (w_stop_sent s) err).
    assert (X : w_lookup (w_put c (w_set_stop s true (w_stop_sent s) err)) id = Some (w_set_stop s true (w_stop_sent s) err)).
    { rewrite lookup_put. cbn [w_id w_set_stop]. rewrite Ei, N.eqb_refl, L. reflexivity. }
    split.
    + unfold insert_output. destruct (is_out _ _); [exact X |].
      match goal with |- context [if ?b then _ else _] => destruct b end; exact X.
    + unfold waits. cbn [w_id w_stop_req w_stop_sent w_stop_err w_rcv_end w_set_stop]. auto.
Qed.

(** ** When its turn has come, it is sent *)
Lemma walk_skip c : forall l1 l2 gone, Forall (nothing_to_send c) l1 ->
  exists gone', find_walk c (l1 ++ l2) None gone = find_walk c l2 None gone'.
Proof.
  induction l1 as [| i l1 IH]; intros l2 gone F; cbn [app find_walk]; [eauto |].
  inversion F as [| ? ? F1 F2]; subst. destruct (w_lookup c i) as [s |] eqn:L; [| apply IH, F2].
  destruct (F1 s L) as (-> & ->). destruct (exhausted s); apply IH, F2.
Qed.

Lemma stop_sent_now c id err s l1 l2 fuel room now prio app c' b its ok :
  ready id err c -> w_lookup c id = Some s -> w_rst_req s = false -> w_rst_sent s = false ->
  n_out c = l1 ++ id :: l2 -> Forall (nothing_to_send c) l1 ->
  id < 1073741824 -> err < 1073741824 -> 17 < room -> w_prio s <= prio ->
  fill fuel c room now prio app = LDone c' b its ok -> exists its', its = IStop id err :: its'.
Proof.
  intros ((_ & s0 & L0 & W) & A) L R1 R2 O F I1 I2 Hr Hp E. rewrite L in L0. injection L0 as <-.
  destruct W as (W1 & W2 & W3 & W4 & W5).
  unfold fill in E. destruct (find_ready c) as [c1 st] eqn:Ef. destruct (find_ready_spec _ _ _ Ef) as ((out & Eo) & _).
  assert (st = Some s).
  { unfold find_ready in Ef. rewrite O in Ef. destruct (walk_skip c l1 (id :: l2) [] F) as (g & Eg). rewrite Eg in Ef.
    cbn [find_walk] in Ef. rewrite L in Ef. replace (urgent s) with true in Ef by (unfold urgent; rewrite R1, W2, W3; reflexivity).
    injection Ef as _ <-. reflexivity. }
  subst st. destruct fuel as [| fuel]; [discriminate |]. cbn [fill_loop] in E.
  rewrite (proj2 (N.leb_le _ _) Hp), (proj2 (N.ltb_lt 0 room)) in E by lia. cbn [andb] in E.
  unfold format_stream in E. rewrite W1 in E.
  replace (above_limit c1 id) with false in E by (rewrite Eo; symmetry; exact A).
  rewrite R2, R1, W2, W3 in E. cbn [andb negb] in E. rewrite W5, W4 in E.
  destruct (stop_fits id err room I1 I2 Hr) as (x0 & b0 & Es). rewrite Es in E.
  match type of E with context [find_ready ?x] => destruct (find_ready x) as [c2 st2] end.
  assert (Mono : forall fuel c st pos bytes its asks c' bytes' its' ok,
    fill_loop fuel c st pos bytes its asks now prio app = LDone c' bytes' its' ok -> exists x, its' = its ++ x).
  { clear. induction fuel as [| fuel IH]; intros c st pos bytes its asks c' bytes' its' ok F; cbn [fill_loop] in F; [discriminate |].
    destruct st as [s |]; [| destruct pos; [injection F as _ _ <- _; exists []; rewrite app_nil_r; reflexivity | discriminate]].
    destruct ((w_prio s <=? prio) && _); [| destruct pos; [injection F as _ _ <- _; exists []; rewrite app_nil_r; reflexivity | discriminate]].
    destruct pos as [room |].
    - destruct (format_stream c s room now (app asks)) as [| c1 b i asked | c1 asked |];
        [| | injection F as _ _ <- _; exists []; rewrite app_nil_r; reflexivity | discriminate].
      + destruct (find_ready c) as [c2 st2]. exact (IH _ _ _ _ _ _ _ _ _ _ F).
      + destruct (find_ready c1) as [c2 st2]. destruct st2 as [s2 |].
        * destruct (room - blen b <=? 17); [injection F as _ _ <- _; eauto |].
          destruct (IH _ _ _ _ _ _ _ _ _ _ F) as (x & ->). exists (i ++ x). rewrite app_assoc. reflexivity.
        * destruct (IH _ _ _ _ _ _ _ _ _ _ F) as (x & ->). exists (i ++ x). rewrite app_assoc. reflexivity.
    - destruct (above_limit c (w_id s)); [| discriminate]. destruct (find_ready c) as [c2 st2]. exact (IH _ _ _ _ _ _ _ _ _ _ F). }
  destruct st2 as [s2 |].
  - match type of E with context [if ?b then _ else _] => destruct b end.
    + injection E as _ _ <- _. exists []. reflexivity.
    + destruct (Mono _ _ _ _ _ _ _ _ _ _ _ E) as (x & ->). exists x. reflexivity.
  - destruct (Mono _ _ _ _ _ _ _ _ _ _ _ E) as (x & ->). exists x. reflexivity.
Qed.

Lemma stop_never_forgotten c id err s evs c' log :
  w_lookup c id = Some s -> w_stop_req s = false -> w_stop_sent s = false -> w_rcv_end s = false ->
  above_limit c id = false -> forallb (undisturbed id) evs = true ->
  snd_run (app_stop c id err false) evs = Some (c', log) ->
  In (IStop id err) log \/ stop_waiting c' id err.
Proof.
  intros L R1 R2 R3 A U E. pose proof (stop_requested _ _ err _ L R1 R2 R3 A) as R.
  destruct (stop_scheduled id err _ _ _ _ U R E) as [X | ((I & x & Lx & W) & _)]; [left; exact X | right].
  split; [exact I |]. exists x. destruct W as (W1 & W2 & W3 & W4 & W5). auto.
Qed.

Lemma stop_sent_next c id err s l1 l2 fuel room now prio app c' b its ok :
  stop_waiting c id err -> w_lookup c id = Some s -> w_rcv_end s = false ->
  w_rst_req s = false -> w_rst_sent s = false -> above_limit c id = false ->
  n_out c = l1 ++ id :: l2 -> Forall (nothing_to_send c) l1 ->
  id < 1073741824 -> err < 1073741824 -> 17 < room -> w_prio s <= prio ->
  fill fuel c room now prio app = LDone c' b its ok -> exists its', its = IStop id err :: its'.
Proof.
  intros (I & x & Lx & W2 & W3 & W4) L W5 R1 R2 A. apply stop_sent_now with (s := s); try assumption.
  rewrite L in Lx. injection Lx as <-. split; [| exact A]. split; [exact I |]. exists s. split; [exact L |].
  unfold waits. pose proof (lookup_id _ _ _ L). auto.
Qed.
