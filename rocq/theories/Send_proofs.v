(** Proofs about the sending side: invariant of every operation. *)
From Verif Require Import Base Tac Varint_model Stream_model Send_model Send_spec.

Lemma pair_inj {A B} (a c : A) (b d : B) : (a, b) = (c, d) -> a = c /\ b = d.
Proof. intro H. inversion H. auto. Qed.

Lemma mine_local cl id : is_local_id id cl = mine cl id.
Proof.
  unfold is_local_id, mine. rewrite <- N.negb_odd.
  assert (E : (id mod 2 =? 0) = negb (N.odd id)).
  { rewrite N.negb_odd. destruct (N.even id) eqn:Ev.
    - apply N.eqb_eq. apply N.even_spec in Ev. destruct Ev as [k ->]. rewrite N.mul_comm.
      apply N.mod_mul. lia.
    - apply N.eqb_neq. intro H. assert (N.even id = true); [| congruence].
      apply N.even_spec. exists (id / 2). generalize (N.div_mod' id 2). lia. }
  rewrite E. destruct (N.odd id), cl; reflexivity.
Qed.

Lemma bidi_bidir id : is_bidir_id id = bidi id.
Proof.
  unfold is_bidir_id, bidi. rewrite N.testbit_eqb. change (2 ^ 1) with 2.
  destruct (N.eqb_spec ((id / 2) mod 2) 0) as [H | H];
    destruct (N.eqb_spec ((id / 2) mod 2) 1) as [H' | H']; cbn; try reflexivity; lia.
Qed.

Lemma initial_max_credit c id :
  initial_max c id = initial_credit (n_client c) id (cr_bl (n_cr c)) (cr_br (n_cr c)) (cr_u (n_cr c)).
Proof. unfold initial_max, initial_credit. rewrite mine_local, bidi_bidir. reflexivity. Qed.

(** The log. *)
Lemma sent_app id l1 l2 : sent_bytes id (l1 ++ l2) = sent_bytes id l1 ++ sent_bytes id l2.
Proof.
  induction l1 as [| x l1 IH]; [reflexivity |]. cbn [app sent_bytes]. destruct x; try exact IH.
  destruct (id0 =? id); rewrite IH; [rewrite app_assoc |]; reflexivity.
Qed.
Lemma wrote_app id l1 l2 : wrote_bytes id (l1 ++ l2) = wrote_bytes id l1 ++ wrote_bytes id l2.
Proof.
  induction l1 as [| x l1 IH]; [reflexivity |]. cbn [app wrote_bytes]. destruct x; try exact IH.
  destruct (id0 =? id); rewrite IH; [rewrite app_assoc |]; reflexivity.
Qed.
Lemma total_app l1 l2 : total_sent (l1 ++ l2) = total_sent l1 + total_sent l2.
Proof.
  induction l1 as [| x l1 IH]; [reflexivity |]. cbn [app total_sent]. destruct x; rewrite ?IH; lia.
Qed.

Lemma blen_app (a b : list N) : blen (a ++ b) = blen a + blen b.
Proof. unfold blen. rewrite app_length. lia. Qed.

(** Bytes waiting in the send queue. *)
Definition pending (q : list (list N * N)) : list N :=
  concat (map (fun n => skipn (N.to_nat (snd n)) (fst n)) q).

(** Every node still has something to send. *)
Definition node_ok (n : list N * N) : Prop := snd n < blen (fst n).

(** No RESET_STREAM was sent on the stream. *)
Definition rst_free (id : N) (log : list item) : Prop := forall e f, ~ In (IReset id e f) log.

(** A stream on which only the peer sends. *)
Definition rx_only (cl : bool) (id : N) : bool := negb (bidi id) && negb (mine cl id).

Definition swf (A : N -> N) (cl : bool) (log : list item) (s : wstream) : Prop :=
  w_max s <= A (w_id s) /\ w_sent s <= A (w_id s) /\
  w_sent s = blen (sent_bytes (w_id s) log) /\ Forall node_ok (w_queue s) /\
  exists rest, wrote_bytes (w_id s) log = sent_bytes (w_id s) log ++ pending (w_queue s) ++ rest /\
    (w_rst_sent s = false -> rest = []) /\ (w_rst_sent s = true -> w_queue s = []) /\
    (w_rst_sent s = false -> rst_free (w_id s) log) /\
    (w_fin_req s = true -> In (IFin (w_id s)) log \/ rx_only cl (w_id s) = true).

Record inv (A : N -> N) (M : N) (cl : bool) (log : list item) (c : snd_cnx) : Prop := mk_inv {
  i_client : n_client c = cl;
  i_nodup : NoDup (map w_id (n_streams c));
  i_str : Forall (swf A cl log) (n_streams c);
  i_next : forall t, t < 4 -> n_next c t mod 4 = t;
  i_fresh : forall id, n_next c (id mod 4) <= id ->
     ~ In id (map w_id (n_streams c)) /\ sent_bytes id log = [] /\ wrote_bytes id log = [] /\ rst_free id log;
  i_cr : forall id, initial_max c id <= A id;
  i_sum : n_data_sent c = total_sent log;
  i_sent : n_data_sent c <= M;
  i_max : n_max c <= M }.

Lemma swf_mono A A' cl log s : (forall i, A i <= A' i) -> swf A cl log s -> swf A' cl log s.
Proof.
  intros HA (H1 & H2 & H3). specialize (HA (w_id s)). split; [lia |]. split; [lia | exact H3].
Qed.

Lemma inv_mono A M A' M' cl log c :
  (forall i, A i <= A' i) -> M <= M' -> inv A M cl log c -> inv A' M' cl log c.
Proof.
  intros HA HM [H1 H2 H3 H4 H5 H6 H7 H8 H9]. constructor; try assumption; try lia.
  - eapply Forall_impl; [| exact H3]. intros s. apply swf_mono. exact HA.
  - intro id. specialize (H6 id). specialize (HA id). lia.
Qed.

Lemma lookup_in c id s : w_lookup c id = Some s -> In s (n_streams c) /\ w_id s = id.
Proof. intro H. apply find_some in H. destruct H as [H E]. apply N.eqb_eq in E. auto. Qed.

Lemma lookup_wf A M cl log c id s : inv A M cl log c -> w_lookup c id = Some s -> swf A cl log s /\ w_id s = id.
Proof.
  intros I H. apply lookup_in in H. destruct H as [H E]. split; [| exact E].
  exact (proj1 (Forall_forall _ _) (i_str _ _ _ _ _ I) s H).
Qed.

(** Changes that do not concern the invariant. *)
Lemma inv_same A M cl log c c' :
  n_client c' = n_client c -> n_streams c' = n_streams c -> (forall t, n_next c' t = n_next c t) ->
  n_data_sent c' = n_data_sent c -> n_max c' <= M -> n_cr c' = n_cr c ->
  inv A M cl log c -> inv A M cl log c'.
Proof.
  intros E1 E2 E3 E4 E5 E6 [H1 H2 H3 H4 H5 H6 H7 H8 H9].
  constructor; rewrite ?E1, ?E2, ?E4; try assumption.
  - intros t Ht. rewrite E3. auto.
  - intros id. rewrite E3. auto.
  - intro id. rewrite initial_max_credit, E1, E6, <- initial_max_credit. apply H6.
Qed.

Lemma inv_out A M cl log c out : inv A M cl log c -> inv A M cl log (n_set_streams c (n_streams c) out).
Proof. intro I. eapply inv_same; [.. | exact I]; try reflexivity. exact (i_max _ _ _ _ _ I). Qed.

Lemma inv_limits A M cl log c m mb mu :
  m <= M -> inv A M cl log c -> inv A M cl log (n_set_limits c m mb mu).
Proof. intros Hm I. eapply inv_same; [.. | exact I]; try reflexivity. exact Hm. Qed.

Lemma inv_insert A M cl log c s : inv A M cl log c -> inv A M cl log (insert_output c s).
Proof.
  intro I. unfold insert_output. destruct (is_out c (w_id s)); [exact I |].
  destruct (above_limit c (w_id s)); [exact I |]. apply inv_out. exact I.
Qed.

Lemma inv_remove A M cl log c id : inv A M cl log c -> inv A M cl log (remove_output c id).
Proof. apply inv_out. Qed.

Lemma inv_reorder A M cl log c s : inv A M cl log c -> inv A M cl log (reorder_output c s).
Proof.
  intro I. unfold reorder_output. destruct (is_out c (w_id s)); [| exact I].
  match goal with |- context [if ?b then _ else _] => destruct b end; [| exact I].
  apply inv_insert, inv_remove, I.
Qed.

(** Replacement of one stream, with what it adds to the log. *)
Definition only (id : N) (its : list item) : Prop :=
  forall i, i <> id -> sent_bytes i its = [] /\ wrote_bytes i its = [] /\ rst_free i its.

Lemma rst_free_app id l1 l2 : rst_free id l1 -> rst_free id l2 -> rst_free id (l1 ++ l2).
Proof. intros H1 H2 e f H. apply in_app_iff in H. destruct H; [eapply H1 | eapply H2]; eassumption. Qed.

Lemma swf_more A cl log its s : sent_bytes (w_id s) its = [] -> wrote_bytes (w_id s) its = [] ->
  rst_free (w_id s) its -> swf A cl log s -> swf A cl (log ++ its) s.
Proof.
  intros O1 O2 O3 (H1 & H2 & H3 & H4 & rest & H5 & H6 & H7 & H8 & H9).
  unfold swf. rewrite sent_app, wrote_app, O1, O2, !app_nil_r.
  split; [exact H1 |]. split; [exact H2 |]. split; [exact H3 |]. split; [exact H4 |].
  exists rest. split; [exact H5 |]. split; [exact H6 |]. split; [exact H7 |]. split.
  - intro X. apply rst_free_app; auto.
  - intro X. destruct (H9 X); [left; apply in_app_iff; auto | auto].
Qed.

Lemma map_put_ids (s : wstream) l :
  map w_id (map (fun x => if w_id x =? w_id s then s else x) l) = map w_id l.
Proof.
  rewrite map_map. apply map_ext. intro x. destruct (N.eqb_spec (w_id x) (w_id s)); congruence.
Qed.

Lemma inv_replace A M cl log c c' s its :
  inv A M cl log c -> In (w_id s) (map w_id (n_streams c)) ->
  n_client c' = n_client c ->
  n_streams c' = map (fun x => if w_id x =? w_id s then s else x) (n_streams c) ->
  (forall t, n_next c' t = n_next c t) -> n_data_sent c' = n_data_sent c + total_sent its ->
  n_max c' = n_max c -> n_cr c' = n_cr c -> n_data_sent c' <= M ->
  only (w_id s) its -> swf A cl (log ++ its) s -> inv A M cl (log ++ its) c'.
Proof.
  intros [H1 H2 H3 H4 H5 H6 H7 H8 H9] Hin E1 E2 E3 E4 E5 E6 E7 Ho Hs.
  constructor; rewrite ?E1, ?E2, ?E5; try assumption.
  - rewrite map_put_ids. exact H2.
  - apply Forall_forall. intros x Hx. apply in_map_iff in Hx. destruct Hx as (y & Ey & Hy).
    destruct (N.eqb_spec (w_id y) (w_id s)) as [E | E]; subst x; [exact Hs |].
    rewrite Forall_forall in H3. specialize (H3 y Hy). destruct (Ho (w_id y) E) as (O1 & O2 & O3).
    apply swf_more; assumption.
  - intros t Ht. rewrite E3. auto.
  - intros id. rewrite E3, map_put_ids. intro Hn. destruct (H5 id Hn) as (F1 & F2 & F3 & F4).
    assert (Hne : id <> w_id s) by (intro; subst; tauto).
    destruct (Ho id Hne) as (O1 & O2 & O3). rewrite sent_app, wrote_app, F2, F3, O1, O2.
    split; [exact F1 |]. split; [reflexivity |]. split; [reflexivity |]. apply rst_free_app; assumption.
  - intro id. rewrite initial_max_credit, E1, E6, <- initial_max_credit. apply H6.
  - rewrite E4, total_app. lia.
Qed.

Lemma inv_put A M cl log c s its :
  inv A M cl log c -> In (w_id s) (map w_id (n_streams c)) -> total_sent its = 0 ->
  only (w_id s) its -> swf A cl (log ++ its) s -> inv A M cl (log ++ its) (w_put c s).
Proof.
  intros I Hin Ht Ho Hs. eapply inv_replace; try exact I; try exact Hs; try reflexivity; try assumption.
  - rewrite Ht. cbn. lia.
  - exact (i_sent _ _ _ _ _ I).
Qed.

Lemma only_nil id : only id [].
Proof. intros i _. split; [reflexivity |]. split; [reflexivity |]. intros e f []. Qed.

Lemma inv_put0 A M cl log c s :
  inv A M cl log c -> In (w_id s) (map w_id (n_streams c)) -> swf A cl log s -> inv A M cl log (w_put c s).
Proof.
  intros I Hin Hs. rewrite <- (app_nil_r log). apply inv_put; try assumption.
  - reflexivity.
  - apply only_nil.
  - rewrite app_nil_r. exact Hs.
Qed.

Lemma in_ids c id s : w_lookup c id = Some s -> In (w_id s) (map w_id (n_streams c)).
Proof. intro H. apply lookup_in in H. apply in_map. tauto. Qed.

(** Creation of streams. *)
Lemma swf_new A log c id :
  initial_max c id <= A id -> sent_bytes id log = [] -> wrote_bytes id log = [] -> rst_free id log ->
  swf A (n_client c) log (new_wstream c id).
Proof.
  intros H E1 E2 E3. unfold swf, new_wstream. cbn [w_max w_id w_sent w_queue w_rst_sent w_fin_req].
  rewrite E1, E2. split; [exact H |]. split; [lia |]. split; [reflexivity |]. split; [constructor |].
  exists []. split; [reflexivity |]. split; [reflexivity |]. split; [reflexivity |].
  split; [intros _; exact E3 |]. rewrite bidi_bidir, mine_local. auto.
Qed.

Lemma inv_create A M cl log c t :
  t < 4 -> inv A M cl log c -> inv A M cl log (w_create c (n_next c t)).
Proof.
  intros Ht I. pose proof I as [H1 H2 H3 H4 H5 H6 H7 H8 H9].
  set (id := n_next c t) in *. assert (Hm : id mod 4 = t) by (apply H4; exact Ht).
  assert (Hf : n_next c (id mod 4) <= id) by (rewrite Hm; unfold id; lia).
  destruct (H5 id Hf) as (F1 & F2 & F3 & F4). unfold w_create. cbv zeta.
  set (s := new_wstream c id).
  assert (Hi : w_id s = id) by reflexivity.
  set (c1 := n_set_streams c (n_streams c ++ [s]) (n_out c)).
  set (c2 := if new_output c id then insert_output c1 s else c1).
  assert (P : n_streams c2 = n_streams c ++ [s] /\ n_client c2 = n_client c /\ n_next c2 = n_next c
     /\ n_data_sent c2 = n_data_sent c /\ n_max c2 = n_max c /\ n_cr c2 = n_cr c).
  { unfold c2, insert_output. destruct (new_output c id); [| repeat split].
    destruct (is_out c1 (w_id s)); [repeat split |]. destruct (above_limit c1 (w_id s)); repeat split. }
  destruct P as (P1 & P2 & P3 & P4 & P5 & P6). unfold stream_type. rewrite Hm.
  constructor; cbn [n_set_next n_client n_streams n_next n_data_sent n_max];
    rewrite ?P1, ?P2, ?P3, ?P4, ?P5; try assumption.
  - rewrite map_app. cbn [map]. apply NoDup_app_remove_r with (l' := []) || idtac.
    rewrite Hi. clear - H2 F1. induction (map w_id (n_streams c)) as [| x l IH]; cbn.
    + constructor; [intros [] | constructor].
    + inversion H2; subst. constructor.
      * rewrite in_app_iff. cbn. intros [Hx | [Hx | []]]; [contradiction |]. subst. apply F1. left. reflexivity.
      * apply IH; [assumption |]. intro. apply F1. right. assumption.
  - apply Forall_app. split; [exact H3 |]. constructor; [| constructor].
    rewrite <- H1. apply swf_new; [apply H6 | assumption | assumption | assumption].
  - intros t' Ht'. destruct (N.eqb_spec t' t); [| auto]. subst t'.
    clear - Hm Ht. lia.
  - intros id' Hid'. rewrite map_app, in_app_iff. cbn [map In].
    destruct (N.eqb_spec (id' mod 4) t) as [E | E].
    + assert (n_next c (id' mod 4) <= id') by (rewrite E; fold id; lia).
      destruct (H5 id' H) as (G1 & G2 & G3 & G4). split; [| auto].
      intros [X | [X | []]]; [tauto |]. rewrite Hi in X. lia.
    + destruct (H5 id' Hid') as (G1 & G2 & G3 & G4). split; [| auto].
      intros [X | [X | []]]; [tauto |]. rewrite Hi in X. subst id'. congruence.
  - intro i. unfold initial_max. cbn [n_client n_cr n_set_next]. rewrite P2, P6. apply H6.
Qed.

Lemma mod4_lt id : stream_type id < 4.
Proof. unfold stream_type. apply N.mod_lt. lia. Qed.

Lemma inv_create_loop A M cl log id k : forall c,
  inv A M cl log c -> inv A M cl log (w_create_loop k c id).
Proof.
  induction k as [| k IH]; intros c I; cbn [w_create_loop]; [exact I |].
  apply IH. apply inv_create; [apply mod4_lt | exact I].
Qed.

Lemma inv_create_missing A M cl log c id : inv A M cl log c -> inv A M cl log (w_create_missing c id).
Proof.
  intro I. unfold w_create_missing. destruct (id <? n_next c (stream_type id)); [exact I |].
  apply inv_create_loop, I.
Qed.

Lemma inv_writing A M cl log c id c' o :
  inv A M cl log c -> for_writing c id = (c', o) ->
  inv A M cl log c' /\ forall s, o = Some s -> w_lookup c' id = Some s.
Proof.
  intros I. unfold for_writing. destruct (w_lookup c id) as [s |] eqn:E.
  - intro H. apply pair_inj in H. destruct H as [<- <-]. split; [exact I |]. congruence.
  - destruct (Bool.eqb _ _); intro H; apply pair_inj in H; destruct H as [<- <-].
    + split; [apply inv_create_missing, I | auto].
    + split; [exact I | congruence].
Qed.

(** Changes of a stream that leave the accounted fields alone. *)
Lemma swf_same A cl log s s' :
  w_id s' = w_id s -> w_sent s' = w_sent s -> w_max s' <= A (w_id s) -> w_queue s' = w_queue s ->
  w_rst_sent s' = w_rst_sent s -> w_fin_req s' = w_fin_req s -> swf A cl log s -> swf A cl log s'.
Proof.
  intros E1 E2 E3 E4 E5 E6 (H1 & H2 & H3 & H4 & H5). unfold swf. rewrite E1, E2, E4, E5, E6.
  split; [exact E3 |]. split; [exact H2 |]. split; [exact H3 |]. split; [exact H4 | exact H5].
Qed.

Ltac same_put I :=
  match goal with
  | H : w_lookup ?c ?id = Some ?s |- inv _ _ _ _ (w_put ?c _) =>
    apply inv_put0; [exact I | change (In (w_id s) (map w_id (n_streams c))); exact (in_ids _ _ _ H) |];
    apply (swf_same _ _ _ s); [.. | exact (proj1 (lookup_wf _ _ _ _ _ _ _ I H))]; try reflexivity;
    try (exact (proj1 (proj1 (lookup_wf _ _ _ _ _ _ _ I H))))
  end.

Lemma pending_app q1 q2 : pending (q1 ++ q2) = pending q1 ++ pending q2.
Proof. unfold pending. rewrite map_app, concat_app. reflexivity. Qed.

Lemma inv_add A M cl log c id d fin c' its :
  inv A M cl log c -> add_to_stream c id d fin = (c', its) -> inv A M cl (log ++ its) c'.
Proof.
  intros I. unfold add_to_stream. destruct (for_writing c id) as [c1 o] eqn:Ew.
  destruct (inv_writing _ _ _ _ _ _ _ _ I Ew) as [I1 Hl].
  destruct o as [s |].
  2:{ intro H. apply pair_inj in H. destruct H as [<- <-]. rewrite app_nil_r. exact I1. }
  specialize (Hl s eq_refl).
  destruct (fin && w_fin_req s && (0 <? blen d)).
  { intro H. apply pair_inj in H. destruct H as [<- <-]. rewrite app_nil_r. exact I1. }
  cbv zeta. destruct (lookup_wf _ _ _ _ _ _ _ I1 Hl) as [Hw Hid].
  assert (Hin := in_ids _ _ _ Hl).
  set (asked := if fin && negb (w_fin_req s) then [IFin id] else []).
  assert (Ha : (forall i, sent_bytes i asked = [] /\ wrote_bytes i asked = [] /\ rst_free i asked)
     /\ total_sent asked = 0).
  { unfold asked. destruct (fin && negb (w_fin_req s)); split; try reflexivity; intro i;
      split; try reflexivity; split; try reflexivity; intros e f H; cbn in H; destruct H; congruence || contradiction. }
  destruct Ha as [Ha1 Ha2].
  assert (Hf : forall l, w_fin_req s || fin = true -> In (IFin id) log \/ rx_only cl id = true ->
     In (IFin id) (log ++ l) \/ rx_only cl id = true).
  { intros l _ [H | H]; [left; apply in_app_iff; auto | auto]. }
  assert (Hfin : (w_fin_req s = true -> In (IFin id) log \/ rx_only cl id = true) ->
     w_fin_req s || fin = true -> forall l, In (IFin id) (log ++ l ++ asked) \/ rx_only cl id = true).
  { intros W X l. destruct (w_fin_req s) eqn:Ef.
    - destruct (W eq_refl) as [W' | W']; [left; apply in_app_iff; auto | auto].
    - cbn in X. subst fin. left. unfold asked. cbn. rewrite !in_app_iff. cbn. auto. }
  destruct (w_rst_sent s || w_stop_rcvd s) eqn:Er.
  - intro H. apply pair_inj in H. destruct H as [<- <-].
    apply inv_put; [exact I1 | exact Hin | exact Ha2 | intros i _; apply Ha1 |].
    destruct Hw as (W1 & W2 & W3 & W4 & rest & W5 & W6 & W7 & W8 & W9).
    destruct (Ha1 (w_id s)) as (X1 & X2 & X3).
    unfold swf. cbn [w_max w_id w_sent w_queue w_rst_sent w_fin_req w_set_fin].
    rewrite sent_app, wrote_app, X1, X2, !app_nil_r.
    split; [exact W1 |]. split; [exact W2 |]. split; [exact W3 |]. split; [exact W4 |].
    exists rest. split; [exact W5 |]. split; [exact W6 |]. split; [exact W7 |].
    split; [intro Y; apply rst_free_app; auto |].
    intro Y. rewrite Hid in *. exact (Hfin W9 Y []).
  - intro H. apply pair_inj in H. destruct H as [<- <-].
    apply orb_false_iff in Er. destruct Er as [Er _].
    destruct (Ha1 id) as (X1 & X2 & X3).
    apply inv_put; [exact I1 | exact Hin | exact Ha2 | |].
    + intros i Hi. destruct (Ha1 i) as (Y1 & Y2 & Y3). cbn [sent_bytes wrote_bytes w_id w_set_fin w_set_data] in *.
      destruct (N.eqb_spec id i); [congruence |]. split; [exact Y1 |]. split; [exact Y2 |].
      intros e f [Q | Q]; [discriminate | exact (Y3 e f Q)].
    + destruct Hw as (W1 & W2 & W3 & W4 & rest & W5 & W6 & W7 & W8 & W9).
      unfold swf. cbn [w_max w_id w_sent w_queue w_rst_sent w_fin_req w_set_fin w_set_data].
      rewrite sent_app, wrote_app. cbn [sent_bytes wrote_bytes]. rewrite Hid in *.
      rewrite N.eqb_refl, X1, X2, !app_nil_r.
      assert (Tail : (w_rst_sent s = false -> rst_free id (log ++ IWrote id d :: asked)) /\
         (w_fin_req s || fin = true -> In (IFin id) (log ++ IWrote id d :: asked) \/ rx_only cl id = true)).
      { split.
        - intro Y. apply rst_free_app; [exact (W8 Y) |]. intros e f [Q | Q]; [discriminate | exact (X3 e f Q)].
        - intro Y. exact (Hfin W9 Y [IWrote id d]). }
      split; [exact W1 |]. split; [exact W2 |]. split; [exact W3 |].
      rewrite (W6 Er), app_nil_r in W5.
      destruct (N.ltb_spec 0 (blen d)) as [Hd | Hd].
      * split.
        { apply Forall_app. split; [exact W4 |]. constructor; [exact Hd | constructor]. }
        exists []. rewrite pending_app. unfold pending at 2. cbn [map concat snd fst].
        change (N.to_nat 0) with 0%nat. cbn [skipn]. rewrite !app_nil_r, W5, app_assoc.
        split; [reflexivity |]. split; [auto |]. split; [congruence | exact Tail].
      * split; [exact W4 |]. exists []. assert (Ed : d = []).
        { destruct d; [reflexivity |]. unfold blen in Hd. cbn in Hd. lia. }
        rewrite Ed, !app_nil_r in *. split; [exact W5 |]. split; [auto |]. split; [congruence |].
        exact Tail.
Qed.

Lemma inv_active A M cl log c id b : inv A M cl log c -> inv A M cl log (mark_active c id b).
Proof.
  intro I. unfold mark_active. destruct (for_writing c id) as [c1 o] eqn:Ew.
  destruct (inv_writing _ _ _ _ _ _ _ _ I Ew) as [I1 Hl]. destruct o as [s |]; [| exact I1].
  specialize (Hl s eq_refl). destruct b.
  - destruct (negb (w_fin_req s) && negb (w_rst_req s)); [| exact I1]. same_put I1.
  - same_put I1.
Qed.

Lemma inv_prio A M cl log c id p : inv A M cl log c -> inv A M cl log (set_priority c id p).
Proof.
  intro I. unfold set_priority. destruct (for_writing c id) as [c1 o] eqn:Ew.
  destruct (inv_writing _ _ _ _ _ _ _ _ I Ew) as [I1 Hl]. destruct o as [s |]; [| exact I1].
  specialize (Hl s eq_refl). cbv zeta. apply inv_reorder. same_put I1.
Qed.

Lemma inv_app_reset A M cl log c id e u : inv A M cl log c -> inv A M cl log (app_reset c id e u).
Proof.
  intro I. unfold app_reset. destruct (w_lookup c id) as [s |] eqn:Hl; [| exact I].
  destruct (w_fin_sent s && u); [exact I |]. destruct (w_rst_req s); [exact I |]. same_put I.
Qed.

Lemma inv_app_stop A M cl log c id e u : inv A M cl log c -> inv A M cl log (app_stop c id e u).
Proof.
  intro I. unfold app_stop. destruct (w_lookup c id) as [s |] eqn:Hl; [| exact I].
  destruct u; [exact I |]. destruct (w_stop_req s); [exact I |]. cbv zeta. apply inv_insert. same_put I.
Qed.

Lemma inv_peer A M cl log c id : inv A M cl log c -> inv A M cl log (peer_stream c id).
Proof.
  intro I. unfold peer_stream. destruct (w_lookup c id); [exact I |].
  destruct (is_local_id id (n_client c)); [exact I |]. apply inv_create_missing, I.
Qed.

Lemma inv_max_data A M cl log c v : v <= M -> inv A M cl log c -> inv A M cl log (recv_max_data c v).
Proof. intros Hv I. unfold recv_max_data. destruct (n_max c <? v); [apply inv_limits; assumption | exact I]. Qed.

Lemma inv_max_stream_data A M cl log c id v :
  v <= A id -> inv A M cl log c -> inv A M cl log (recv_max_stream_data c id v).
Proof.
  intros Hv I. unfold recv_max_stream_data. cbv zeta. assert (I1 := inv_peer _ _ _ _ _ id I).
  destruct (w_lookup (peer_stream c id) id) as [s |] eqn:Hl; [| exact I1].
  destruct (w_max s <? v); [| exact I1]. same_put I1. cbn.
  rewrite (proj2 (lookup_wf _ _ _ _ _ _ _ I1 Hl)). exact Hv.
Qed.

Lemma inv_add_out_loop A M cl log o n b l : forall c,
  inv A M cl log c -> inv A M cl log (add_out_loop c l o n b).
Proof.
  induction l as [| id l IH]; intros c I; cbn [add_out_loop]; [exact I |].
  destruct (o <? id); [| apply IH, I]. destruct (n <? id); [exact I |].
  match goal with |- context [if ?b then _ else _] => destruct b end; [| apply IH, I].
  destruct (w_lookup c id); [| exact I]. apply IH, inv_insert, I.
Qed.

Lemma inv_add_output A M cl log c o n b : inv A M cl log c -> inv A M cl log (add_output_streams c o n b).
Proof.
  intro I. unfold add_output_streams. cbv zeta. destruct (w_lookup c _); [| exact I].
  apply inv_add_out_loop, I.
Qed.

Lemma inv_max_streams A M cl log c u r : inv A M cl log c -> inv A M cl log (recv_max_streams c u r).
Proof.
  intro I. unfold recv_max_streams. cbv zeta. assert (Hm := i_max _ _ _ _ _ I).
  destruct u; match goal with |- context [if ?b then _ else _] => destruct b end;
    try exact I; apply inv_add_output, inv_limits; assumption.
Qed.

Lemma inv_raise A M cl log c cr :
  (forall id, initial_credit cl id (cr_bl cr) (cr_br cr) (cr_u cr) <= A id) ->
  inv A M cl log c -> inv A M cl log (raise_initial (n_set_cr c cr)).
Proof.
  intros Hc [H1 H2 H3 H4 H5 H6 H7 H8 H9]. unfold raise_initial.
  set (c1 := n_set_cr c cr). set (f := fun s : wstream => _).
  assert (Hi : forall id, initial_max c1 id <= A id).
  { intro id. rewrite initial_max_credit. unfold c1. cbn [n_set_cr n_cr n_client]. rewrite H1. apply Hc. }
  assert (Fid : forall s, w_id (f s) = w_id s).
  { intro s. unfold f. destruct (_ || _); [| reflexivity].
    destruct (w_max s <? initial_max c1 (w_id s)); reflexivity. }
  assert (Em : map w_id (map f (n_streams c)) = map w_id (n_streams c)).
  { rewrite map_map. apply map_ext. exact Fid. }
  constructor; cbn [n_set_streams n_client n_streams n_next n_data_sent n_max]; try assumption.
  - unfold c1. cbn [n_set_cr n_streams]. rewrite Em. exact H2.
  - unfold c1 at 1. cbn [n_set_cr n_streams]. apply Forall_forall. intros x Hx. apply in_map_iff in Hx.
    destruct Hx as (s & <- & Hs). rewrite Forall_forall in H3. specialize (H3 s Hs).
    unfold f. destruct (_ || _); [| exact H3].
    destruct (w_max s <? initial_max c1 (w_id s)); [| exact H3].
    apply (swf_same A _ _ s); [reflexivity | reflexivity | | reflexivity | reflexivity | reflexivity | exact H3]. cbn. apply Hi.
  - unfold c1. cbn [n_set_cr n_next n_streams]. rewrite Em. exact H5.
Qed.

Lemma fold_max_le {X} (f : X -> N) l x : In x l -> f x <= fold_right (fun y m => N.max (f y) m) 0 l.
Proof.
  induction l as [| y l IH]; intros H; [destruct H |]. cbn [fold_right]. destruct H as [-> | H].
  - lia.
  - specialize (IH H). lia.
Qed.

Lemma credit_mono cl id a b d a' b' d' :
  a <= a' -> b <= b' -> d <= d' -> initial_credit cl id a b d <= initial_credit cl id a' b' d'.
Proof. unfold initial_credit. destruct (mine cl id), (bidi id); lia. Qed.

Lemma credit_3 cl id a b d A :
  initial_credit cl id a 0 0 <= A -> initial_credit cl id 0 b 0 <= A -> initial_credit cl id 0 0 d <= A ->
  initial_credit cl id a b d <= A.
Proof. unfold initial_credit. destruct (mine cl id), (bidi id); lia. Qed.

Lemma credit_split cl id a b d :
  initial_credit cl id a 0 0 <= initial_credit cl id a b d /\
  initial_credit cl id 0 b 0 <= initial_credit cl id a b d /\
  initial_credit cl id 0 0 d <= initial_credit cl id a b d.
Proof. unfold initial_credit. destruct (mine cl id), (bidi id); lia. Qed.

Lemma inv_tp A M cl log c p :
  tp_conn p <= M -> (forall id, tp_stream cl id p <= A id) -> inv A M cl log c -> inv A M cl log (recv_tp c p).
Proof.
  intros Hm Ha I. destruct p as [k v]. cbn [tp_conn tp_stream] in *.
  assert (Hc : forall id, initial_credit cl id (cr_bl (n_cr c)) (cr_br (n_cr c)) (cr_u (n_cr c)) <= A id).
  { intro id. rewrite <- (i_client _ _ _ _ _ I), <- initial_max_credit. apply (i_cr _ _ _ _ _ I). }
  assert (Hx := i_max _ _ _ _ _ I).
  destruct k; unfold recv_tp; cbn [fst snd]; cbv zeta.
  1-3: apply inv_raise; [| exact I]; intro id; cbn [cr_bl cr_br cr_u]; specialize (Ha id); specialize (Hc id);
       destruct (credit_split cl id (cr_bl (n_cr c)) (cr_br (n_cr c)) (cr_u (n_cr c))) as (S1 & S2 & S3);
       apply credit_3; lia.
  - apply inv_limits; assumption.
  - apply inv_add_output, inv_limits; assumption.
  - apply inv_add_output, inv_limits; assumption.
Qed.

Lemma inv_transport A M cl log c l :
  (forall p, In p l -> tp_conn p <= M /\ forall id, tp_stream cl id p <= A id) ->
  inv A M cl log c -> inv A M cl log (recv_transport c l).
Proof.
  intros Hl I. unfold recv_transport.
  assert (I1 : inv A M cl log (clear_tp c)).
  { unfold clear_tp. apply inv_limits; [lia |]. destruct I as [H1 H2 H3 H4 H5 H6 H7 H8 H9].
    constructor; try assumption. intro id. unfold initial_max. cbn.
    destruct (is_local_id id (n_client c)), (is_bidir_id id); lia. }
  clear I. revert I1. generalize (clear_tp c). induction l as [| p l IH]; intros c1 I1; [exact I1 |].
  cbn [fold_left]. apply IH.
  - intros q Hq. apply Hl. right. exact Hq.
  - destruct (Hl p (or_introl eq_refl)). apply inv_tp; assumption.
Qed.

Lemma inv_start A M cl log c cr m sb su :
  m <= M -> (forall id, initial_credit cl id (cr_bl cr) (cr_br cr) (cr_u cr) <= A id) ->
  inv A M cl log c -> inv A M cl log (start_client c cr m sb su).
Proof.
  intros Hm Hc I. unfold start_client. apply inv_limits; [exact Hm |].
  destruct I as [H1 H2 H3 H4 H5 H6 H7 H8 H9]. constructor; try assumption.
  intro id. rewrite initial_max_credit. cbn [n_set_cr n_client n_cr]. rewrite H1. apply Hc.
Qed.

Lemma filter_ids (P : N -> bool) l :
  map w_id (filter (fun x => P (w_id x)) l) = filter P (map w_id l).
Proof. induction l as [| x l IH]; [reflexivity |]. cbn. destruct (P (w_id x)); cbn; rewrite IH; reflexivity. Qed.

Lemma nodup_filter (P : N -> bool) l : NoDup l -> NoDup (filter P l).
Proof. apply NoDup_filter. Qed.

Lemma inv_delete A M cl log c id :
  inv A M cl log c ->
  inv A M cl log (n_set_streams c (filter (fun x => negb (w_id x =? id)) (n_streams c))
                   (filter (fun x => negb (x =? id)) (n_out c))).
Proof.
  intros [H1 H2 H3 H4 H5 H6 H7 H8 H9].
  constructor; cbn [n_set_streams n_client n_streams n_next n_data_sent n_max]; try assumption.
  - rewrite (filter_ids (fun i => negb (i =? id))). apply nodup_filter, H2.
  - apply Forall_forall. intros x Hx. apply filter_In in Hx. rewrite Forall_forall in H3. apply H3. tauto.
  - intros i Hi. destruct (H5 i Hi) as (F1 & F2 & F3 & F4). split; [| auto].
    intro X. apply F1. rewrite (filter_ids (fun i => negb (i =? id))) in X. apply filter_In in X. tauto.
Qed.
