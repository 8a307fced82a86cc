(** Proofs about the sending side: the filling loop ends. *)
From Verif Require Import Base Tac Varint_model Varint_proofs Stream_model Frames_model Frames_spec Frames5_proofs
  Send_model Send_spec Send_proofs Send2_proofs Send3_proofs Send4_proofs.

(** ** Flags of a reset stream *)
Lemma raise_sticky c : Forall sticky (n_streams c) -> Forall sticky (n_streams (raise_initial c)).
Proof.
  intro H. unfold raise_initial. cbn [n_set_streams n_streams]. apply Forall_forall. intros x Hx.
  apply in_map_iff in Hx. destruct Hx as (y & <- & Hy). rewrite Forall_forall in H. specialize (H y Hy).
  destruct (_ || _); [| exact H]. destruct (_ <? _); exact H.
Qed.

Lemma tp_sticky c p : Forall sticky (n_streams c) -> Forall sticky (n_streams (recv_tp c p)).
Proof.
  intro H. destruct p as [k v]. destruct k; unfold recv_tp; cbn [fst snd]; cbv zeta;
    try (apply raise_sticky; exact H); try exact H; apply keeps_add_output; exact H.
Qed.

Lemma step_sticky c e c' its :
  Forall sticky (n_streams c) -> snd_step c e = Some (c', its) -> Forall sticky (n_streams c').
Proof.
  intros H E.
  assert (K : forall x, keeps c x -> Forall sticky (n_streams x)) by (intros x [_ X]; auto).
  destruct e; cbn [snd_step] in E.
  - inv_pair E. exact H.
  - inv_pair E. unfold recv_transport. assert (H1 : Forall sticky (n_streams (clear_tp c))) by exact H.
    revert H1. generalize (clear_tp c). clear. induction l as [| p l IH]; intros x H1; [exact H1 |].
    cbn [fold_left]. apply IH, tp_sticky, H1.
  - inv_pair E. unfold recv_max_data. destruct (_ <? _); exact H.
  - inv_pair E. apply K, keeps_max_stream_data.
  - inv_pair E. unfold recv_max_streams. cbv zeta.
    destruct uni; match goal with |- context [if ?b then _ else _] => destruct b end; try exact H;
      apply keeps_add_output; exact H.
  - inv_pair E. apply K, keeps_peer.
  - inv_pair E. apply K. destruct (w_lookup c id) as [s |] eqn:Hl; [| apply keeps_refl].
    apply lookup_in in Hl. put_from (proj1 Hl).
  - inv_pair E. apply K. destruct (w_lookup c id) as [s |] eqn:Hl; [| apply keeps_refl].
    apply lookup_in in Hl. put_from (proj1 Hl).
  - apply some_inj in E. apply K. eapply keeps_add, E.
  - inv_pair E. apply K, keeps_active.
  - inv_pair E. apply K, keeps_prio.
  - inv_pair E. apply K, keeps_app_reset.
  - inv_pair E. apply K, keeps_app_stop.
  - inv_pair E. destruct (w_lookup c id); [| auto]. destruct (_ || _); [| auto].
    cbn [n_set_streams n_streams]. apply Forall_forall. intros x Hx. apply filter_In in Hx.
    rewrite Forall_forall in H. apply H. tauto.
  - destruct (fill fuel c room now prio app) as [c1 b1 i1 ok1 | | |] eqn:Ef; try discriminate.
    inv_pair E. apply K. eapply fill_keeps, Ef.
Qed.

Lemma run_sticky evs : forall c c' log,
  Forall sticky (n_streams c) -> snd_run c evs = Some (c', log) -> Forall sticky (n_streams c').
Proof.
  induction evs as [| e evs IH]; intros c c' log H E; cbn [snd_run] in E.
  - inv_pair E. exact H.
  - destruct (snd_step c e) as [[c1 i1] |] eqn:Es; [| discriminate].
    destruct (snd_run c1 evs) as [[c2 i2] |] eqn:Er; [| discriminate]. inv_pair E.
    eapply IH; [| exact Er]. eapply step_sticky; eassumption.
Qed.

(** ** The measure *)
Definition b2n (b : bool) : N := if b then 1 else 0.
Definition weight (s : wstream) : N := b2n (w_active s) + b2n (w_stop_req s && negb (w_stop_sent s)).
Fixpoint count (l : list wstream) : N :=
  match l with [] => 0 | s :: r => weight s + count r end.

Lemma weight_le s : weight s <= 2.
Proof. unfold weight, b2n. destruct (w_active s), (w_stop_req s && negb (w_stop_sent s)); lia. Qed.

Lemma count_le l : count l <= 2 * N.of_nat (length l).
Proof. induction l as [| s l IH]; cbn [count length]; [lia |]. pose proof (weight_le s). lia. Qed.

Lemma count_put_other (s : wstream) l : ~ In (w_id s) (map w_id l) ->
  map (fun x => if w_id x =? w_id s then s else x) l = l.
Proof.
  induction l as [| x l IH]; intro H; [reflexivity |]. cbn [map]. cbn [map] in H.
  destruct (N.eqb_spec (w_id x) (w_id s)); [destruct H; left; assumption |].
  rewrite IH; [reflexivity |]. intro X. apply H. right. exact X.
Qed.

Lemma count_put s s0 l : NoDup (map w_id l) -> In s0 l -> w_id s0 = w_id s ->
  count (map (fun x => if w_id x =? w_id s then s else x) l) + weight s0 = count l + weight s.
Proof.
  induction l as [| x l IH]; intros Hn Hi He; [destruct Hi |]. cbn [map] in Hn. inversion Hn as [| a b Hx Hn' E]; subst.
  cbn [map count]. destruct Hi as [-> | Hi].
  - rewrite He, N.eqb_refl. rewrite count_put_other; [lia |]. rewrite <- He. exact Hx.
  - destruct (N.eqb_spec (w_id x) (w_id s)) as [E | E].
    + exfalso. apply Hx. rewrite E, <- He. apply in_map. exact Hi.
    + specialize (IH Hn' Hi He). lia.
Qed.

(** ** One turn *)
Lemma sub64_pos a b : b < a -> a < two62 -> 0 < sub64 a b.
Proof.
  intros H1 H2. unfold sub64. replace (a + two64 - b) with ((a - b) + 1 * two64) by (unfold two64, two62 in *; lia).
  rewrite N.mod_add by (unfold two64; lia). rewrite N.mod_small by (unfold two64, two62 in *; lia). lia.
Qed.

Lemma allowed_pos c s space : has_data c s = true -> w_max s < two62 -> n_max c < two62 -> 0 < space ->
  0 < allowed_space c s space.
Proof.
  intros H H1 H2 H3. destruct (has_data_limits _ _ H) as [B1 B2].
  assert (S1 := sub64_pos (w_max s) (w_sent s) B1 H1). assert (S2 := sub64_pos (n_max c) (n_data_sent c) B2 H2).
  unfold allowed_space. cbv zeta.
  destruct (sub64 (w_max s) (w_sent s) <? space); destruct (_ <? _); lia.
Qed.

(** What one turn leaves, and what makes it advance when there is room. *)
Definition turn_ok (c c' : snd_cnx) (room : N) (b : list N) : Prop :=
  n_max c' = n_max c /\ incl (n_out c') (n_out c) /\ Forall quiet (n_streams c') /\
  count (n_streams c') <= count (n_streams c) /\
  (17 < room -> 0 < blen b \/ count (n_streams c') < count (n_streams c)).

Lemma put_quiet c s : Forall quiet (n_streams c) -> quiet s -> Forall quiet (n_streams (w_put c s)).
Proof.
  intros H Hs. unfold w_put. cbn [n_set_streams n_streams]. apply Forall_forall. intros x Hx.
  apply in_map_iff in Hx. destruct Hx as (y & <- & Hy). destruct (w_id y =? w_id s); [exact Hs |].
  rewrite Forall_forall in H. apply H, Hy.
Qed.

Lemma quiet_enc s : quiet s -> encodable s.
Proof. unfold quiet, encodable, two62. intros (H1 & H2 & H3 & H4 & H5 & _). lia. Qed.

Lemma incl_filter (P : N -> bool) l : incl (filter P l) l.
Proof. intros x Hx. apply filter_In in Hx. tauto. Qed.


Lemma varint_len_30 n : n < 1073741824 -> encode_varint_length n <= 4.
Proof.
  intro H. unfold encode_varint_length. destruct (n <? 16384); [destruct (n <? 64); lia |].
  destruct (N.ltb_spec n 1073741824); lia.
Qed.

Lemma fits_writer w b room : canon w b -> blen b <= room -> w room = Some b.
Proof. intros C H. rewrite C. destruct (N.leb_spec (blen b) room); [reflexivity | lia]. Qed.

Lemma reset_fits id err final room : id < 1073741824 -> err < 1073741824 -> 17 < room ->
  exists x b, reset_writer id err final room = Some (x :: b).
Proof.
  intros Hi He Hr. eexists _, _. eapply fits_writer with (b := 4 :: varint_bytes id ++ varint_bytes err ++ varint_bytes final).
  - unfold reset_writer. change (4 :: ?l) with ([u8 4] ++ l).
    apply canon_seq; [apply canon_uint8 |]. apply canon_seq; [apply canon_varint |].
    apply canon_seq; apply canon_varint.
  - rewrite Varint_proofs.blen_cons, !Varint_proofs.blen_app, !varint_bytes_length.
    pose proof (varint_len_30 id Hi). pose proof (varint_len_30 err He). pose proof (encode_varint_length_pos final). lia.
Qed.

Lemma stop_fits id err room : id < 1073741824 -> err < 1073741824 -> 17 < room ->
  exists x b, stop_writer id err room = Some (x :: b).
Proof.
  intros Hi He Hr. eexists _, _. eapply fits_writer with (b := 5 :: varint_bytes id ++ varint_bytes err).
  - unfold stop_writer. change (5 :: ?l) with ([u8 5] ++ l).
    apply canon_seq; [apply canon_uint8 |]. apply canon_seq; apply canon_varint.
  - rewrite Varint_proofs.blen_cons, !Varint_proofs.blen_app, !varint_bytes_length.
    pose proof (varint_len_30 id Hi). pose proof (varint_len_30 err He). lia.
Qed.

Lemma header_fits id off room : id < 1073741824 -> 17 < room ->
  exists hdr, stream_frame_header id off room = Some hdr /\ blen hdr <= 13 /\ 0 < blen hdr.
Proof.
  intros Hi Hr. unfold stream_frame_header. pose proof (varint_len_30 id Hi).
  pose proof (encode_varint_length_pos off). destruct (0 <? off).
  - exists ([u8 12] ++ varint_bytes id ++ varint_bytes off).
    assert (B : blen ([u8 12] ++ varint_bytes id ++ varint_bytes off) =
      1 + (encode_varint_length id + encode_varint_length off)).
    { rewrite !Varint_proofs.blen_app, !varint_bytes_length. reflexivity. }
    rewrite B. split; [| lia]. apply fits_writer; [| lia].
    apply canon_seq; [apply canon_uint8 | apply canon_seq; apply canon_varint].
  - exists ([u8 8] ++ varint_bytes id).
    assert (B : blen ([u8 8] ++ varint_bytes id) = 1 + encode_varint_length id).
    { rewrite !Varint_proofs.blen_app, !varint_bytes_length. reflexivity. }
    rewrite B. split; [| lia]. apply fits_writer; [| lia].
    apply canon_seq; [apply canon_uint8 | apply canon_varint].
Qed.

Lemma prefix_pos hdr space len fin : 0 < blen hdr -> 0 < blen (frame_prefix hdr space len fin).
Proof.
  intro H. unfold frame_prefix. cbv zeta. destruct hdr as [| x hdr]; [unfold blen in H; cbn in H; lia |].
  destruct fin; destruct (len <? space); [destruct (len =? space - 1) | | destruct (len =? space - 1) |];
    cbn [set_flag app]; unfold blen; cbn [length]; lia.
Qed.

Lemma blen_pos_app (a b : list N) : 0 < blen a -> 0 < blen (a ++ b).
Proof. rewrite Varint_proofs.blen_app. lia. Qed.

Lemma format_turn A M cl log c s room now r c' b its asked :
  inv A M cl log c -> Forall sticky (n_streams c) -> Forall quiet (n_streams c) -> n_max c < two62 ->
  chosen c s -> provides r -> format_stream c s room now r = FOk c' b its asked ->
  turn_ok c c' room b.
Proof.
  intros I Hst Hqs Hmax [Hl Hc] Hp.
  destruct (lookup_in _ _ _ Hl) as [Hin _].
  assert (Hq : quiet s) by (rewrite Forall_forall in Hqs; apply Hqs, Hin).
  assert (Hs : sticky s) by (rewrite Forall_forall in Hst; apply Hst, Hin).
  destruct (lookup_wf _ _ _ _ _ _ _ I Hl) as [Hw _].
  assert (Hnd := i_nodup _ _ _ _ _ I).
  pose proof Hq as (Q1 & Q2 & Q3 & Q4 & Q5 & Q6).
  assert (Same : (17 < room -> False) -> turn_ok c c room []).
  { intro H. split; [reflexivity |]. split; [apply incl_refl |]. split; [exact Hqs |]. split; [apply N.le_refl |].
    intro X. destruct (H X). }
  assert (Put : forall s1 bb, w_id s1 = w_id s -> quiet s1 -> weight s1 <= weight s ->
     (17 < room -> 0 < blen bb \/ weight s1 < weight s) -> turn_ok c (w_put c s1) room bb).
  { intros s1 bb Hi Hq1 Hw1 Hb. split; [reflexivity |]. split; [apply incl_refl |].
    split; [apply put_quiet; assumption |].
    assert (X := count_put s1 s (n_streams c) Hnd Hin (eq_sym Hi)).
    unfold w_put. cbn [n_set_streams n_streams]. split; [lia |]. intro Y. destruct (Hb Y); [left; assumption |].
    right. lia. }
  unfold format_stream. destruct (above_limit c (w_id s)); [discriminate |].
  destruct (w_rst_sent s) eqn:Er.
  { intro H. injection H as <- <- <- <-. apply Same. intros _. exfalso.
    destruct (Hs Er) as [R1 R2]. destruct (Q6 R1) as [R3 R4].
    destruct Hw as (_ & _ & _ & _ & rest & _ & _ & W7 & _).
    destruct Hc as [Hc | Hc].
    - unfold urgent in Hc. rewrite R1, Er in Hc. cbn [andb orb negb] in Hc.
      destruct (w_stop_req s); [| discriminate]. rewrite R4 in Hc by reflexivity. discriminate.
    - unfold has_data, queue_ready in Hc. rewrite R3, (W7 Er), R2 in Hc. cbn in Hc.
      rewrite !andb_false_r in Hc. discriminate. }
  destruct (w_rst_req s) eqn:Eq.
  { destruct (reset_writer _ _ _ _) as [bb |] eqn:Ew.
    - cbv zeta. intro H. injection H as <- <- <- <-. destruct (Q6 eq_refl) as [R3 R4]. apply Put; try reflexivity.
      + unfold quiet. cbn. rewrite ?Eq. auto 10.
      + intro Y. destruct (reset_fits (w_id s) (w_err s) (w_sent s) room Q1 Q2 Y) as (x & y & E).
        rewrite E in Ew. apply some_inj in Ew. subst bb. left. unfold blen. cbn [length]. lia.
    - intro H. injection H as <- <- <- <-. apply Same. intro Y.
      destruct (reset_fits (w_id s) (w_err s) (w_sent s) room Q1 Q2 Y) as (x & y & E). congruence. }
  destruct (w_stop_req s && negb (w_stop_sent s)) eqn:Es.
  { assert (Wt : weight (w_set_stop s true true (w_stop_err s)) < weight s).
    { unfold weight. cbn. rewrite Es. cbn. lia. }
    assert (Qs : quiet (w_set_stop s true true (w_stop_err s))).
    { unfold quiet. cbn. rewrite Eq. repeat split; try assumption; discriminate. }
    destruct (w_rcv_end s).
    { intro H. injection H as <- <- <- <-. apply Put; try reflexivity; try assumption; [lia |]. intros _. right. exact Wt. }
    destruct (stop_writer _ _ _) as [bb |] eqn:Ew; intro H; injection H as <- <- <- <-.
    - apply Put; try reflexivity; try assumption; [lia |]. intros _. right. exact Wt.
    - apply Same. intro Y.
      destruct (stop_fits (w_id s) (w_stop_err s) room Q1 Q3 Y) as (x & y & E). congruence. }
  assert (Hd : has_data c s = true).
  { destruct Hc as [Hc | Hc]; [| exact Hc]. unfold urgent in Hc. rewrite Eq, Es in Hc. discriminate. }
  destruct (negb (w_active s) && negb (queue_ready s) && (negb (w_fin_req s) || w_fin_sent s)) eqn:En.
  { intro H. injection H as <- <- <- <-. apply Same. intros _. exfalso.
    unfold has_data in Hd. apply andb_true_iff in Hd. destruct Hd as [_ Hd].
    destruct (w_active s), (queue_ready s), (w_fin_req s), (w_fin_sent s); discriminate. }
  destruct (stream_frame_header _ _ _) as [hdr |] eqn:Eh.
  2: { intro H. injection H as <- <- <- <-. apply Same. intro Y.
       destruct (header_fits (w_id s) (w_sent s) room Q1 Y) as (x & E & _). congruence. }
  destruct (has_data_limits _ _ Hd) as [B1 B2].
  destruct (allowed_le c s (room - blen hdr) Hd) as (L1 & L2 & L3).
  assert (Hpos : 0 < blen hdr /\ (17 < room -> 0 < allowed_space c s (room - blen hdr))).
  { destruct (header_bytes _ _ _ _ Eh) as [Hb _]. split; [rewrite Hb; unfold blen; cbn [length]; lia |].
    intro Y. destruct (header_fits (w_id s) (w_sent s) room Q1 Y) as (x & E & X1 & X2). rewrite E in Eh.
    apply some_inj in Eh. subst x. apply allowed_pos; try assumption. lia. }
  destruct Hpos as [Hpos Hall].
  destruct (w_active s && match w_queue s with [] => true | _ :: _ => false end && negb (w_fin_req s)) eqn:Ea.
  - apply andb_true_iff in Ea. destruct Ea as [Ea _]. apply andb_true_iff in Ea. destruct Ea as [Ea _].
    assert (Q : forall a fr fs, quiet (w_set_fin s a fr fs)).
    { intros. unfold quiet. cbn. rewrite Eq. repeat split; try assumption; discriminate. }
    assert (Wf : forall fr fs, weight (w_set_fin s false fr fs) < weight s).
    { intros. unfold weight. cbn [w_active w_set_fin w_stop_req w_stop_sent]. rewrite Ea. unfold b2n. lia. }
    unfold format_active. cbv zeta. destruct r as [| | d fin still]; [discriminate | |].
    { intro H. injection H as <- <- <- <-. specialize (Wf (w_fin_req s) (w_fin_sent s)).
      apply Put; try reflexivity; [apply Q | lia |]. intros _. right. exact Wf. }
    destruct (N.ltb_spec (allowed_space c s (room - blen hdr)) (blen d)) as [La | La].
    { intro H. injection H as <- <- <- <-. specialize (Wf (w_fin_req s) (w_fin_sent s)).
      apply Put; try reflexivity; [apply Q | lia |]. intros _. right. exact Wf. }
    destruct ((blen d =? 0) && negb fin) eqn:E0.
    { intro H. injection H as <- <- <- <-. apply andb_true_iff in E0. destruct E0 as [E0 E1].
      apply N.eqb_eq in E0. destruct d; [| unfold blen in E0; cbn in E0; lia]. destruct fin; [discriminate |].
      destruct still; [destruct Hp; reflexivity |]. specialize (Wf (w_fin_req s) (w_fin_sent s)).
      apply Put; try reflexivity; [apply Q | lia |]. intros _. right. exact Wf. }
    destruct (_ <? _); [discriminate |].
    assert (P : forall a fr fs, turn_ok c (w_put c
       (w_set_fin (w_set_data s (w_sent s + blen d) (w_queue s) now) a fr fs)) room
       (frame_prefix hdr (room - blen hdr) (blen d) fin ++ d)).
    { intros. apply Put; try reflexivity.
      - unfold quiet. cbn. rewrite Eq. repeat split; try assumption; try discriminate. lia.
      - unfold weight. cbn [w_active w_set_fin w_set_data w_stop_req w_stop_sent]. rewrite Ea. destruct a; unfold b2n; lia.
      - intros _. left. apply blen_pos_app, prefix_pos, Hpos. }
    destruct fin; intro H; injection H as <- <- <- <-.
    + destruct (P false true true) as (P1 & P2 & P3 & P4 & P5). split; [exact P1 |]. split; [| auto].
      cbn [remove_output n_set_streams n_out n_add_sent]. eapply incl_tran; [apply incl_filter | exact P2].
    + exact (P still (w_fin_req s) (w_fin_sent s)).
  - unfold format_queued. cbv zeta.
    set (al := allowed_space c s (room - blen hdr)) in *.
    set (avail := match w_queue s with [] => 0 | (d, o) :: _ => blen d - o end).
    set (len := if al <=? avail then al else avail).
    assert (Len : len <= avail /\ len <= al) by (unfold len; destruct (N.leb_spec al avail); lia).
    set (d := match w_queue s with [] => [] | (b, o) :: _ => firstn (N.to_nat len) (skipn (N.to_nat o) b) end).
    set (q := if 0 <? len then _ else w_queue s).
    assert (Hq0 : 17 < room -> len = 0 -> q = []).
    { intros Y Z. unfold q. rewrite Z. change (0 <? 0) with false. cbv iota.
      destruct Hw as (_ & _ & _ & W4 & _). destruct (w_queue s) as [| [b0 o0] rr]; [reflexivity |]. exfalso.
      inversion W4 as [| x l Hn Hr]; subst. unfold node_ok in Hn. cbn [fst snd] in Hn.
      specialize (Hall Y). unfold len, avail in Z. destruct (N.leb_spec al (blen b0 - o0)); lia. }
    clearbody q.
    destruct (_ <? _); [discriminate |].
    set (fin := match q with [] => w_fin_req s | _ :: _ => false end).
    set (s2 := w_set_fin (if 0 <? len then w_set_data s (w_sent s + len) q now else s) _ _ _).
    assert (T : forall bb, (17 < room -> 0 < blen bb) -> turn_ok c (n_add_sent (w_put c s2) len) room bb).
    { intros bb Hb. apply (Put s2 bb).
      - unfold s2. destruct (0 <? len); reflexivity.
      - unfold s2. destruct (0 <? len); unfold quiet; cbn; rewrite Eq; repeat split; try assumption; try discriminate. lia.
      - unfold s2, weight. destruct (0 <? len); apply N.le_refl.
      - intro Y. left. auto. }
    assert (Pb : forall x, 17 < room -> 0 < blen (frame_prefix hdr (room - blen hdr) len x ++ d)).
    { intros x _. apply blen_pos_app, prefix_pos, Hpos. }
    destruct q as [| n0 q'].
    + intro H. injection H as <- <- <- <-. apply T, Pb.
    + destruct (N.eqb_spec len 0) as [Z | Z]; intro H; injection H as <- <- <- <-; apply T.
      * intro Y. discriminate (Hq0 Y Z).
      * apply Pb.
Qed.

(** ** The loop *)
Lemma walk_in c L l : forall found gone s g,
  incl l L -> (forall f, found = Some f -> In (w_id f) L) ->
  find_walk c l found gone = (Some s, g) -> In (w_id s) L.
Proof.
  induction l as [| id l IH]; intros found gone s g Hi Hf; cbn [find_walk].
  - intro H. apply pair_inj in H. destruct H as [H _]. apply Hf. exact H.
  - assert (Hl : incl l L) by (intros x Hx; apply Hi; right; exact Hx).
    destruct (w_lookup c id) as [x |] eqn:E; [| apply IH; assumption].
    assert (Ei : In (w_id x) L) by (rewrite (lookup_id _ _ _ E); apply Hi; left; reflexivity).
    destruct (match found with Some f => w_prio f <? w_prio x | None => false end).
    { intro H. apply pair_inj in H. destruct H as [H _]. apply Hf. exact H. }
    destruct (urgent x).
    { intro H. apply pair_inj in H. destruct H as [H _]. apply some_inj in H. subst x. exact Ei. }
    destruct (has_data c x).
    + destruct ((w_sent x =? 0) && above_limit c (w_id x)); [apply IH; assumption |].
      destruct (N.odd (w_prio x)).
      { intro H. apply pair_inj in H. destruct H as [H _]. apply some_inj in H. subst x. exact Ei. }
      destruct found as [f |].
      * destruct (w_last x <? w_last f); apply IH; try assumption; intros y Hy; apply some_inj in Hy; subst y; auto.
      * apply IH; [assumption |]. intros y Hy. apply some_inj in Hy. subst y. exact Ei.
    + destruct (exhausted x); apply IH; assumption.
Qed.

Lemma find_ready_in c c' s : find_ready c = (c', Some s) -> In (w_id s) (n_out c).
Proof.
  unfold find_ready. destruct (find_walk c (n_out c) None []) as [f gone] eqn:E. intro H.
  apply pair_inj in H. destruct H as [_ ->]. eapply walk_in; [apply incl_refl | | exact E]. discriminate.
Qed.

Lemma find_ready_out c c' o : find_ready c = (c', o) -> incl (n_out c') (n_out c).
Proof.
  unfold find_ready. destruct (find_walk c (n_out c) None []) as [f gone]. intro H.
  apply pair_inj in H. destruct H as [<- _]. induction gone as [| g gone IH]; [apply incl_refl |].
  cbn [fold_right]. eapply incl_tran; [apply incl_filter | exact IH].
Qed.

Definition idle : handlers unit := mk_h (fun s _ => (s, true)) (fun s _ _ => s) (fun _ _ => true).

Lemma fill_loop_ends A M cl L now prio app : (forall k, provides (app k)) -> forall fuel c log st room bytes its asks,
  inv A M cl log c -> Forall sticky (n_streams c) -> Forall quiet (n_streams c) -> n_max c < two62 ->
  incl (n_out c) L -> (forall id, In id L -> above_limit c id = false) ->
  (forall s, st = Some s -> chosen c s /\ In (w_id s) L) -> room <= 16384 ->
  (N.to_nat (room + count (n_streams c)) + 2 <= fuel)%nat ->
  exists c' b i ok, fill_loop fuel c st (Some room) bytes its asks now prio app = LDone c' b i ok.
Proof.
  intro Happ. induction fuel as [| fuel IH]; intros c log st room bytes its asks I Hst Hq Hm Ho HL Hc Hr Hf; [lia |].
  cbn [fill_loop]. cbv zeta.
  destruct st as [s |]; [| eauto]. destruct ((w_prio s <=? prio) && (0 <? room)) eqn:Ep; [| eauto].
  destruct (Hc s eq_refl) as [Hs Hi].
  assert (He : Forall encodable (n_streams c)) by (eapply Forall_impl; [| exact Hq]; apply quiet_enc).
  assert (W := format_wire _ idle (mk_opt false false false false false false 0 0 0) 3 (or_intror eq_refl)
    (fun s => eq_refl) c s room now (app asks) He Hs Hr).
  destruct (format_stream c s room now (app asks)) as [| c1 b its1 asked | c1 asked |] eqn:Ef.
  - unfold format_stream in Ef. rewrite (HL _ Hi) in Ef. exfalso.
    destruct (w_rst_sent s); [discriminate |].
    destruct (w_rst_req s); [destruct (reset_writer _ _ _ _); discriminate |].
    destruct (w_stop_req s && negb (w_stop_sent s)).
    { destruct (w_rcv_end s); [discriminate |]. destruct (stop_writer _ _ _); discriminate. }
    destruct (negb (w_active s) && negb (queue_ready s) && (negb (w_fin_req s) || w_fin_sent s)); [discriminate |].
    destruct (stream_frame_header _ _ _) as [hdr |]; [| discriminate].
    destruct (w_active s && match w_queue s with [] => true | _ :: _ => false end && negb (w_fin_req s)).
    + unfold format_active in Ef. cbv zeta in Ef. destruct (app asks) as [| | d fin still]; try discriminate.
      destruct (_ <? _) in Ef; [discriminate |]. destruct (_ && _) in Ef; [discriminate |].
      destruct (_ <? _) in Ef; [discriminate |]. destruct fin; discriminate.
    + unfold format_queued in Ef. cbv zeta in Ef.
      repeat match type of Ef with (match ?x with _ => _ end) = _ => destruct x; try discriminate end.
  - destruct (format_turn _ _ _ _ _ _ _ _ _ _ _ _ _ I Hst Hq Hm Hs (Happ asks) Ef) as (T1 & T2 & T3 & T4 & T5).
    destruct (Send2_proofs.format_ok _ _ _ _ _ _ _ _ _ _ _ _ _ I Hs Ef) as [I1 _].
    destruct (format_keeps _ _ _ _ _ _ _ _ _ (proj1 Hs) Ef) as [[K1 K2] _].
    destruct W as [_ [W _]].
    destruct (find_ready c1) as [c2 st2] eqn:Er. destruct (find_ready_spec _ _ _ Er) as [F1 F2].
    assert (I2 := same_inv _ _ _ _ _ _ F1 I1).
    assert (O2 := find_ready_out _ _ _ Er).
    destruct F1 as [out F1].
    assert (S2 : n_streams c2 = n_streams c1) by (rewrite F1; reflexivity).
    assert (M2 : n_max c2 = n_max c1) by (rewrite F1; reflexivity).
    assert (L2 : lims c2 = lims c) by (rewrite F1; exact K1).
    assert (C3 : forall x, st2 = Some x -> chosen c2 x /\ In (w_id x) L).
    { intros x Hx. split; [rewrite F1; exact (F2 x Hx) |]. subst st2. apply Ho, T2. eapply find_ready_in, Er. }
    assert (N2 : forall fuel' b' i' a', (N.to_nat (room - blen b + count (n_streams c2)) + 2 <= fuel')%nat -> fuel' = fuel ->
      exists c' bb i ok, fill_loop fuel' c2 st2 (Some (room - blen b)) b' i' a' now prio app = LDone c' bb i ok).
    { intros fuel' b' i' a' Hf' ->. eapply IH; try eassumption.
      - rewrite S2. auto.
      - rewrite S2. exact T3.
      - rewrite M2, T1. exact Hm.
      - eapply incl_tran; [exact O2 |]. eapply incl_tran; [exact T2 | exact Ho].
      - intros id Hid. rewrite (above_lims _ _ _ L2). apply HL, Hid.
      - lia. }
    destruct st2 as [s2 |].
    + destruct (N.leb_spec (room - blen b) 17) as [H17 | H17]; [eauto |].
      apply N2; [| reflexivity]. rewrite S2. destruct T5 as [T5 | T5]; lia.
    + destruct fuel as [| fuel]; [lia |]. cbn [fill_loop]. eauto.
  - eauto.
  - destruct W.
Qed.

Lemma calm_limit c id : calm c -> In id (n_out c) -> above_limit c id = false.
Proof.
  intros (_ & _ & H) Hi. unfold above_limit.
  assert (El : Bool.eqb (is_client_id id) (n_client c) = mine (n_client c) id).
  { rewrite <- mine_local. unfold is_client_id, is_local_id. destruct (id mod 2 =? 0), (n_client c); reflexivity. }
  rewrite El, bidi_bidir. destruct (mine (n_client c) id) eqn:E; [| reflexivity]. cbn [andb].
  apply N.ltb_ge. apply H; assumption.
Qed.

Lemma fill_ends cl p evs c log fuel room now prio app :
  snd_run (snd0 cl p) evs = Some (c, log) -> calm c -> (forall k, provides (app k)) -> room <= 16384 ->
  (N.to_nat room + 2 * length (n_streams c) + 2 <= fuel)%nat ->
  exists c' b i ok, fill fuel c room now prio app = LDone c' b i ok.
Proof.
  intros H Hc Ha Hr Hf. destruct (history_ok _ _ _ _ _ H) as [I _].
  assert (S : Forall sticky (n_streams c)) by (eapply run_sticky; [| exact H]; constructor).
  pose proof Hc as (C1 & C2 & C3).
  unfold fill. destruct (find_ready c) as [c1 st] eqn:Ef. destruct (find_ready_spec _ _ _ Ef) as [F1 F2].
  assert (O := find_ready_out _ _ _ Ef). assert (I1 := same_inv _ _ _ _ _ _ F1 I). destruct F1 as [out F1].
  eapply fill_loop_ends with (L := n_out c); try eassumption.
  - rewrite F1. exact S.
  - rewrite F1. exact C2.
  - rewrite F1. exact C1.
  - intros id Hid. rewrite F1. exact (calm_limit c id Hc Hid).
  - intros x Hx. split; [rewrite F1; exact (F2 x Hx) |]. subst st. eapply find_ready_in, Ef.
  - rewrite F1. cbn [n_set_streams n_streams]. pose proof (count_le (n_streams c)). lia.
Qed.
