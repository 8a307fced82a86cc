(** Proofs about the repetition of lost frames: the check of a frame agrees with the
    specification. *)
From Verif Require Import Base Tac Varint_model Varint_spec Varint_proofs Sack_model Sack_spec Ack_model Ack_spec Ack_proofs Frames_model
  Frames_spec Frames_proofs Frames2_proofs Frames3_proofs Frames4_proofs Frames5_proofs Header_model Send_model Stream_model Needs_model Needs_spec
  Needs_proofs Needs2_proofs.

Definition no_need (c : nconn) (pt : ptype) (f : sframe) : bool :=
  match f with
  | SCtl w => ctl_no_need c pt w
  | SStream _ sid off fin d =>
    match n_find c sid with
    | None => true
    | Some s => if n_rst_sent s then true else check_sack_list (n_sack s) off (last_pos off (blen d) fin)
    end
  | SAck _ _ _ _ _ _ _ => true
  | SRun t _ => t =? 0
  end.

Lemma check_sent : forall c pt f b, sframe_ok f -> sent_as f b -> pure_of f = false ->
  check_needs c pt b = Some (true, no_need c pt f).
Proof.
  intros c pt f b Hok Hs Hp. destruct f as [w|last sid off fin d|ecn path lg dl fi bl ct|t n].
  - destruct Hs as (room & Hw). apply sent_ctl in Hw. subst b. destruct Hok as [Hok _].
    pose proof (check_needs_ctl c pt w [] Hok) as G. rewrite app_nil_r in G. exact G.
  - destruct (parse_sent last sid off fin d b [] Hok Hs) as (Hb & b0 & l & E & Hst & H2 & Hpa); [constructor|auto|].
    rewrite app_nil_r in E. subst b. unfold check_needs. rewrite Hst. unfold stream_needs. rewrite Hpa. cbn [no_need].
    destruct (n_find c sid); reflexivity.
  - discriminate.
  - cbn [sent_as sframe_ok pure_of no_need] in *. subst b. destruct Hok as [->| ->]; [discriminate|].
    cbn [repeat]. unfold check_needs. ev. unfold extension_needs. rewrite head_type_small by reflexivity. ev. reflexivity.
Qed.

(** Searches. *)
Lemma n_find_some : forall c sid s, n_find c sid = Some s -> In s (nc_streams c) /\ n_id s = sid.
Proof. intros c sid s H. apply find_some in H. destruct H as [H1 H2]. apply N.eqb_eq in H2. auto. Qed.

Lemma n_find_in : forall c s, NoDup (map n_id (nc_streams c)) -> In s (nc_streams c) -> n_find c (n_id s) = Some s.
Proof.
  intros c s Hn Hi. unfold n_find. induction (nc_streams c) as [|x l IH]; [destruct Hi|].
  cbn [map] in Hn. inversion Hn as [|? ? Hnx Hnl]; subst. cbn [find]. destruct Hi as [->|Hi].
  - rewrite N.eqb_refl. reflexivity.
  - destruct (N.eqb_spec (n_id x) (n_id s)) as [E|_]; [|apply IH; assumption].
    exfalso. apply Hnx. rewrite E. apply in_map. exact Hi.
Qed.

Lemma np_find_some : forall c p x, np_find c p = Some x -> In x (nc_paths c) /\ np_id x = p.
Proof. intros c p x H. apply find_some in H. destruct H as [H1 H2]. apply N.eqb_eq in H2. auto. Qed.

Lemma np_find_in : forall c x, NoDup (map np_id (nc_paths c)) -> In x (nc_paths c) -> np_find c (np_id x) = Some x.
Proof.
  intros c s Hn Hi. unfold np_find. induction (nc_paths c) as [|x l IH]; [destruct Hi|].
  cbn [map] in Hn. inversion Hn as [|? ? Hnx Hnl]; subst. cbn [find]. destruct Hi as [->|Hi].
  - rewrite N.eqb_refl. reflexivity.
  - destruct (N.eqb_spec (np_id x) (np_id s)) as [E|_]; [|apply IH; assumption].
    exfalso. apply Hnx. rewrite E. apply in_map. exact Hi.
Qed.

Lemma lc_find_spec : forall c p seq, NoDup (map fst (nc_local c)) ->
  match lc_find c p seq with Some (_, _, a) => a | None => true end = false <-> In (p, seq, false) (nc_local c).
Proof.
  intros c p seq Hn. unfold lc_find. induction (nc_local c) as [|[[q s] a] l IH].
  { cbn. split; [discriminate|tauto]. }
  cbn [map fst] in Hn. inversion Hn as [|? ? Hnx Hnl]; subst. cbn [find fst snd].
  destruct ((q =? p) && (s =? seq)) eqn:E.
  - apply andb_prop in E. destruct E as [E1 E2]. apply N.eqb_eq in E1, E2. subst q s. split.
    + intros ->. left. reflexivity.
    + intros [H|H]; [congruence|]. exfalso. apply Hnx. apply (in_map fst) in H. exact H.
  - rewrite (IH Hnl). split; [intro; right; assumption|]. intros [H|H]; [|exact H]. exfalso.
    injection H as -> -> ->. rewrite !N.eqb_refl in E. discriminate.
Qed.

Lemma rc_find_spec : forall c p seq,
  match rc_find c p seq with Some _ => false | None => true end = false <-> In (p, seq) (nc_remote c).
Proof.
  intros c p seq. unfold rc_find. split.
  - destruct (find _ _) as [[q s]|] eqn:E; [|discriminate]. intros _. apply find_some in E. cbn [fst snd] in E.
    destruct E as [E1 E2]. apply andb_prop in E2. destruct E2 as [E2 E3]. apply N.eqb_eq in E2, E3. congruence.
  - intro H. destruct (find _ _) as [[q s]|] eqn:E; [reflexivity|]. exfalso. apply (find_none _ _ E) in H.
    cbn [fst snd] in H. rewrite !N.eqb_refl in H. discriminate.
Qed.

Lemma next_cid_spec : forall c p seq,
  (seq <? next_cid_sequence c p) = false <-> forall s, In (p, s) (nc_remote c) -> s < seq.
Proof.
  intros c p seq. unfold next_cid_sequence.
  assert (G : forall l m, (seq <? fold_left (fun m e => if (fst e =? p) && (m <=? snd e) then snd e + 1 else m) l m) = false <->
     m <= seq /\ forall s, In (p, s) l -> s < seq).
  { induction l as [|[q s] l IH]; intro m; cbn [fold_left fst snd].
    - rewrite N.ltb_ge. split; [intro; split; [assumption|intros s []]|tauto].
    - rewrite IH. destruct (N.eqb_spec q p) as [->|Hq]; cbn [andb].
      + destruct (N.leb_spec m s).
        * split; intros [H1 H2]; split; try lia.
          { intros s' [E|Hi]; [injection E as <-; lia|apply H2, Hi]. }
          { specialize (H2 s (or_introl eq_refl)). lia. }
          { intros s' Hi. apply H2. right. exact Hi. }
        * split; intros [H1 H2]; split; try lia.
          { intros s' [E|Hi]; [injection E as <-; lia|apply H2, Hi]. }
          { intros s' Hi. apply H2. right. exact Hi. }
      + split; intros [H1 H2]; split; try lia.
        { intros s' [E|Hi]; [congruence|apply H2, Hi]. }
        { intros s' Hi. apply H2. right. exact Hi. } }
  rewrite G. split; [tauto|]. intro; split; [lia|assumption].
Qed.

Lemma id_rank : forall r client u, 1 <= r -> r < two62 -> id_of_rank r client u = limit_id client u r.
Proof.
  intros r client u H1 H2. unfold id_of_rank, limit_id.
  replace (r + (two64 - 1)) with (r - 1 + 1 * two64) by (unfold two64; lia).
  rewrite N.mod_add by (unfold two64; lia). rewrite (N.mod_small (r - 1)) by (unfold two62, two64 in *; lia).
  rewrite N.mod_small by (unfold two62, two64 in *; lia). lia.
Qed.

Lemma limit_inj : forall client u r v, 1 <= r ->
  (limit_id client u r <? limit_id client u v) = false -> v <= r.
Proof. intros client u r v Hr H. unfold limit_id in H. destruct client, u; lia. Qed.

Lemma epoch_crypto : forall pt, carries_frames pt -> crypto_epoch pt = Some (epoch_of pt).
Proof. intros pt [->|[->|[->| ->]]]; reflexivity. Qed.

Lemma data_positive : forall d : list N, d <> [] -> 1 <= blen d.
Proof. intros d H. destruct d; [congruence|]. unfold blen. cbn [length]. lia. Qed.

(** Not acknowledged entirely. *)
Lemma some_unacked : forall k off d fin, sack_ok k -> off + blen d < two62 -> (fin = true \/ d <> []) ->
  check_sack_list k off (last_pos off (blen d) fin) = false <->
  exists q, off <= q /\ (q < off + blen d \/ (fin = true /\ q = off + blen d)) /\ ~ acked k q.
Proof.
  intros k off d fin Hk Hl Hf.
  assert (Hf' : fin = true \/ 1 <= blen d) by (destruct Hf; [auto|right; apply data_positive; assumption]).
  rewrite last_pos_eq by assumption. set (mx := if fin then off + blen d else off + blen d - 1).
  assert (Hmx : off <= mx) by (unfold mx; destruct fin; destruct Hf'; try discriminate; lia).
  pose proof (check_sack_spec k off mx Hk Hmx) as G.
  assert (He : forall q, off <= q <= mx <-> off <= q /\ (q < off + blen d \/ (fin = true /\ q = off + blen d))).
  { intro q. unfold mx. destruct fin.
    + split; [intros [H1 H2]; split; [exact H1|]|intros [H1 [H2|[_ H2]]]; lia].
      destruct (N.eq_dec q (off + blen d)); [right; auto|left; lia].
    + destruct Hf' as [?|Hf']; [discriminate|].
      split; [intros [H1 H2]; split; [exact H1|left; lia]|intros [H1 [H2|[H2 _]]]; [lia|discriminate]]. }
  split.
  - intro Hc.
    (* search of a position *)
    assert (Hd : forall q, {acked k q} + {~ acked k q}).
    { intro q. pose proof (check_sack_spec k q q Hk (N.le_refl q)) as Q.
      destruct (check_sack_list k q q).
      - left. apply Q; [reflexivity|lia].
      - right. intro Ha. assert (false = true); [|discriminate]. apply Q. intros q' Hq'. replace q' with q by lia. exact Ha. }
    assert (Hx : forall n, (forall q, off <= q -> q < off + N.of_nat n -> acked k q) \/
       exists q, off <= q /\ q < off + N.of_nat n /\ ~ acked k q).
    { induction n as [|n IH]; [left; intros; lia|]. destruct IH as [IH|(q & ? & ? & ?)]; [|right; exists q; repeat split; try assumption; lia].
      destruct (Hd (off + N.of_nat n)) as [Hy|Hy].
      - left. intros q H1 H2. destruct (N.eq_dec q (off + N.of_nat n)) as [->|]; [exact Hy|apply IH; lia].
      - right. exists (off + N.of_nat n). repeat split; [lia|lia|exact Hy]. }
    destruct (Hx (N.to_nat (mx - off + 1))) as [Hx1|(q & Q1 & Q2 & Q3)].
    + exfalso. assert (check_sack_list k off mx = true); [|congruence]. apply G. intros q Hq. apply Hx1; lia.
    + exists q. assert (off <= q <= mx) as Hq by lia. apply He in Hq. tauto.
  - intros (q & Q1 & Q2 & Q3). destruct (check_sack_list k off mx) eqn:E; [|reflexivity].
    exfalso. apply Q3. apply G; [reflexivity|]. apply He. auto.
Qed.

Lemma needed_checked : forall c pt f, conn_ok c -> carries_frames pt -> sframe_ok f -> loss_handled f ->
  needed c pt f -> pure_of f = false /\ no_need c pt f = false.
Proof.
  intros c pt f [Hids Hst Htls Hpa Hlo] Hpt Hok Hh (i & Hc & Ho).
  destruct f as [w|last sid off fin d|ecn path lg dl fi bl ct|t n]; [| |destruct Hc|destruct Hc].
  - destruct Hok as [Hok Hcr]. destruct w; cbn [carries loss_handled] in *; try contradiction; try subst i; cbn [outstanding] in Ho;
      cbn [pure_of no_need ctl_no_need wframe_ok] in *; (split; [reflexivity|]).
    + destruct Ho as (s & Hi & <- & _ & H1 & H2). rewrite n_find_in by assumption. rewrite H1, H2. reflexivity.
    + destruct Hc as (pos & -> & Hp). rewrite epoch_crypto by assumption.
      apply some_unacked; [apply Htls|tauto|right; tauto|]. exists pos. cbn [outstanding] in Ho. tauto.
    + exact Ho.
    + lia.
    + destruct Ho as (s & Hi & <- & _ & H1 & H2 & H3 & H4 & H5). rewrite n_find_in by assumption.
      rewrite H1, H2, H3. cbn [orb]. lia.
    + destruct Ho as [H1 H2]. rewrite H2, id_rank by (unfold fits in Hok; lia). lia.
    + destruct Ho as [H1 H2]. rewrite H2. replace (limit <? nc_md_r c) with false by lia. reflexivity.
    + destruct Ho as (s & Hi & <- & _ & H1 & H2 & H3 & H4 & H5 & H6). rewrite n_find_in by assumption.
      rewrite H1, H2, H3, H4, H6. cbn [orb negb]. lia.
    + destruct Ho as (H0 & H1 & H2). rewrite H1, H2, id_rank by (unfold fits in Hok; lia). rewrite N.ltb_irrefl. reflexivity.
    + apply lc_find_spec; assumption.
    + apply rc_find_spec; assumption.
    + exact Ho.
    + reflexivity.
    + destruct Ho as (x & Hi & <- & H1 & H2). rewrite np_find_in by assumption. rewrite H1, H2, N.eqb_refl. reflexivity.
    + destruct Ho as [(x & Hi & <- & H1) H2]. rewrite np_find_in by assumption. rewrite H1. apply next_cid_spec. exact H2.
  - destruct Hc as (pos & -> & Hp). split; [reflexivity|]. cbn [outstanding no_need] in *.
    destruct Ho as (s & Hi & <- & H1 & _ & H2). rewrite n_find_in by assumption. rewrite H1.
    destruct (Hst s Hi) as (Hsk & _). apply some_unacked; [exact Hsk|apply Hok|apply Hok|]. exists pos. tauto.
Qed.

Lemma checked_needed : forall c pt f, conn_ok c -> carries_frames pt -> sframe_ok f -> loss_handled f ->
  was_sent c f -> (exists i, carries pt f i) -> no_need c pt f = false -> needed c pt f.
Proof.
  intros c pt f [Hids Hst Htls Hpa Hlo] Hpt Hok Hh Hw (i & Hc) Hn.
  destruct f as [w|last sid off fin d|ecn path lg dl fi bl ct|t n]; [| |destruct Hc|destruct Hc].
  - destruct Hok as [Hok Hcr]. unfold needed.
    destruct w; cbn [carries loss_handled was_sent no_need ctl_no_need wframe_ok] in *; try contradiction;
      try (eexists; split; [reflexivity|]; cbn [outstanding]).
    + destruct (n_find c stream_id) as [s|] eqn:E; [|discriminate]. apply n_find_some in E. destruct E as [E1 E2].
      exists s. apply orb_false_elim in Hn. tauto.
    + rewrite epoch_crypto in Hn by assumption. apply some_unacked in Hn; [|apply Htls|tauto|right; tauto].
      destruct Hn as (q & Q1 & Q2 & Q3). exists (KCrypto (epoch_of pt) q). split; [|exact Q3].
      exists q. split; [reflexivity|]. destruct Q2 as [?|[? _]]; [lia|discriminate].
    + exact Hn.
    + lia.
    + destruct (n_find c stream_id) as [s|] eqn:E; [|discriminate]. apply n_find_some in E. destruct E as [E1 E2].
      destruct Hw as [Hw1 Hw2]. specialize (Hw2 s E1 E2). exists s.
      destruct (n_fin_rcvd s); [discriminate|]. destruct (n_rst_rcvd s); [discriminate|].
      destruct (n_stop_sent s); [discriminate|]. cbn [orb] in Hn. apply orb_false_elim in Hn. destruct Hn as [N1 N2].
      apply N.ltb_ge in N1. apply N.leb_gt in N2.
      repeat match goal with |- _ /\ _ => split end; try assumption; try reflexivity. lia.
    + destruct Hw as [Hw1 Hw2]. rewrite id_rank in Hn by (unfold fits in Hok; lia). split; lia.
    + destruct (N.ltb_spec limit (nc_md_r c)); [discriminate|]. split; [lia|]. apply negb_false_iff in Hn. exact Hn.
    + destruct (n_find c stream_id) as [s|] eqn:E; [|discriminate]. apply n_find_some in E. destruct E as [E1 E2].
      destruct Hw as [Hw1 Hw2]. specialize (Hw2 s E1 E2). exists s.
      destruct (n_fin_req s); [discriminate|]. destruct (n_rst_req s); [discriminate|].
      destruct (n_fin_sent s); [discriminate|]. destruct (n_rst_sent s); [discriminate|].
      cbn [orb] in Hn. apply orb_false_elim in Hn. destruct Hn as [N1 N2]. apply N.ltb_ge in N1. apply negb_false_iff in N2.
      repeat match goal with |- _ /\ _ => split end; try assumption; try reflexivity. lia.
    + destruct Hw as [Hw1 Hw2]. rewrite id_rank in Hn by (unfold fits in Hok; lia).
      destruct (N.ltb_spec (limit_id (nc_client c) unidir rank) (nc_max_r c unidir)); [discriminate|].
      apply negb_false_iff in Hn. split; [exact Hw1|]. split; [lia|exact Hn].
    + apply lc_find_spec; assumption.
    + apply rc_find_spec; assumption.
    + exact Hn.
    + exact I.
    + destruct (np_find c path_id) as [x|] eqn:E; [|discriminate]. apply np_find_some in E. destruct E as [E1 E2].
      exists x. apply orb_false_elim in Hn. destruct Hn as [N1 N2]. apply negb_false_iff in N1. apply N.eqb_eq in N1. auto.
    + destruct (np_find c path_id) as [x|] eqn:E; [|discriminate]. apply np_find_some in E. destruct E as [E1 E2].
      destruct (np_blocked x) eqn:B; [|discriminate]. split; [exists x; auto|]. apply next_cid_spec. exact Hn.
  - cbn [no_need was_sent] in *. destruct (n_find c sid) as [s|] eqn:E; [|discriminate]. apply n_find_some in E. destruct E as [E1 E2].
    destruct (n_rst_sent s) eqn:R; [discriminate|]. destruct (Hst s E1) as (Hsk & _).
    apply some_unacked in Hn; [|exact Hsk|apply Hok|apply Hok].
    destruct Hn as (q & Q1 & Q2 & Q3). destruct (Hw s E1 E2) as [W1 W2].
    exists (KByte sid q). split; [exists q; auto|]. exists s.
    repeat match goal with |- _ /\ _ => split end; try assumption.
    destruct Q2 as [Q2|[-> Q2]]; [left; lia|]. right. destruct (W2 eq_refl) as [W3 W4]. split; [congruence|exact W4].
Qed.

(** One frame. *)
Lemma frame_checked : forall c pt f b, conn_ok c -> carries_frames pt -> sframe_ok f -> sent_as f b -> loss_handled f ->
  needed c pt f -> check_needs c pt b = Some (true, false).
Proof.
  intros c pt f b Hc Hpt Hok Hs Hh Hn. destruct (needed_checked c pt f Hc Hpt Hok Hh Hn) as [H1 H2].
  rewrite (check_sent c pt f b Hok Hs H1), H2. reflexivity.
Qed.

Lemma frame_exact : forall c pt f b, conn_ok c -> carries_frames pt -> sframe_ok f -> sent_as f b -> loss_handled f ->
  was_sent c f -> (exists i, carries pt f i) ->
  (check_needs c pt b = Some (true, false) <-> needed c pt f).
Proof.
  intros c pt f b Hc Hpt Hok Hs Hh Hw Hi. split; [|apply frame_checked; assumption].
  intro H. assert (Hp : pure_of f = false).
  { destruct Hi as [i Hi]. destruct f as [w|? ? ? ? ?|? ? ? ? ? ? ?|t n]; [|reflexivity|destruct Hi|destruct Hi].
    destruct w; try reflexivity; solve [destruct Hi | destruct Hh]. }
  rewrite (check_sent c pt f b Hok Hs Hp) in H. apply checked_needed; try assumption.
  apply some_inj in H. apply pair_equal_spec in H. apply H.
Qed.
