(** Proofs about the repetition of lost frames: records of acknowledged positions. *)
From Verif Require Import Base Tac Varint_model Varint_spec Varint_proofs Sack_model Sack_spec Sack_proofs Ack_model Ack_spec Frames_model
  Frames_spec Frames_proofs Frames2_proofs Frames3_proofs Frames4_proofs Frames5_proofs Header_model Send_model Stream_model Needs_model Needs_spec.

(** ** Sack lists *)
Lemma sep_wf : forall l lo, separated (map (fun it => (ss it, se it)) l) ->
  (forall it, In it l -> se it < max64) -> (match l with [] => True | it :: _ => lo <= ss it end) -> wf_from lo l.
Proof.
  induction l as [|x l IH]; intros lo Hs Hm Hlo; [exact I|]. cbn [map separated] in Hs. destruct Hs as (H1 & H2 & H3).
  cbn [wf_from]. split; [exact Hlo|]. split; [exact H1|]. split; [apply Hm; left; reflexivity|].
  apply IH; [exact H3| |]. { intros it Hi. apply Hm. right. exact Hi. }
  destruct l as [|y l]; [exact I|]. cbn [map] in H2. lia.
Qed.

Lemma wf_sep : forall l lo, wf_from lo l -> separated (map (fun it => (ss it, se it)) l).
Proof.
  induction l as [|x l IH]; intros lo Hw; [exact I|]. cbn [wf_from] in Hw. destruct Hw as (H1 & H2 & H3 & H4).
  cbn [map separated]. split; [exact H2|]. split; [|eapply IH; exact H4].
  destruct l as [|y l]; [exact I|]. cbn [wf_from map] in *. lia.
Qed.

Lemma sack_ok_wf : forall k, sack_ok k <-> sl_delay k = 0%Z /\ wf_from 0 (sl_items k).
Proof.
  intro k. unfold sack_ok, ranges. split.
  - intros (H1 & H2 & H3). split; [exact H1|]. apply sep_wf; [exact H2| |].
    + intros it Hi. apply (H3 (ss it)). apply in_map_iff. exists it. split; [reflexivity|exact Hi].
    + destruct (sl_items k); [exact I|]. lia.
  - intros (H1 & H2). split; [exact H1|]. split; [eapply wf_sep; exact H2|].
    intros a b Hi. apply in_map_iff in Hi. destruct Hi as (it & He & Hi). apply pair_equal_spec in He. destruct He as [<- <-].
    revert H2 Hi. generalize 0. induction (sl_items k) as [|x l IH]; intros lo Hw Hi; [destruct Hi|].
    cbn [wf_from] in Hw. destruct Hw as (_ & _ & W3 & W4). destruct Hi as [->|Hi]; [exact W3|]. eapply IH; eassumption.
Qed.

Lemma acked_covers : forall k q, acked k q <-> covers (sl_items k) q.
Proof.
  intros k q. unfold acked, in_ranges, ranges, covers. split.
  - intros (a & b & Hi & Hq). apply in_map_iff in Hi. destruct Hi as (it & He & Hi). apply pair_equal_spec in He.
    destruct He as [<- <-]. exists it. auto.
  - intros (it & Hi & Hq). exists (ss it), (se it). split; [|exact Hq]. apply in_map_iff. exists it. auto.
Qed.

Lemma wf_gap : forall l lo it, wf_from lo l -> In it l -> ~ covers l (se it + 1).
Proof.
  induction l as [|x l IH]; intros lo it Hw Hi; [destruct Hi|]. cbn [wf_from] in Hw. destruct Hw as (W1 & W2 & W3 & W4).
  rewrite covers_cons. intros [Hc|Hc].
  - destruct Hi as [->|Hi]; [lia|].
    assert (se x + 2 <= se it).
    { clear - W4 Hi. assert (H : se x + 2 <= ss it /\ ss it <= se it); [|lia].
      revert W4 Hi. generalize (se x + 2). induction l as [|y l IH]; intros lo Hw Hi; [destruct Hi|].
      cbn [wf_from] in Hw. destruct Hw as (W1 & W2 & W3 & W4). destruct Hi as [->|Hi]; [lia|].
      specialize (IH _ W4 Hi). lia. }
    lia.
  - destruct Hi as [->|Hi].
    + apply (covers_lo _ _ _ W4) in Hc. lia.
    + exact (IH _ _ W4 Hi Hc).
Qed.

Lemma check_sack_spec : forall k a b, sack_ok k -> a <= b ->
  check_sack_list k a b = true <-> forall q, a <= q <= b -> acked k q.
Proof.
  intros k a b Hk Hab. apply sack_ok_wf in Hk. destruct Hk as [_ Hw]. unfold check_sack_list.
  pose proof (find_range_below_covers (sl_items k) 0 a Hw) as Hf.
  assert (Hin : forall it, find_range_below (sl_items k) a = Some it -> In it (sl_items k) /\ ss it <= a).
  { intros it. unfold find_range_below. destruct (split_below_spec (sl_items k) [] a) as (x & y & Hl & Hs & Ha & _).
    rewrite Hs. cbn [fst]. rewrite app_nil_r. destruct (rev x) as [|z r] eqn:Er; [discriminate|]. intros [= ->].
    assert (Hz : In it x) by (apply in_rev; rewrite Er; left; reflexivity).
    rewrite Forall_forall in Ha. split; [rewrite Hl; apply in_or_app; left; exact Hz|apply Ha, Hz]. }
  destruct (find_range_below (sl_items k) a) as [it|] eqn:E.
  - destruct (Hin it eq_refl) as [Hi Hle]. split.
    + intros Hb q Hq. apply N.leb_le in Hb. apply acked_covers. exists it. split; [exact Hi|]. lia.
    + intro H. apply N.leb_le. destruct (N.le_gt_cases b (se it)) as [?|Hlt]; [assumption|exfalso].
      assert (Hc : covers (sl_items k) a) by (apply acked_covers, H; lia).
      apply Hf in Hc. apply N.leb_le in Hc.
      apply (wf_gap _ _ _ Hw Hi). apply acked_covers, H. lia.
  - split; [discriminate|]. intro H. apply Hf, acked_covers, H. lia.
Qed.

Lemma last_pos_eq : forall off len fin, off + len < two62 -> (fin = true \/ 1 <= len) ->
  last_pos off len fin = if fin then off + len else off + len - 1.
Proof.
  intros off len fin Hl Hf. unfold last_pos, sub64. destruct fin.
  - replace (off + len + two64 - 0) with (off + len + 1 * two64) by lia.
    rewrite N.mod_add by (unfold two64; lia). apply N.mod_small. unfold two62, two64 in *; lia.
  - destruct Hf as [?|Hf]; [discriminate|].
    replace (off + len + two64 - 1) with (off + len - 1 + 1 * two64) by lia.
    rewrite N.mod_add by (unfold two64; lia). apply N.mod_small. unfold two62, two64 in *; lia.
Qed.

Lemma sack_add_spec : forall k off len fin, sack_ok k -> off + len < two62 -> (fin = true \/ 1 <= len) ->
  sack_ok (sack_add k off len fin) /\
  (forall q, acked (sack_add k off len fin) q <->
    acked k q \/ (off <= q /\ (q < off + len \/ (fin = true /\ q = off + len)))).
Proof.
  intros k off len fin Hk Hl Hf. unfold sack_add. rewrite last_pos_eq by assumption.
  pose proof Hk as Hk'. apply sack_ok_wf in Hk'. destruct Hk' as [Hd Hw].
  unfold update_sack_list.
  set (mx := if fin then off + len else off + len - 1).
  assert (Hmx : off <= mx /\ mx < max64) by (unfold mx, max64, two62 in *; destruct fin; destruct Hf; try discriminate; lia).
  destruct (update_items (sl_items k) (sl_rc k) off mx 0) as [[l2 c2] ret] eqn:E.
  rewrite Hd. change (0 <? 0)%Z with false. cbn [fst].
  apply update_items_spec in E; try tauto. destruct E as (W & C & _ & _).
  split.
  - apply sack_ok_wf. cbn [sl_items sl_delay]. split; [reflexivity|exact W].
  - intro q. rewrite !acked_covers. cbn [sl_items]. rewrite C.
    assert (He : off <= q <= mx <-> off <= q /\ (q < off + len \/ (fin = true /\ q = off + len))); [|tauto].
    unfold mx. clear - Hf. destruct fin.
    + split; [intros [H1 H2]; split; [exact H1|]|intros [H1 [H2|[_ H2]]]; lia].
      destruct (N.eq_dec q (off + len)); [right; auto|left; lia].
    + destruct Hf as [?|Hf]; [discriminate|].
      split; [intros [H1 H2]; split; [exact H1|left; lia]|intros [H1 [H2|[H2 _]]]; [lia|discriminate]].
Qed.

(** ** Check of one control frame *)
Definition ctl_no_need (c : nconn) (pt : ptype) (f : wframe) : bool :=
  match f with
  | WReset _ _ _ => match n_find c 4 with None => true | Some s => n_rst_acked s end
  | WPathResponse r => match find (fun p => np_response p =? r) (nc_paths c) with
      | None => false | Some p => np_verified p || (nc_client c && negb (np_failed p)) end
  | WStopSending sid _ => match n_find c sid with None => true | Some s => n_fin_rcvd s || n_rst_rcvd s end
  | WCrypto off d => match crypto_epoch pt with
      | None => true | Some e => check_sack_list (nc_tls c e) off (last_pos off (blen d) false) end
  | WNewToken _ => nc_token_acked c
  | WMaxData v => (v <? nc_md_l c) || (v <=? nc_md_l_acked c)
  | WMaxStreamData sid v => match n_find c sid with None => true | Some s =>
      if n_fin_rcvd s || n_rst_rcvd s || n_stop_sent s then true else (v <? n_md_l s) || (v <=? n_md_l_acked s) end
  | WMaxStreams u r => (r <=? nc_rank_acked c u) || (id_of_rank r (nc_client c) u <? nc_max_l c u)
  | WDataBlocked v => if v <? nc_md_r c then true else negb (nc_blocked c)
  | WStreamDataBlocked sid v => match n_find c sid with None => true | Some s =>
      if n_fin_req s || n_rst_req s || n_fin_sent s || n_rst_sent s then true
      else (v <? n_md_r s) || negb (n_blocked_sent s) end
  | WStreamsBlocked u r => if id_of_rank r (nc_client c) u <? nc_max_r c u then true else negb (nc_sblocked c u)
  | WNewCid p seq _ _ _ => match lc_find c (of_path p) seq with Some (_, _, acked) => acked | None => true end
  | WRetireCid p seq => match rc_find c (of_path p) seq with Some _ => false | None => true end
  | WPathChallenge _ => true
  | WHandshakeDone => nc_done_acked c
  | WDatagram _ | WTimeStamp _ => true
  | WPathStatus _ p seq => match np_find c p with None => true | Some x => negb (np_status x =? seq) || np_demoted x end
  | WMaxPathId v => (v <=? nc_mp_l c) || (v <=? nc_mp_acked c)
  | WPathsBlocked v => (v <=? nc_mp_r c) || (v <=? nc_pb_acked c)
  | WPathCidBlocked p seq => match np_find c p with None => true | Some x =>
      if np_blocked x then seq <? next_cid_sequence c p else true end
  | WAckFrequency seq _ _ _ => seq =? nc_freq c
  | _ => false
  end.

Lemma ext_needs : forall c pt t m, fits t ->
  (64 <= hd 0 (varint_bytes t) \/ hd 0 (varint_bytes t) = 31) ->
  check_needs c pt (varint_bytes t ++ m) = Some (extension_needs c (varint_bytes t ++ m)).
Proof.
  intros c pt t m Ht Hh. destruct (varint_bytes t ++ m) as [|b l] eqn:E.
  { pose proof (varint_bytes_length t) as Hl. pose proof (encode_varint_length_pos t).
    apply app_eq_nil in E. destruct E as [E _]. rewrite E in Hl. cbn in Hl. lia. }
  rewrite <- (ext_head _ _ _ _ E) in Hh. unfold check_needs.
  assert (Hs : is_stream_type b = false).
  { destruct (is_stream_type b) eqn:Es; [|reflexivity]. apply stream_type_range in Es. lia. }
  rewrite Hs.
  assert (Hn : forall c, c < 64 -> c <> 31 -> (b =? c) = false) by (intros x Hc Hc'; lia).
  rewrite !Hn by (try reflexivity; discriminate). reflexivity.
Qed.

Ltac ext_n t := rewrite (ext_needs _ _ t) by (first [reflexivity | vm_compute; intuition congruence]);
  unfold extension_needs; rewrite dec_v by reflexivity; ev.

Lemma check_needs_ctl : forall c pt f rest, wframe_ok f ->
  check_needs c pt (frame_bytes f ++ rest) = Some (true, ctl_no_need c pt f).
Proof.
  intros c pt f rest Hok. destruct f;
    cbn [wframe_ok] in Hok; cbn [frame_bytes ctl_no_need of_path]; cbv zeta.
  - destruct Hok as (? & ? & ?). repeat rewrite <- app_assoc. cbn [app]. unfold check_needs. ev. unfold reset_needs.
    rewrite head_type_small by reflexivity. cbn [skip_varints]. unfold sbind. rd_back.
  - destruct Hok. repeat rewrite <- app_assoc. cbn [app]. unfold check_needs. ev. unfold stop_needs. rd_back.
  - destruct Hok as (? & ? & ?). repeat rewrite <- app_assoc. cbn [app]. unfold check_needs. ev. unfold crypto_needs.
    rd_back. destruct (crypto_epoch pt); reflexivity.
  - repeat rewrite <- app_assoc. cbn [app]. unfold check_needs. ev. reflexivity.
  - repeat rewrite <- app_assoc. cbn [app]. unfold check_needs. ev. rd_back.
  - destruct Hok. repeat rewrite <- app_assoc. cbn [app]. unfold check_needs. ev. unfold max_stream_data_needs. rd_back.
  - repeat rewrite <- app_assoc. cbn [app]. unfold check_needs. destruct unidir; ev; unfold max_streams_needs; rd_back.
  - repeat rewrite <- app_assoc. cbn [app]. unfold check_needs. ev. rd_back.
  - destruct Hok. repeat rewrite <- app_assoc. cbn [app]. unfold check_needs. ev. unfold stream_data_blocked_needs. rd_back.
  - repeat rewrite <- app_assoc. cbn [app]. unfold check_needs. destruct unidir; ev; unfold streams_blocked_needs; rd_back.
  - destruct Hok as (Hp & Ha & Hb & Hc & _ & Hd & _). destruct path_id as [p|]; cbn [of_path].
    + repeat rewrite <- app_assoc. ext_n ft_path_new_connection_id. unfold new_cid_needs.
      rewrite (parse_cid_back true ft_path_new_connection_id p sequence retire_before cid secret rest) by
        (try reflexivity; try assumption; unfold fits in *; intros; try assumption; lia).
      destruct (lc_find c p sequence) as [[[? ?] ?]|]; reflexivity.
    + repeat rewrite <- app_assoc. cbn [app]. unfold check_needs. ev. unfold new_cid_needs.
      pose proof (parse_cid_back false 24 0 sequence retire_before cid secret rest) as G.
      change (varint_bytes 24) with [24] in G. cbn [app] in G.
      rewrite G by (try reflexivity; try assumption; unfold fits in *; intros; try discriminate; lia).
      destruct (lc_find c 0 sequence) as [[[? ?] ?]|]; reflexivity.
  - destruct Hok as (Hp & Ha). destruct path_id as [p|]; cbn [of_path].
    + repeat rewrite <- app_assoc. ext_n ft_path_retire_connection_id. unfold retire_cid_needs.
      rewrite (retire_back true ft_path_retire_connection_id p sequence rest) by
        (try reflexivity; try assumption; intros; assumption). reflexivity.
    + repeat rewrite <- app_assoc. cbn [app]. unfold check_needs. ev. unfold retire_cid_needs.
      pose proof (retire_back false 25 0 sequence rest) as G.
      change (varint_bytes 25) with [25] in G. cbn [app] in G.
      rewrite G by (try reflexivity; try assumption; intros; discriminate). reflexivity.
  - repeat rewrite <- app_assoc. cbn [app]. unfold check_needs. ev. reflexivity.
  - repeat rewrite <- app_assoc. cbn [app]. unfold check_needs. ev. unfold should_repeat_path_response. rd_back.
  - repeat rewrite <- app_assoc. cbn [app]. unfold check_needs. ev. unfold extension_needs.
    rewrite head_type_small by reflexivity. ev. reflexivity.
  - repeat rewrite <- app_assoc. cbn [app]. unfold check_needs. ev. unfold extension_needs.
    rewrite head_type_small by reflexivity. ev. reflexivity.
  - cbn [app]. unfold check_needs. ev. reflexivity.
  - cbn [app]. unfold check_needs. ev. reflexivity.
  - destruct Hok as (? & ? & ? & ? & ?). repeat rewrite <- app_assoc. ext_n ft_ack_frequency. unfold ack_frequency_needs.
    cbn [skip_varints]. unfold sbind. rd_back.
  - ext_n ft_immediate_ack. reflexivity.
  - repeat rewrite <- app_assoc. ext_n ft_time_stamp. reflexivity.
  - repeat rewrite <- app_assoc. ext_n ft_path_abandon. reflexivity.
  - destruct Hok. repeat rewrite <- app_assoc.
    destruct available; [ext_n ft_path_available|ext_n ft_path_backup]; unfold path_status_needs; rd_back.
  - repeat rewrite <- app_assoc. ext_n ft_max_path_id. unfold max_path_id_needs. rd_back.
  - repeat rewrite <- app_assoc. ext_n ft_paths_blocked. unfold paths_blocked_needs. rd_back.
  - destruct Hok. repeat rewrite <- app_assoc. ext_n ft_path_cid_blocked. unfold path_cid_blocked_needs. rd_back.
  - repeat rewrite <- app_assoc. ext_n ft_bdp. reflexivity.
  - repeat rewrite <- app_assoc. destruct v6; [ext_n ft_observed_address_v6|ext_n ft_observed_address_v4]; reflexivity.
Qed.
