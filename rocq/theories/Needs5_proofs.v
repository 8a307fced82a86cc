(** Proofs about acknowledged frames: parsing of the frames of an acknowledged packet. *)
From Verif Require Import Base Tac Varint_model Varint_spec Varint_proofs Sack_model Sack_spec Ack_model Ack_spec Ack_proofs Frames_model
  Frames_spec Frames_proofs Frames2_proofs Frames3_proofs Frames4_proofs Frames5_proofs Header_model Send_model Stream_model Needs_model Needs_spec
  Needs_proofs Needs2_proofs Needs3_proofs Needs4_proofs.

Definition ack_ctl (c : nconn) (pt : ptype) (w : wframe) : nconn :=
  match w with
  | WReset sid _ _ => match n_find c sid with None => c | Some s => n_delete_if_closed c (n_set_rst_acked s) end
  | WCrypto off d => match crypto_epoch pt with
      | None => c | Some e => set_tls c e (sack_add (nc_tls c e) off (blen d) false) end
  | WNewToken _ => set_token c
  | WMaxData v => if nc_md_l_acked c <? v then set_md_acked c v else c
  | WMaxStreamData sid v => match n_find c sid with None => c | Some s =>
      if n_md_l_acked s <? v then n_put c (n_set_md_acked s v) else c end
  | WMaxStreams u r => if nc_rank_acked c u <? r then set_rank_acked c u r else c
  | WNewCid p seq _ _ _ =>
      set_local c (map (fun e => if (fst (fst e) =? of_path p) && (snd (fst e) =? seq) then (fst e, true) else e) (nc_local c))
  | WRetireCid None seq => set_remote c (filter (fun e => negb ((fst e =? 0) && (snd e =? seq))) (nc_remote c))
  | WHandshakeDone => set_done c
  | _ => c
  end.

Definition ack_apply (c : nconn) (pt : ptype) (f : sframe) : nconn :=
  match f with
  | SCtl w => ack_ctl c pt w
  | SStream _ sid off fin d => match n_find c sid with
      | None => c | Some s => n_delete_if_closed c (n_set_sack s (sack_add (n_sack s) off (blen d) fin)) end
  | _ => c
  end.

Lemma read_small : forall b l, b < 64 -> bytes_ok l -> varint_read (b :: l) = Some (b, l).
Proof.
  intros b l Hb Hl. rewrite varint_read_eq; [apply head_type_small; exact Hb|]. constructor; [change (b < 256); lia|exact Hl].
Qed.

Lemma read_ext : forall t m, fits t -> bytes_ok m -> varint_read (varint_bytes t ++ m) = Some (t, m).
Proof.
  intros t m Ht Hm. rewrite varint_read_eq; [apply dec_v; exact Ht|]. apply Forall_app. split; [|exact Hm].
  apply varint_bytes_ok.
Qed.

Ltac small Hall Hcons := eexists _, _; split; [apply read_small; [reflexivity|eapply Hcons; exact Hall]|];
  unfold ack_frame_step; cbv zeta; ev; cbn [skipn].
Ltac big t Hall Hext := exists t; eexists; split; [apply read_ext; [reflexivity|eapply Hext; exact Hall]|];
  unfold ack_frame_step; cbv zeta; ev.

Lemma ack_step_ctl : forall c pt path w rest, wframe_ok w -> ack_handled (SCtl w) -> bytes_ok rest ->
  exists t l, varint_read (frame_bytes w ++ rest) = Some (t, l) /\
    ack_frame_step c pt path t (frame_bytes w ++ rest) l = Some (Some (ack_ctl c pt w, rest)).
Proof.
  intros c pt path w rest Hok Hh Hr. pose proof (frame_bytes_ok w Hok) as Hbo.
  assert (Hsk : fst (skip_frame (frame_bytes w ++ rest)) = Ok rest).
  { apply (skip_written w (blen (frame_bytes w)) (frame_bytes w) rest Hok Hr). rewrite write_canon, N.leb_refl. reflexivity. }
  assert (Hall : bytes_ok (frame_bytes w ++ rest)) by (apply Forall_app; auto).
  assert (Hcons : forall b m, bytes_ok (b :: m) -> bytes_ok m) by (intros b m H; inversion H; assumption).
  assert (Hext : forall t m, bytes_ok (varint_bytes t ++ m) -> bytes_ok m) by (intros t m H; apply Forall_app in H; apply H).
  destruct w; cbn [ack_handled] in Hh; try contradiction; cbn [wframe_ok] in Hok;
    cbn [frame_bytes ack_ctl] in *; cbv zeta in *; repeat rewrite <- app_assoc in *; cbn [app] in *.
  - destruct Hok as (? & ? & ?). small Hall Hcons. unfold ack_reset. cbn [skip_varints]. unfold sbind. rd_back.
  - small Hall Hcons. rewrite Hsk. reflexivity.
  - destruct Hok as (? & ? & ?). small Hall Hcons. unfold ack_crypto. rd_back.
  - small Hall Hcons. rewrite Hsk. reflexivity.
  - small Hall Hcons. unfold ack_max_data. rd_back.
  - destruct Hok. small Hall Hcons. unfold ack_max_stream_data. rd_back.
  - destruct unidir; small Hall Hcons; unfold ack_max_streams; rd_back.
  - small Hall Hcons. rewrite Hsk. reflexivity.
  - small Hall Hcons. rewrite Hsk. reflexivity.
  - destruct unidir; small Hall Hcons; rewrite Hsk; reflexivity.
  - destruct Hok as (Hp & Ha & Hb & Hc & _ & Hd & _). destruct path_id as [p|]; cbn [of_path]; repeat rewrite <- app_assoc in *; cbn [app] in *.
    + big ft_path_new_connection_id Hall Hext. unfold ack_new_cid.
      rewrite (parse_cid_back true ft_path_new_connection_id p sequence retire_before cid secret rest) by
        (try reflexivity; try assumption; unfold fits in *; intros; try assumption; lia). reflexivity.
    + small Hall Hcons. unfold ack_new_cid. pose proof (parse_cid_back false 24 0 sequence retire_before cid secret rest) as G.
      change (varint_bytes 24) with [24] in G. cbn [app] in G.
      repeat rewrite <- app_assoc.       rewrite G by (try reflexivity; try assumption; unfold fits in *; intros; try discriminate; lia). reflexivity.
  - destruct path_id as [p|]; [contradiction|]. destruct Hok as [_ Hok]. repeat rewrite <- app_assoc in *; cbn [app] in *.
    small Hall Hcons. unfold ack_retire_cid. rd_back.
  - small Hall Hcons. rewrite Hsk. reflexivity.
  - small Hall Hcons. rewrite Hsk. reflexivity.
  - small Hall Hcons. rewrite Hsk. reflexivity.
  - small Hall Hcons. rewrite Hsk. reflexivity.
  - small Hall Hcons. reflexivity.
  - small Hall Hcons. rewrite Hsk. reflexivity.
  - big ft_ack_frequency Hall Hext. rewrite Hsk. reflexivity.
  - big ft_immediate_ack Hall Hext. rewrite Hsk. reflexivity.
  - big ft_time_stamp Hall Hext. rewrite Hsk. reflexivity.
  - big ft_path_abandon Hall Hext. rewrite Hsk. reflexivity.
  - destruct available; [big ft_path_available Hall Hext|big ft_path_backup Hall Hext]; rewrite Hsk; reflexivity.
  - big ft_bdp Hall Hext. rewrite Hsk. reflexivity.
Qed.

Lemma ack_step : forall c pt path f fs b rest, sframe_ok f -> sent_as f b -> payload fs rest -> ack_handled f ->
  (forall sid off fin d, f = SStream true sid off fin d -> fs = []) ->
  (forall t n, f = SRun t n -> hd_error rest <> Some t) ->
  exists t l, varint_read (b ++ rest) = Some (t, l) /\
    ack_frame_step c pt path t (b ++ rest) l = Some (Some (ack_apply c pt f, rest)).
Proof.
  intros c pt path f fs b rest Hok Hs Hp Hh Hl Hn.
  pose proof (payload_bytes _ _ Hp) as Hr. destruct (payload_step f fs b rest Hok Hs Hp Hl Hn) as (Hne & Hb & Hsk).
  assert (Hall : bytes_ok (b ++ rest)) by (apply Forall_app; auto).
  destruct f as [w|last sid off fin d|ecn path2 lg dl fi bl ct|t n]; cbn [ack_apply].
  - destruct Hs as (room & Hw). apply sent_ctl in Hw. subst b. apply ack_step_ctl; [apply Hok|exact Hh|exact Hr].
  - destruct (parse_sent last sid off fin d b rest Hok Hs Hr) as (_ & b0 & l & E & Hst & H2 & Hpa).
    { intros ->. rewrite (Hl _ _ _ _ eq_refl) in Hp. inversion Hp. reflexivity. }
    rewrite E in *. exists b0, l. pose proof (stream_type_range _ Hst) as Hrg.
    split. { apply read_small; [lia|inversion Hall; assumption]. }
    unfold ack_frame_step. cbv zeta.
    assert (Hz : forall k, (k < 8 \/ 15 < k) -> (b0 =? k) = false) by (intros k Hk; lia).
    rewrite !Hz by (first [left; reflexivity | right; reflexivity]). cbn [orb]. rewrite Hst. cbn [hd skipn].
    unfold ack_stream. rewrite Hpa. destruct (n_find c sid); reflexivity.
  - destruct Hs as (p & Ep & Hv). unfold ack_type in Ep. destruct path2 as [q|].
    + assert (Hd : varint_read (b ++ rest) = Some (354585600 + (if ecn then 1 else 0), p ++ rest)).
      { rewrite Ep, <- app_assoc. apply read_v; [destruct ecn; exists 2; vm_compute; repeat split; repeat constructor|].
        apply Forall_app. split; [eapply varints_ok; exact Hv|exact Hr]. }
      eexists _, _. split; [exact Hd|]. unfold ack_frame_step. cbv zeta. rewrite Hsk. destruct ecn; ev; reflexivity.
    + assert (Hd : varint_read (b ++ rest) = Some ((if ecn then 3 else 2), p ++ rest)).
      { rewrite Ep. cbn [app]. apply read_small; [destruct ecn; reflexivity|].
        apply Forall_app. split; [eapply varints_ok; exact Hv|exact Hr]. }
      eexists _, _. split; [exact Hd|]. unfold ack_frame_step. cbv zeta. rewrite Hsk. destruct ecn; ev; reflexivity.
  - cbn [sent_as sframe_ok] in *. assert (Hd : varint_read (b ++ rest) = Some (t, repeat t n ++ rest)).
    { subst b. cbn [repeat app] in *. apply read_small; [lia|inversion Hall; assumption]. }
    eexists _, _. split; [exact Hd|]. unfold ack_frame_step. cbv zeta. rewrite Hsk. destruct Hok as [->| ->]; ev; reflexivity.
Qed.

Lemma process_payload : forall pt path fs l, payload fs l -> Forall ack_handled fs ->
  forall c fuel, (length l <= fuel)%nat ->
  process_ack fuel c pt path l = AOk (fold_left (fun c f => ack_apply c pt f) fs c) true.
Proof.
  intros pt path fs l H. induction H as [|f fs b l Hok Hs Hp IH Hl Hn]; intros Hh c fuel Hf.
  { destruct fuel; reflexivity. }
  inversion Hh as [|? ? Hhf Hhs]; subst.
  destruct (ack_step c pt path f fs b l Hok Hs Hp Hhf Hl Hn) as (t & m & H1 & H2).
  destruct (payload_step f fs b l Hok Hs Hp Hl Hn) as (Hne & _ & _).
  destruct b as [|x b]; [congruence|]. rewrite app_length in Hf. cbn [length] in Hf.
  destruct fuel as [|fuel]; [lia|]. cbn [fold_left]. cbn [app process_ack]. cbn [app] in H1, H2.
  rewrite H1, H2. apply IH; [exact Hhs|lia].
Qed.
