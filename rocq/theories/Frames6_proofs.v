(** Last lemmas about frames: whole payloads and witnesses. *)
From Verif Require Import Base Tac Varint_model Varint_spec Varint_proofs Sack_model Ack_model
  Frames_model Frames_spec Frames_proofs Frames2_proofs Frames3_proofs Frames4_proofs
  Frames5_proofs.

Lemma closing_walk_all : forall l,
  exists r, decode_closing_frames (length l) l = Ok r /\ r <> WalkFuel.
Proof. intro l. apply closing_walk_ok. reflexivity. Qed.

Lemma written_iff : forall f room room' bytes,
  write_frame f room = Some bytes -> (write_frame f room' = Some bytes <-> blen bytes <= room').
Proof.
  intros f room room' bytes H. rewrite write_canon in *.
  destruct (blen (frame_bytes f) <=? room); [|discriminate]. apply some_inj in H. subst bytes.
  destruct (blen (frame_bytes f) <=? room') eqn:E; split; intro H; try reflexivity; try discriminate; lia.
Qed.

Lemma forbidden_later : forall S (h : handlers S) o epoch s fs room bytes l t,
  Forall (fun f => wframe_ok f /\ negotiated o f /\ permitted (o_client o) epoch (received_as f)) fs ->
  write_frames fs room = Some bytes ->
  head_type l = Some t -> ~ type_permitted epoch t ->
  exists ft,
    decode_frames h o epoch s (bytes ++ l) =
    match process_all h s fs with
    | (s', Some true) => (h_error h s' 10 ft, Some false)
    | r => r
    end.
Proof.
  intros S h o epoch s fs room bytes l t Hf Hw Ht Hp. apply write_frames_bytes in Hw.
  destruct Hw as [-> _]. clear room. revert s.
  assert (Hne : l <> []) by (intros ->; discriminate).
  induction fs as [|f fs IH]; intro s.
  - cbn [flat_map app process_all]. eapply forbidden_stops; eassumption.
  - cbn [flat_map process_all]. inversion Hf as [|f' fs' [Hok [Hn Hpm]] Hf']. subst f' fs'.
    rewrite <- app_assoc.
    destruct (frame_bytes f ++ flat_map frame_bytes fs ++ l) as [|b m] eqn:E.
    { apply app_eq_nil in E. destruct E as [E _]. destruct (frame_bytes_nonempty f E). }
    assert (Hr : f = WImmediateAck -> flat_map frame_bytes fs ++ l <> []).
    { intros _ Hz. apply app_eq_nil in Hz. tauto. }
    pose proof (round_trip_one S h o epoch s f _ b m Hok Hn Hpm Hr E) as Ho.
    unfold decode_frames. cbn [length decode_frames_loop]. rewrite Ho.
    unfold deliver in *. destruct (h_frame h s (received_as f)) as [s' []]; [|exists 0; reflexivity].
    destruct (IH Hf' s') as [ft IHe]. exists ft. rewrite <- IHe. unfold decode_frames.
    apply loop_fuel; [|lia].
    apply one_progress in Ho. apply progress_len in Ho. cbn [length] in Ho. lia.
Qed.

Definition on : options := mk_opt true true true true true true 100 10 3.
Definition off : options := mk_opt true false true true true true 100 10 3.

Lemma skip_disagrees : exists o b l s' rest,
  bytes_ok (b :: l) /\ decode_one recorder o 3 [] b l = Continue s' rest /\
  fst (skip_frame (b :: l)) = Ok [] /\ rest <> [].
Proof.
  exists off, 149, [34; 140; 5; 16; 5], [inr 10], [16; 5].
  split; [repeat constructor|]. split; [vm_compute; reflexivity|]. split; [vm_compute; reflexivity|discriminate].
Qed.

Lemma unnegotiated_continues : exists o l,
  o_multipath o = false /\ head_type l = Some ft_path_abandon /\
  decode_frames recorder o 3 [] l = ([inr 10; inl (RMaxData 5)], Some true).
Proof. exists off, [149; 34; 140; 5; 16; 5]. vm_compute. repeat split. Qed.

Lemma abandon_reason_lost : exists reason bytes,
  reason = 0x4150504C4142414E /\ write_frame (WPathAbandon 1 reason) 100 = Some bytes /\
  exists other, other <> reason /\
  decode_frames recorder on 3 [] bytes = ([inl (RPathAbandon 1 other)], Some true).
Proof.
  eexists _, _. split; [reflexivity|]. split; [vm_compute; reflexivity|].
  eexists. split; [|vm_compute; reflexivity]. discriminate.
Qed.

Lemma bdp_empty_refused : exists bytes,
  write_frame (WBdp 1 2 3 []) 100 = Some bytes /\
  decode_frames recorder on 3 [] bytes = ([inr 7], Some false).
Proof. eexists. split; vm_compute; reflexivity. Qed.

Lemma last_immediate_ack_ignored : exists bytes,
  write_frames [WMaxData 5; WImmediateAck] 100 = Some bytes /\
  decode_frames recorder on 3 [] bytes = ([inl (RMaxData 5)], Some true).
Proof. eexists. split; vm_compute; reflexivity. Qed.
