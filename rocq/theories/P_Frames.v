(** Properties C10, C11 and C33: skipping, dispatching and writing frames. *)
From Verif Require Import Base Varint_model Ack_model Frames_model Frames_spec Frames_proofs
  Frames2_proofs Frames3_proofs Frames4_proofs Frames5_proofs Frames6_proofs.

(** ** C10 *)

(** On any non-empty payload the skipper fails or leaves a strict suffix; it
    never reads outside. *)
Theorem C10_skip_safe : forall l, l <> [] ->
  match fst (skip_frame l) with
  | Ok rest => exists b p, l = b :: p ++ rest
  | Fail => True
  | UB => False
  end.
Proof. exact skip_frame_good. Qed.
Print Assumptions C10_skip_safe.

(** A CRYPTO frame announcing 2^62-1 bytes is refused; an ACK frame with 3 bytes
    after it is skipped. *)
Example C10_skip_safe_ex :
  fst (skip_frame [6; 0; 255; 255; 255; 255; 255; 255; 255; 255; 1; 2]) = Fail /\
  fst (skip_frame [2; 9; 0; 1; 2; 0; 1; 77; 78; 79]) = Ok [77; 78; 79].
Proof. vm_compute. split; reflexivity. Qed.

(** A walk over any payload ends, in at most as many steps as there are bytes,
    with no read outside of it. *)
Theorem C10_walk_terminates : forall l,
  exists r, decode_closing_frames (length l) l = Ok r /\ r <> WalkFuel.
Proof. exact closing_walk_all. Qed.
Print Assumptions C10_walk_terminates.

Example C10_walk_terminates_ex :
  decode_closing_frames 9 [1; 1; 0; 0; 16; 5; 28; 0; 0] = Ok WalkClosing.
Proof. vm_compute. reflexivity. Qed.

(** So does the dispatcher, whatever the processing of the frames does. *)
Theorem C10_dispatch_terminates : forall S (h : handlers S) o epoch s l,
  snd (decode_frames h o epoch s l) <> None.
Proof. exact dispatch_terminates. Qed.
Print Assumptions C10_dispatch_terminates.

(** All extensions on, recorded by a client. *)
Definition ex_on : options := mk_opt true true true true true true 100 10 3.

Example C10_dispatch_terminates_ex :
  decode_frames recorder ex_on 3 [] [16; 5; 0; 0; 0; 4; 1; 2; 3] =
  ([inl (RMaxData 5); inl RPadding; inl (RReset 1 2 3)], Some true).
Proof. vm_compute. reflexivity. Qed.

(** When a frame is accepted, skipping it ends exactly where decoding it ends. *)
Theorem C10_skip_agrees : forall S (h : handlers S) o epoch s b l s' rest,
  bytes_ok (b :: l) -> o_multipath o = true -> o_address_discovery o = true ->
  decode_one h o epoch s b l = Continue s' rest ->
  fst (skip_frame (b :: l)) = Ok rest.
Proof. exact skip_agrees. Qed.
Print Assumptions C10_skip_agrees.

Example C10_skip_agrees_ex :
  bytes_ok [2; 9; 0; 1; 2; 0; 1; 77; 78] /\
  decode_one recorder ex_on 3 [] 2 [9; 0; 1; 2; 0; 1; 77; 78] =
    Continue [inl (RAck false None 9 0 [(7, 9); (4, 5)])] [77; 78].
Proof. split; [repeat constructor|vm_compute; reflexivity]. Qed.

(** Without the negotiation of multipath they differ: the decoder goes on right
    after the type. *)
Theorem C10_skip_agrees_refuted : exists o b l s' rest,
  bytes_ok (b :: l) /\ decode_one recorder o 3 [] b l = Continue s' rest /\
  fst (skip_frame (b :: l)) = Ok [] /\ rest <> [].
Proof. exact skip_disagrees. Qed.
Print Assumptions C10_skip_agrees_refuted.

(** ** C11 *)

(** Whatever property the processing of permitted frames and the errors preserve
    holds after any payload: no other frame is ever handed over, nor one whose contents
    exceed what was announced or negotiated. *)
Theorem C11_only_permitted : forall S (h : handlers S) o epoch (I : S -> Prop) s l,
  (forall s f, permitted (o_client o) epoch f -> announced o f -> I s -> I (fst (h_frame h s f))) ->
  (forall s c t, I s -> I (h_error h s c t)) ->
  I s -> I (fst (decode_frames h o epoch s l)).
Proof. exact dispatch_invariant. Qed.
Print Assumptions C11_only_permitted.

(** The invariant "only permitted frames were recorded" is one. *)
Definition only_permitted (o : options) (epoch : N) (s : list (rframe + N)) : Prop :=
  Forall (fun e => match e with inl f => permitted (o_client o) epoch f /\ announced o f | inr _ => True end) s.
Example C11_only_permitted_ex : forall o epoch,
  (forall s f, permitted (o_client o) epoch f -> announced o f -> only_permitted o epoch s ->
     only_permitted o epoch (fst (h_frame recorder s f))) /\
  (forall s c t, only_permitted o epoch s -> only_permitted o epoch (h_error recorder s c t)) /\
  only_permitted o epoch [].
Proof.
  intros o epoch. repeat split.
  - intros s f Hp Hn Hs. apply Forall_app. split; [exact Hs|constructor; [split; [exact Hp|exact Hn]|constructor]].
  - intros s c t Hs. apply Forall_app. split; [exact Hs|constructor; [exact I|constructor]].
  - constructor.
Qed.

(** A payload that starts with a forbidden type is refused at once with a
    PROTOCOL_VIOLATION, nothing else happens. *)
Theorem C11_forbidden_stops : forall S (h : handlers S) o epoch s l t,
  head_type l = Some t -> ~ type_permitted epoch t ->
  exists ft, decode_frames h o epoch s l = (h_error h s 10 ft, Some false).
Proof. exact forbidden_stops. Qed.
Print Assumptions C11_forbidden_stops.

(** A MAX_DATA frame in a Handshake packet. *)
Example C11_forbidden_stops_ex :
  head_type [16; 5; 1] = Some 16 /\ ~ type_permitted 2 16 /\
  decode_frames recorder ex_on 2 [] [16; 5; 1] = ([inr 10], Some false).
Proof.
  split; [reflexivity|]. split; [|vm_compute; reflexivity].
  unfold type_permitted, types_all, types_not_0rtt, types_app, types_1rtt. cbn [In]. intros H.
  destruct H as [H|[[H _]|[[_ [H|H]]|[_ H]]]]; try discriminate;
    repeat (destruct H as [H|H]; [discriminate|]); exact H.
Qed.

(** The same at any position: after frames that were accepted. *)
Theorem C11_forbidden_stops_later : forall S (h : handlers S) o epoch s fs room bytes l t,
  Forall (fun f => wframe_ok f /\ negotiated o f /\ permitted (o_client o) epoch (received_as f)) fs ->
  write_frames fs room = Some bytes ->
  head_type l = Some t -> ~ type_permitted epoch t ->
  exists ft,
    decode_frames h o epoch s (bytes ++ l) =
    match process_all h s fs with
    | (s', Some true) => (h_error h s' 10 ft, Some false)
    | r => r
    end.
Proof. exact forbidden_later. Qed.
Print Assumptions C11_forbidden_stops_later.

Example C11_forbidden_stops_later_ex :
  Forall (fun f => wframe_ok f /\ negotiated ex_on f /\ permitted (o_client ex_on) 2 (received_as f))
    [WCrypto 3 [8; 9]] /\
  decode_frames recorder ex_on 2 [] ([6; 3; 2; 8; 9] ++ [16; 5; 1]) =
    ([inl (RCrypto 3 [8; 9]); inr 10], Some false).
Proof.
  split; [|vm_compute; reflexivity].
  constructor; [|constructor]. cbn [wframe_ok negotiated received_as].
  repeat split; try reflexivity; repeat constructor. discriminate.
Qed.

(** A frame of an extension that was not negotiated raises the error, but the
    packet is not abandoned: the bytes after the type are processed as frames. *)
Theorem C11_unnegotiated_refuted : exists o l,
  o_multipath o = false /\ head_type l = Some ft_path_abandon /\
  decode_frames recorder o 3 [] l = ([inr 10; inl (RMaxData 5)], Some true).
Proof. exact unnegotiated_continues. Qed.
Print Assumptions C11_unnegotiated_refuted.

(** ** C33 *)

(** Any sequence of frames, written in any room, is decoded to the values it was
    built from, in order, and nothing else; the bytes fit in the room. *)
Theorem C33_round_trip : forall S (h : handlers S) o epoch s fs room bytes,
  Forall (fun f => wframe_ok f /\ negotiated o f /\ permitted (o_client o) epoch (received_as f)) fs ->
  (forall fs', fs <> fs' ++ [WImmediateAck]) ->
  write_frames fs room = Some bytes ->
  blen bytes <= room /\ decode_frames h o epoch s bytes = process_all h s fs.
Proof. exact payload_round_trip. Qed.
Print Assumptions C33_round_trip.

Definition ex_frames : list wframe :=
  [WReset 4 77 1000; WNewCid (Some 1) 3 2 [1; 2; 3; 4] [9; 9; 9; 9; 9; 9; 9; 9; 9; 9; 9; 9; 9; 9; 9; 9];
   WImmediateAck; WPathChallenge 18446744073709551615; WObservedAddress false 5 [10; 0; 0; 1] 443;
   WDatagram [1; 2; 3]].
Example C33_round_trip_ex :
  Forall (fun f => wframe_ok f /\ negotiated ex_on f /\ permitted (o_client ex_on) 3 (received_as f)) ex_frames /\
  match write_frames ex_frames 1000 with
  | Some b => blen b = 60 /\
      decode_frames recorder ex_on 3 [] b = (map (fun f => inl (received_as f)) ex_frames, Some true)
  | None => False end.
Proof.
  split; [|vm_compute; repeat split].
  unfold ex_frames.
  repeat (apply Forall_cons; [split; [|split];
    [cbn; unfold fits, two62, two64; repeat split; try lia; repeat constructor
    |cbn; repeat split; try discriminate
    |cbn [received_as]; first [constructor; right; reflexivity | constructor]]|]).
  apply Forall_nil.
Qed.

(** The frame is written whenever the room is at least the number of its bytes. *)
Theorem C33_written_if_room : forall f room room' bytes,
  write_frame f room = Some bytes -> (write_frame f room' = Some bytes <-> blen bytes <= room').
Proof. exact written_iff. Qed.
Print Assumptions C33_written_if_room.

Example C33_written_if_room_ex :
  write_frame (WMaxStreamData 4 70000) 100 = Some [17; 4; 128; 1; 17; 112] /\
  write_frame (WMaxStreamData 4 70000) 6 = Some [17; 4; 128; 1; 17; 112] /\
  write_frame (WMaxStreamData 4 70000) 5 = None.
Proof. vm_compute. repeat split. Qed.

(** Skipping a written frame consumes exactly its bytes. *)
Theorem C33_skip_exact : forall f room bytes rest, wframe_ok f -> bytes_ok rest ->
  write_frame f room = Some bytes -> fst (skip_frame (bytes ++ rest)) = Ok rest.
Proof. exact skip_written. Qed.
Print Assumptions C33_skip_exact.

Example C33_skip_exact_ex :
  wframe_ok (WConnectionClose 7 6 [65; 66]) /\
  write_frame (WConnectionClose 7 6 [65; 66]) 100 = Some [28; 7; 6; 2; 65; 66].
Proof. split; [cbn; unfold fits; cbn; repeat split; repeat constructor|vm_compute; reflexivity]. Qed.

(** Exceptions.  The reasons APPLICATION_ABANDON and RESOURCE_LIMIT_REACHED of
    picoquic.h do not fit in a varint: the peer reads another value. *)
Theorem C33_abandon_reason_refuted : exists reason bytes,
  reason = 0x4150504C4142414E /\ write_frame (WPathAbandon 1 reason) 100 = Some bytes /\
  exists other, other <> reason /\
  decode_frames recorder ex_on 3 [] bytes = ([inl (RPathAbandon 1 other)], Some true).
Proof. exact abandon_reason_lost. Qed.
Print Assumptions C33_abandon_reason_refuted.

(** A BDP frame written with the empty address of a ticket without address is an
    error for the peer. *)
Theorem C33_bdp_empty_refuted : exists bytes,
  write_frame (WBdp 1 2 3 []) 100 = Some bytes /\
  decode_frames recorder ex_on 3 [] bytes = ([inr 7], Some false).
Proof. exact bdp_empty_refused. Qed.
Print Assumptions C33_bdp_empty_refuted.

(** An IMMEDIATE_ACK frame at the end of a packet is ignored. *)
Theorem C33_last_immediate_ack_refuted : exists bytes,
  write_frames [WMaxData 5; WImmediateAck] 100 = Some bytes /\
  decode_frames recorder ex_on 3 [] bytes = ([inl (RMaxData 5)], Some true).
Proof. exact last_immediate_ack_ignored. Qed.
Print Assumptions C33_last_immediate_ack_refuted.
