(** Specification vocabulary for the stream properties.  Only the operations, the
    calls made to the application and observable fields of the connection are
    used. *)
From Verif Require Import Base Reasm_model Reasm_spec Stream_model.

(** STREAM frames for one stream, in order of arrival. *)
Definition frames_of (sid : N) (ops : list sop) : list sframe :=
  flat_map (fun o => match o with
                     | OpStream i off fin d => if i =? sid then [mk_sframe off d fin] else []
                     | _ => []
                     end) ops.

(** Data and FIN passed to the application for one stream, oldest first. *)
Definition pieces_of (sid : N) (evs : list event) : list piece :=
  flat_map (fun e => match e with EvPiece i p => if i =? sid then [p] else [] | _ => [] end) evs.

(** Bytes passed to the application for one stream. *)
Definition bytes_of (sid : N) (evs : list event) : list N := concat (map fst (pieces_of sid evs)).

(** The peer may send on the stream: bidirectional, or initiated by the peer (RFC
    9000, 2.1: bit 0 of the id is the initiator, 0 for the client; bit 1 is set on
    unidirectional streams). *)
Definition peer_sends (client : bool) (sid : N) : Prop :=
  N.testbit sid 1 = false \/ N.testbit sid 0 = client.

(** No RESET_STREAM for the stream. *)
Definition no_reset (sid : N) (ops : list sop) : Prop := forall final, ~ In (OpReset sid final) ops.

(** The application did not refuse the data of the stream. *)
Definition wanted (sid : N) (ops : list sop) : Prop := ~ In (OpStop sid) ops /\ ~ In (OpDiscard sid) ops.

(** Highest of a list of values. *)
Definition highest (l : list N) : N := fold_right N.max 0 l.
Definition total_of (l : list N) : N := fold_right N.add 0 l.

(** Stream offsets claimed by the STREAM and RESET_STREAM frames of one stream. *)
Definition ends_of (sid : N) (ops : list sop) : list N :=
  flat_map (fun o => match o with
                     | OpStream i off fin d => if i =? sid then [off + blen d] else []
                     | OpReset i final => if i =? sid then [final] else []
                     | _ => []
                     end) ops.

(** Initiator and direction from the bits of the id (RFC 9000, 2.1). *)
Definition by_us (client : bool) (sid : N) : bool := xorb (N.testbit sid 0) client.
Definition is_uni (sid : N) : bool := N.testbit sid 1.

(** Initial limits of a stream (RFC 9000, 18.2): what we allow the peer to send, and
    what the peer allows us to send.  In [params] the names are from the point of
    view of the endpoint that sends the parameter: p_lbl is the limit we announced
    for the bidirectional streams we initiate. *)
Definition init_recv (client : bool) (p : params) (sid : N) : N :=
  match is_uni sid, by_us client sid with
  | false, true => p_lbl p | false, false => p_lbr p | true, false => p_lu p | true, true => 0
  end.
Definition init_send (client : bool) (p : params) (sid : N) : N :=
  match is_uni sid, by_us client sid with
  | false, true => p_rbr p | false, false => p_rbl p | true, true => p_ru p | true, false => 0
  end.

(** Limits announced by us during the history. *)
Definition stream_credit (sid : N) (ops : list sop) : list N :=
  flat_map (fun o => match o with OpSendMaxStreamData i v => if i =? sid then [v] else [] | _ => [] end) ops.
Definition data_credit (ops : list sop) : list N :=
  flat_map (fun o => match o with OpSendMaxData v => [v] | _ => [] end) ops.

(** Limits announced by the peer during the history. *)
Definition peer_stream_credit (sid : N) (ops : list sop) : list N :=
  flat_map (fun o => match o with OpMaxStreamData i v => if i =? sid then [v] else [] | _ => [] end) ops.
Definition peer_data_credit (ops : list sop) : list N :=
  flat_map (fun o => match o with OpMaxData v => [v] | _ => [] end) ops.
Definition peer_streams_credit (u : bool) (ops : list sop) : list N :=
  flat_map (fun o => match o with OpMaxStreams u' n => if Bool.eqb u u' then [n] else [] | _ => [] end) ops.

(** The [n]-th stream of its type, for streams initiated by the client or by the
    server. *)
Definition nth_stream (client u : bool) (n : N) : N := 4 * (n - 1) + (if u then 2 else 0) + (if client then 0 else 1).

(** Streams that were opened: still there, or deleted. *)
Definition opened (c : scnx) : list N := map s_id (k_streams c) ++ map fst (k_retired c).

(** Bytes stored out of order for a stream. *)
Definition stored (s : strm) : N := total_of (map (fun ch => blen (snd ch)) (rx_chunks (s_rx s))).

(** Frames of the peer that name a stream. *)
Definition frame_on (sid : N) (o : sop) : Prop :=
  match o with
  | OpStream i off _ d => i = sid /\ off + blen d < 2 ^ 62
  | OpReset i _ | OpStopFrame i | OpMaxStreamData i _ => i = sid
  | _ => False
  end.

(** Highest id the peer may use for a stream of the type of [sid]. *)
Definition peer_limit (c : scnx) (sid : N) : N := if is_uni sid then k_maxu_l c else k_maxb_l c.
