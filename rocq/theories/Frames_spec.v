(** Specification vocabulary for frames. *)
From Verif Require Import Base Varint_model Ack_model Frames_model.

(** [rest] is what is left of [l] after consuming at least one byte. *)
Definition progress (l rest : list N) : Prop := exists b p, l = b :: p ++ rest.

(** RFC 9000 table 3 with the restrictions of section 12.4 and 17.2.3 for 0-RTT,
    and the extension frames (1-RTT only, except BDP that a client may send in
    0-RTT and DATAGRAM, RFC 9221).  [client] tells which side receives. *)
Inductive permitted (client : bool) : N -> rframe -> Prop :=
| p_padding : forall e, permitted client e RPadding
| p_ping : forall e, permitted client e RPing
| p_ack : forall e ecn lg d rs, e <> 1 -> permitted client e (RAck ecn None lg d rs)
| p_path_ack : forall ecn p lg d rs, permitted client 3 (RAck ecn (Some p) lg d rs)
| p_reset : forall e a b c, e = 1 \/ e = 3 -> permitted client e (RReset a b c)
| p_stop : forall e a b, e = 1 \/ e = 3 -> permitted client e (RStopSending a b)
| p_crypto : forall e a d, e <> 1 -> permitted client e (RCrypto a d)
| p_token : forall t, client = true -> permitted client 3 (RNewToken t)
| p_stream : forall e a b f d, e = 1 \/ e = 3 -> permitted client e (RStream a b f d)
| p_max_data : forall e a, e = 1 \/ e = 3 -> permitted client e (RMaxData a)
| p_max_stream_data : forall e a b, e = 1 \/ e = 3 -> permitted client e (RMaxStreamData a b)
| p_max_streams : forall e u a, e = 1 \/ e = 3 -> permitted client e (RMaxStreams u a)
| p_data_blocked : forall e, e = 1 \/ e = 3 -> permitted client e RDataBlocked
| p_stream_data_blocked : forall e, e = 1 \/ e = 3 -> permitted client e RStreamDataBlocked
| p_streams_blocked : forall e u a, e = 1 \/ e = 3 -> permitted client e (RStreamsBlocked u a)
| p_new_cid : forall e a b c d, e = 1 \/ e = 3 -> permitted client e (RNewCid None a b c d)
| p_path_new_cid : forall p a b c d, permitted client 3 (RNewCid (Some p) a b c d)
| p_retire_cid : forall p a, permitted client 3 (RRetireCid p a)
| p_challenge : forall e a, e = 1 \/ e = 3 -> permitted client e (RPathChallenge a)
| p_response : forall a, permitted client 3 (RPathResponse a)
| p_conn_close : forall e a, permitted client e (RConnectionClose a)
| p_app_close : forall e a, e = 1 \/ e = 3 -> permitted client e (RApplicationClose a)
| p_done : client = true -> permitted client 3 RHandshakeDone
| p_datagram : forall e d, e = 1 \/ e = 3 -> permitted client e (RDatagram d)
| p_ack_freq : forall a b c d, permitted client 3 (RAckFrequency a b c d)
| p_imm_ack : permitted client 3 RImmediateAck
| p_time_stamp : forall a, permitted client 3 (RTimeStamp a)
| p_abandon : forall a b, permitted client 3 (RPathAbandon a b)
| p_status : forall v a b, permitted client 3 (RPathStatus v a b)
| p_max_path : forall a, permitted client 3 (RMaxPathId a)
| p_paths_blocked : forall a, permitted client 3 (RPathsBlocked a)
| p_cid_blocked : forall a b, permitted client 3 (RPathCidBlocked a b)
| p_bdp : forall e a b c d, e = 3 \/ (client = false /\ e = 1) -> permitted client e (RBdp a b c d)
| p_observed : forall v a b c, permitted client 3 (RObservedAddress v a b c).

(** What this endpoint announced or negotiated allows the contents of the frame:
    size of datagrams, acknowledgement delays, extensions, largest offset, connection
    identifiers. *)
Definition announced (o : options) (f : rframe) : Prop :=
  match f with
  | RDatagram d => blen d <= o_max_datagram o
  | RAckFrequency _ packets delay _ => o_ack_frequency o = true /\ o_min_ack_delay o <= delay /\ packets <> 0
  | RImmediateAck => o_ack_frequency o = true
  | RTimeStamp _ => o_time_stamp o = true
  | RAck _ (Some _) _ _ _ | RRetireCid (Some _) _ => o_multipath o = true
  | RPathAbandon _ _ | RPathStatus _ _ _ | RMaxPathId _ | RPathsBlocked _ | RPathCidBlocked _ _ => o_multipath o = true
  | RNewCid path seq retire cid _ =>
    (path <> None -> o_multipath o = true) /\ retire <= seq /\ blen cid <= 20
  | RObservedAddress _ _ _ _ => o_address_discovery o = true
  | RBdp _ _ _ _ => o_client o = true -> o_bdp o = true
  | RStream _ offset _ d => offset + blen d < two62
  | _ => True
  end.

(** The frame type at the head of a payload is the varint found there. *)
Definition head_type (l : list N) : option N :=
  match frames_varint_decode l with Some (t, _) => Some t | None => None end.

(** The packets in which a frame type may appear, as a table by number:
    types for every packet, every packet but 0-RTT, 0-RTT and 1-RTT, 1-RTT only. *)
Definition types_all : list N := [0; 1; 28].
Definition types_not_0rtt : list N := [2; 3; 6].
Definition types_app : list N :=
  [4; 5; 8; 9; 10; 11; 12; 13; 14; 15; 16; 17; 18; 19; 20; 21; 22; 23; 24; 26; 29; 48; 49; 60377].
Definition types_1rtt : list N :=
  [7; 25; 27; 30; 31; 175; 757; 10453414; 10453415; 354585600; 354585601; 354585605; 354585607;
   354585608; 354585609; 354585610; 354585612; 354585613; 354585614].
Definition type_permitted (epoch t : N) : Prop :=
  In t types_all \/ (In t types_not_0rtt /\ epoch <> 1) \/
  (In t types_app /\ (epoch = 1 \/ epoch = 3)) \/ (In t types_1rtt /\ epoch = 3).

(** Values that fit in a varint. *)
Definition fits (v : N) : Prop := v < two62.

(** The values the library may put in a frame: varint fields below 2^62,
    connection identifiers of 1 to 20 bytes, reset secrets of 16 bytes, IP
    addresses of 4 or 16 bytes, a retirement limit at most the sequence
    number. *)
Definition wframe_ok (f : wframe) : Prop :=
  match f with
  | WReset a b c => fits a /\ fits b /\ fits c
  | WStopSending a b | WMaxStreamData a b | WStreamDataBlocked a b | WPathAbandon a b
  | WPathStatus _ a b | WPathCidBlocked a b => fits a /\ fits b
  | WCrypto a d => fits a /\ fits (blen d) /\ bytes_ok d
  | WNewToken d | WDatagram d => fits (blen d) /\ bytes_ok d
  | WMaxData a | WMaxStreams _ a | WDataBlocked a | WStreamsBlocked _ a | WApplicationClose a
  | WTimeStamp a | WMaxPathId a | WPathsBlocked a => fits a
  | WNewCid p a b c d => match p with Some p => fits p | None => True end /\ fits a /\ b <= a /\
                         1 <= blen c <= 20 /\ bytes_ok c /\ blen d = 16 /\ bytes_ok d
  | WRetireCid p a => match p with Some p => fits p | None => True end /\ fits a
  | WPathChallenge a | WPathResponse a => a < two64
  | WConnectionClose a b d => fits a /\ fits b /\ fits (blen d) /\ bytes_ok d
  | WHandshakeDone | WImmediateAck => True
  | WAckFrequency a b c d => fits a /\ 1 <= b /\ fits b /\ fits c /\ fits d
  | WBdp a b c d => fits a /\ fits b /\ fits c /\ (blen d = 4 \/ blen d = 16) /\ bytes_ok d
  | WObservedAddress v6 a d p =>
      fits a /\ blen d = (if v6 then 16 else 4) /\ bytes_ok d /\ p < 65536
  end.

(** What the peer must get from it. *)
Definition received_as (f : wframe) : rframe :=
  match f with
  | WReset a b c => RReset a b c
  | WStopSending a b => RStopSending a b
  | WCrypto a d => RCrypto a d
  | WNewToken d => RNewToken d
  | WMaxData a => RMaxData a
  | WMaxStreamData a b => RMaxStreamData a b
  | WMaxStreams u a => RMaxStreams u a
  | WDataBlocked _ => RDataBlocked
  | WStreamDataBlocked _ _ => RStreamDataBlocked
  | WStreamsBlocked u a => RStreamsBlocked u a
  | WNewCid p a b c d => RNewCid p a b c d
  | WRetireCid p a => RRetireCid p a
  | WPathChallenge a => RPathChallenge a
  | WPathResponse a => RPathResponse a
  | WConnectionClose a _ _ => RConnectionClose a
  | WApplicationClose a => RApplicationClose a
  | WHandshakeDone => RHandshakeDone
  | WDatagram d => RDatagram d
  | WAckFrequency a b c d => RAckFrequency a b c d
  | WImmediateAck => RImmediateAck
  | WTimeStamp a => RTimeStamp a
  | WPathAbandon a b => RPathAbandon a b
  | WPathStatus v a b => RPathStatus v a b
  | WMaxPathId a => RMaxPathId a
  | WPathsBlocked a => RPathsBlocked a
  | WPathCidBlocked a b => RPathCidBlocked a b
  | WBdp a b c d => RBdp a b c d
  | WObservedAddress v a d p => RObservedAddress v a d p
  end.

(** The extension the frame belongs to was negotiated by the receiver. *)
Definition negotiated (o : options) (f : wframe) : Prop :=
  match f with
  | WNewCid (Some _) _ _ _ _ | WRetireCid (Some _) _ | WPathAbandon _ _ | WPathStatus _ _ _
  | WMaxPathId _ | WPathsBlocked _ | WPathCidBlocked _ _ => o_multipath o = true
  | WDatagram d => blen d <= o_max_datagram o
  | WAckFrequency _ _ c _ => o_ack_frequency o = true /\ o_min_ack_delay o <= c
  | WImmediateAck => o_ack_frequency o = true
  | WTimeStamp _ => o_time_stamp o = true
  | WBdp _ _ _ _ => o_bdp o = true
  | WObservedAddress _ _ _ _ => o_address_discovery o = true
  | _ => True
  end.

(** A packet payload made of several frames. *)
Fixpoint write_frames (fs : list wframe) : writer :=
  match fs with
  | [] => fun _ => Some []
  | f :: fs' => write_frame f >>> write_frames fs'
  end.

(** What a receiver must do with them: process each in order, stop at the first
    one that its processing refuses. *)
Fixpoint process_all {S} (h : handlers S) (s : S) (fs : list wframe) : S * option bool :=
  match fs with
  | [] => (s, Some true)
  | f :: fs' =>
    match h_frame h s (received_as f) with
    | (s', true) => process_all h s' fs'
    | (s', false) => (s', Some false)
    end
  end.

(** A recorder: the frames and errors, in order. *)
Definition recorder : handlers (list (rframe + N)) :=
  mk_h (fun s f => (s ++ [inl f], true)) (fun s code _ => s ++ [inr code]) (fun _ _ => true).
