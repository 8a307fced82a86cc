(** Specification vocabulary for the repetition and acknowledgement of frames: what
    information a frame carries, and which information the peer may still lack. *)
From Verif Require Import Base Varint_model Varint_spec Sack_model Sack_spec Ack_model Ack_spec Frames_model Frames_spec
  Header_model Stream_model Needs_model.

(** ** The frames of a packet *)
Inductive sframe :=
| SCtl (f : wframe)
| SStream (last : bool) (sid off : N) (fin : bool) (d : list N)   (* [last]: without length *)
| SAck (ecn : bool) (path : option N) (largest delay first : N) (blocks : list (N * N)) (counts : list N)
| SRun (t : N) (n : nat).                                         (* [n + 1] bytes of PADDING or PING *)

(** The type of an ACK frame: 2, 3, and the varints 0x15228c00 and 0x15228c01. *)
Definition ack_type (ecn : bool) (path : option N) : list N :=
  match path with
  | None => [if ecn then 3 else 2]
  | Some _ => [149; 34; 140; if ecn then 1 else 0]
  end.

(** The bytes of a frame: RFC 9000 sections 19.3 and 19.8 for ACK and STREAM frames. *)
Definition sent_as (f : sframe) (bytes : list N) : Prop :=
  match f with
  | SCtl w => exists room, write_frame w room = Some bytes
  | SStream last sid off fin d =>
    exists with_off p1 p2 p3, is_varint sid p1 /\
      (if with_off : bool then is_varint off p2 else off = 0 /\ p2 = []) /\
      (if last then p3 = [] else is_varint (blen d) p3) /\
      bytes = [8 + (if with_off then 4 else 0) + (if last then 0 else 2) + (if fin then 1 else 0)] ++ p1 ++ p2 ++ p3 ++ d
  | SAck ecn path largest delay first blocks counts =>
    exists p, bytes = ack_type ecn path ++ p /\
      varints (match path with Some p => [p] | None => [] end ++
        [largest; delay; N.of_nat (length blocks); first] ++ block_numbers blocks ++ counts) p
  | SRun t n => bytes = repeat t (S n)
  end.

(** The values that can be in them.  A STREAM or CRYPTO frame carries something. *)
Definition sframe_ok (f : sframe) : Prop :=
  match f with
  | SCtl w => wframe_ok w /\ match w with WCrypto off d => d <> [] /\ off + blen d < two62 | _ => True end
  | SStream _ sid off fin d => off + blen d < two62 /\ bytes_ok d /\ (fin = true \/ d <> [])
  | SAck ecn _ _ _ _ _ counts => length counts = if ecn then 3%nat else 0%nat
  | SRun t _ => t = 0 \/ t = 1
  end.

(** A payload: the frames one after the other.  A STREAM frame without length is the
    last one; a run of PADDING or PING is as long as possible. *)
Inductive payload : list sframe -> list N -> Prop :=
| pl_nil : payload [] []
| pl_cons : forall f fs b l, sframe_ok f -> sent_as f b -> payload fs l ->
    (forall sid off fin d, f = SStream true sid off fin d -> fs = []) ->
    (forall t n, f = SRun t n -> hd_error l <> Some t) ->
    payload (f :: fs) (b ++ l).

(** ** Information *)

(** Pieces of information. [KByte] and [KCrypto] are positions in a stream, the FIN
    of a stream counting as one more position. *)
Inductive info :=
| KReset (sid : N)
| KStop (sid : N)
| KByte (sid pos : N)
| KCrypto (epoch pos : N)
| KToken
| KDone
| KMaxData (v : N)
| KMaxStreamData (sid v : N)
| KMaxStreams (unidir : bool) (rank : N)
| KDataBlocked (v : N)
| KStreamDataBlocked (sid v : N)
| KStreamsBlocked (unidir : bool) (rank : N)
| KNewCid (path seq : N)
| KRetireCid (path seq : N)
| KResponse (r : N)
| KAckFrequency (seq : N)
| KAbandon (path : N)
| KStatus (path seq : N)
| KMaxPathId (v : N)
| KPathsBlocked (v : N)
| KPathCidBlocked (path seq : N).

(** CRYPTO frames of the four types of packets belong to four streams. *)
Definition epoch_of (pt : ptype) : N :=
  match pt with PtInitial => 0 | Pt0rtt => 1 | PtHandshake => 2 | _ => 3 end.

(** Packets that carry frames. *)
Definition carries_frames (pt : ptype) : Prop := pt = PtInitial \/ pt = Pt0rtt \/ pt = PtHandshake \/ pt = Pt1rtt.

(** The path a frame speaks of: 0 when it does not say. *)
Definition of_path (p : option N) : N := match p with Some p => p | None => 0 end.

(** The information in a frame. *)
Definition carries (pt : ptype) (f : sframe) (i : info) : Prop :=
  match f with
  | SStream _ sid off fin d =>
    exists pos, i = KByte sid pos /\ off <= pos /\ (pos < off + blen d \/ (fin = true /\ pos = off + blen d))
  | SCtl (WCrypto off d) => exists pos, i = KCrypto (epoch_of pt) pos /\ off <= pos < off + blen d
  | SCtl (WReset sid _ _) => i = KReset sid
  | SCtl (WStopSending sid _) => i = KStop sid
  | SCtl (WNewToken _) => i = KToken
  | SCtl WHandshakeDone => i = KDone
  | SCtl (WMaxData v) => i = KMaxData v
  | SCtl (WMaxStreamData sid v) => i = KMaxStreamData sid v
  | SCtl (WMaxStreams u r) => i = KMaxStreams u r
  | SCtl (WDataBlocked v) => i = KDataBlocked v
  | SCtl (WStreamDataBlocked sid v) => i = KStreamDataBlocked sid v
  | SCtl (WStreamsBlocked u r) => i = KStreamsBlocked u r
  | SCtl (WNewCid p seq _ _ _) => i = KNewCid (of_path p) seq
  | SCtl (WRetireCid p seq) => i = KRetireCid (of_path p) seq
  | SCtl (WPathResponse r) => i = KResponse r
  | SCtl (WAckFrequency seq _ _ _) => i = KAckFrequency seq
  | SCtl (WPathAbandon p _) => i = KAbandon p
  | SCtl (WPathStatus _ p seq) => i = KStatus p seq
  | SCtl (WMaxPathId v) => i = KMaxPathId v
  | SCtl (WPathsBlocked v) => i = KPathsBlocked v
  | SCtl (WPathCidBlocked p seq) => i = KPathCidBlocked p seq
  | _ => False
  end.

(** The position [q] of a stream is recorded as acknowledged. *)
Definition acked (k : sack_list) (q : N) : Prop := in_ranges (ranges k) q.

(** Streams on which this endpoint receives, on which it sends. *)
Definition receivable (client : bool) (sid : N) : Prop := is_bidir_id sid = true \/ is_local_id sid client = false.
Definition sendable (client : bool) (sid : N) : Prop := is_bidir_id sid = true \/ is_local_id sid client = true.

(** The stream id that stands for a limit of [rank] streams (RFC 9000 section 2.1; the two
    low bits are those of this endpoint's own streams, quicctx.c 3944-3949). *)
Definition limit_id (client unidir : bool) (rank : N) : N :=
  4 * (rank - 1) + (if unidir then 2 else 0) + (if client then 0 else 1).

(** The peer may lack this information and it is of use. *)
Definition outstanding (c : nconn) (i : info) : Prop :=
  match i with
  | KReset sid => exists s, In s (nc_streams c) /\ n_id s = sid /\ n_rst_sent s = true /\ n_rst_acked s = false
  | KStop sid => exists s, In s (nc_streams c) /\ n_id s = sid /\ receivable (nc_client c) sid /\
                 n_fin_rcvd s = false /\ n_rst_rcvd s = false
  | KByte sid pos => exists s, In s (nc_streams c) /\ n_id s = sid /\ n_rst_sent s = false /\
                     (pos < n_sent s \/ (pos = n_sent s /\ n_fin_sent s = true)) /\ ~ acked (n_sack s) pos
  | KCrypto e pos => ~ acked (nc_tls c e) pos
  | KToken => nc_token_acked c = false
  | KDone => nc_done_acked c = false
  | KMaxData v => v = nc_md_l c /\ nc_md_l_acked c < v
  | KMaxStreamData sid v =>
    exists s, In s (nc_streams c) /\ n_id s = sid /\ receivable (nc_client c) sid /\
      n_fin_rcvd s = false /\ n_rst_rcvd s = false /\ n_stop_sent s = false /\ v = n_md_l s /\ n_md_l_acked s < v
  | KMaxStreams u r => nc_rank_acked c u < r /\ nc_max_l c u = limit_id (nc_client c) u r
  | KDataBlocked v => v = nc_md_r c /\ nc_blocked c = true
  | KStreamDataBlocked sid v =>
    exists s, In s (nc_streams c) /\ n_id s = sid /\ sendable (nc_client c) sid /\ n_fin_req s = false /\
      n_rst_req s = false /\ n_fin_sent s = false /\ n_rst_sent s = false /\ v = n_md_r s /\ n_blocked_sent s = true
  | KStreamsBlocked u r => 1 <= r /\ nc_max_r c u = limit_id (nc_client c) u r /\ nc_sblocked c u = true
  | KNewCid p seq => In (p, seq, false) (nc_local c)
  | KRetireCid p seq => In (p, seq) (nc_remote c)
  | KResponse r => exists x, In x (nc_paths c) /\ np_response x = r /\
                   (np_verified x = true \/ (nc_client c = true /\ np_failed x = false))
  | KAckFrequency seq => seq = nc_freq c
  | KAbandon _ => True
  | KStatus p seq => exists x, In x (nc_paths c) /\ np_id x = p /\ np_status x = seq /\ np_demoted x = false
  | KMaxPathId v => v = nc_mp_l c /\ nc_mp_acked c < v
  | KPathsBlocked v => v = nc_mp_r c /\ nc_pb_acked c < v
  | KPathCidBlocked p seq => (exists x, In x (nc_paths c) /\ np_id x = p /\ np_blocked x = true) /\
                             (forall s, In (p, s) (nc_remote c) -> s < seq)
  end.

(** The loss of the frame would leave the peer without information. *)
Definition needed (c : nconn) (pt : ptype) (f : sframe) : Prop := exists i, carries pt f i /\ outstanding c i.

(** Frames sent earlier on this connection: what they announce is at most what the
    connection now records, and they concern streams that have that half. *)
Definition was_sent (c : nconn) (f : sframe) : Prop :=
  match f with
  | SStream _ sid off fin d => forall s, In s (nc_streams c) -> n_id s = sid ->
      off + blen d <= n_sent s /\ (fin = true -> off + blen d = n_sent s /\ n_fin_sent s = true)
  | SCtl (WMaxData v) => v <= nc_md_l c
  | SCtl (WMaxStreamData sid v) => receivable (nc_client c) sid /\
      (forall s, In s (nc_streams c) -> n_id s = sid -> v <= n_md_l s)
  | SCtl (WMaxStreams u r) => 1 <= r /\ limit_id (nc_client c) u r <= nc_max_l c u
  | SCtl (WDataBlocked v) => v <= nc_md_r c
  | SCtl (WStreamDataBlocked sid v) => sendable (nc_client c) sid /\
      (forall s, In s (nc_streams c) -> n_id s = sid -> v <= n_md_r s)
  | SCtl (WStreamsBlocked u r) => 1 <= r /\ limit_id (nc_client c) u r <= nc_max_r c u
  | SCtl (WStopSending sid _) => receivable (nc_client c) sid
  | _ => True
  end.

(** A record of acknowledged positions made of separated ranges. *)
Definition sack_ok (k : sack_list) : Prop :=
  sl_delay k = 0%Z /\ separated (ranges k) /\ (forall a b, In (a, b) (ranges k) -> b < max64).

(** A stream is marked closed only when both its halves are done. *)
Definition closed_ok (client : bool) (s : nstrm) : Prop :=
  n_closed s = true ->
  (receivable client (n_id s) -> n_fin_rcvd s || n_rst_rcvd s = true) /\
  (sendable client (n_id s) -> n_fin_sent s || n_rst_sent s = true).

(** Consistent connections: streams, paths and local connection ids are distinct. *)
Record conn_ok (c : nconn) : Prop := {
  ok_ids : NoDup (map n_id (nc_streams c));
  ok_streams : forall s, In s (nc_streams c) -> sack_ok (n_sack s) /\ closed_ok (nc_client c) s /\ n_sent s < max64;
  ok_tls : forall e, sack_ok (nc_tls c e);
  ok_paths : NoDup (map np_id (nc_paths c));
  ok_local : NoDup (map fst (nc_local c)) }.

(** ** Acknowledgement *)

(** What the peer has got when it acknowledges a frame.  Limits give also the lower
    limits.  For the other frames the library keeps no trace of the acknowledgement. *)
Definition gives (pt : ptype) (f : sframe) (i : info) : Prop :=
  match f, i with
  | SCtl (WMaxData v), KMaxData v' => v' <= v
  | SCtl (WMaxStreamData sid v), KMaxStreamData sid' v' => sid' = sid /\ v' <= v
  | SCtl (WMaxStreams u r), KMaxStreams u' r' => u' = u /\ r' <= r
  | SCtl (WReset _ _ _), _ | SCtl (WCrypto _ _), _ | SCtl (WNewToken _), _ | SCtl WHandshakeDone, _
  | SCtl (WNewCid _ _ _ _ _), _ | SCtl (WRetireCid _ _), _ | SStream _ _ _ _ _, _ => carries pt f i
  | _, _ => False
  end.

(** PATH_CIDS_BLOCKED is put aside: whether it is still of use depends on the stash of
    connection ids, that the acknowledgement of RETIRE_CONNECTION_ID reduces. *)
Definition tracked (i : info) : Prop := match i with KPathCidBlocked _ _ => False | _ => True end.

(** The frames whose loss is handled: all but RESET_STREAM, PATH_RESPONSE, ACK_FREQUENCY,
    MAX_PATH_ID and PATHS_BLOCKED (see the counterexamples). *)
Definition loss_handled (f : sframe) : Prop :=
  match f with
  | SCtl (WReset _ _ _) | SCtl (WPathResponse _) | SCtl (WAckFrequency _ _ _ _) | SCtl (WMaxPathId _)
  | SCtl (WPathsBlocked _) => False
  | _ => True
  end.

(** The frames whose acknowledgement is handled: all but MAX_PATH_ID, PATHS_BLOCKED,
    PATH_CID_BLOCKED, OBSERVED_ADDRESS and PATH_RETIRE_CONNECTION_ID (see the
    counterexamples). *)
Definition ack_handled (f : sframe) : Prop :=
  match f with
  | SCtl (WMaxPathId _) | SCtl (WPathsBlocked _) | SCtl (WPathCidBlocked _ _) | SCtl (WObservedAddress _ _ _ _)
  | SCtl (WRetireCid (Some _) _) => False
  | _ => True
  end.

(** STREAM frames are not copied: the whole packet goes to the queue of data to
    repeat (see Repeat_model.v). *)
Definition is_stream (f : sframe) : bool := match f with SStream _ _ _ _ _ => true | _ => false end.

(** The bytes of a list of frames. *)
Definition bytes_of (fs : list sframe) (b : list N) : Prop := exists bs, Forall2 sent_as fs bs /\ b = concat bs.

(** A packet contains the frame. *)
Definition holds (f : sframe) (nb : list N) : Prop :=
  exists pre b post, nb = pre ++ b ++ post /\ sent_as f b.
