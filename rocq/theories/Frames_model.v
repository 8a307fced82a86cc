(** Model of frame skipping, frame writing, frame reading and of the frame
    dispatcher, picoquic/frames.c (definitions only).

    Pointers are compared on flat addresses: in the datagram functions
    (frames.c 4936, 4951, 4976) the sum [bytes + length] is compared with
    [bytes_max] as mathematical integers, which is what the machine computes as
    long as the payload lies below address 2^63 ([length] is below 2^62). *)
From Verif Require Import Base Varint_model Sack_model Ack_model.

(** ** Frame types: picoquic/picoquic_internal.h 125-169 *)
Definition ft_padding : N := 0.
Definition ft_ping : N := 1.
Definition ft_reset_stream : N := 4.
Definition ft_stop_sending : N := 5.
Definition ft_crypto_hs : N := 6.
Definition ft_new_token : N := 7.
Definition ft_stream_min : N := 8.
Definition ft_stream_max : N := 15.
Definition ft_max_data : N := 16.
Definition ft_max_stream_data : N := 17.
Definition ft_max_streams_bidir : N := 18.
Definition ft_max_streams_unidir : N := 19.
Definition ft_data_blocked : N := 20.
Definition ft_stream_data_blocked : N := 21.
Definition ft_streams_blocked_bidir : N := 22.
Definition ft_streams_blocked_unidir : N := 23.
Definition ft_new_connection_id : N := 24.
Definition ft_retire_connection_id : N := 25.
Definition ft_path_challenge : N := 26.
Definition ft_path_response : N := 27.
Definition ft_connection_close : N := 28.
Definition ft_application_close : N := 29.
Definition ft_handshake_done : N := 30.
Definition ft_immediate_ack : N := 31.
Definition ft_datagram : N := 48.
Definition ft_datagram_l : N := 49.
Definition ft_ack_frequency : N := 175.
Definition ft_time_stamp : N := 757.
Definition ft_bdp : N := 60377.                          (* 0xebd9 *)
Definition ft_observed_address_v4 : N := 10453414.       (* 0x9f81a6 *)
Definition ft_observed_address_v6 : N := 10453415.       (* 0x9f81a7 *)
Definition ft_path_abandon : N := 354585605.             (* 0x15228c05 *)
Definition ft_path_backup : N := 354585607.              (* 0x15228c07 *)
Definition ft_path_available : N := 354585608.           (* 0x15228c08 *)
Definition ft_path_new_connection_id : N := 354585609.   (* 0x15228c09 *)
Definition ft_path_retire_connection_id : N := 354585610. (* 0x15228c0a *)
Definition ft_max_path_id : N := 354585612.              (* 0x15228c0c *)
Definition ft_paths_blocked : N := 354585613.            (* 0x15228c0d *)
Definition ft_path_cid_blocked : N := 354585614.         (* 0x15228c0e *)

(** The macro PICOQUIC_IN_RANGE (picoquic/picoquic_internal.h 183) on the first byte
    (frames.c 6398, 6807). *)
Definition is_stream_type (b : N) : bool :=
  N.ldiff b (N.lxor ft_stream_min ft_stream_max) =? ft_stream_min.

(** ** Skipping *)

(** [k] calls of picoquic_frames_varint_skip chained by the test against NULL. *)
Fixpoint skip_varints (k : nat) : skipper :=
  match k with
  | O => fun l => Some l
  | S k' => sbind frames_varint_skip (skip_varints k')
  end.

(** picoquic/frames.c 4868-4875, picoquic_skip_0len_frame, after the first byte:
    the loop skips the following bytes equal to the frame type. *)
Fixpoint skip_run (frame : N) (l : list N) : list N :=
  match l with
  | b :: l' => if b =? frame then skip_run frame l' else l
  | [] => []
  end.

(** picoquic/frames.c 6737-6743: the loop over the ACK blocks.  The number of
    iterations is a value read from the frame, so the recursion is on a fuel;
    running out of fuel is [UB] (never reached, see Frames_proofs.v). *)
Fixpoint skip_blocks (fuel : nat) (nb_blocks : N) (l : list N) : outcome (list N) :=
  if nb_blocks =? 0 then Ok l
  else
    match fuel with
    | O => UB
    | S f =>
      match skip_varints 2 l with
      | None => Fail
      | Some l' => skip_blocks f (nb_blocks - 1) l'
      end
    end.

(** NULL as a failed outcome. *)
Definition of_skip (r : option (list N)) : outcome (list N) :=
  match r with Some l => Ok l | None => Fail end.

(** picoquic/frames.c 6723-6754, picoquic_skip_ack_frame_maybe_ecn (and 6756-6762,
    its two wrappers). *)
Definition skip_ack_frame_maybe_ecn (is_ecn has_path : bool) (l : list N) : outcome (list N) :=
  match skip_varints (if has_path then 4 else 3) l with
  | None => Fail
  | Some l1 =>
    match frames_varint_decode l1 with
    | None => Fail
    | Some (nb_blocks, l2) =>
      match frames_varint_skip l2 with
      | None => Fail
      | Some l3 =>
        match skip_blocks (S (length l3)) nb_blocks l3 with
        | Ok l4 => if is_ecn then of_skip (skip_varints 3 l4) else Ok l4
        | Fail => Fail
        | UB => UB
        end
      end
    end
  end.

(** picoquic/frames.c 6668-6681, picoquic_skip_stream_frame. *)
Definition skip_stream_frame (b0 : N) (l : list N) : option (list N) :=
  match skip_varints (if N.land b0 4 =? 0 then 1 else 2) l with
  | None => None
  | Some l1 => if N.land b0 2 =? 0 then Some [] else frames_length_data_skip l1
  end.

(** picoquic/frames.c 413-428, picoquic_skip_new_connection_id_frame, from the
    type. *)
Definition skip_new_connection_id_frame (is_mp : bool) (l : list N) : option (list N) :=
  match skip_varints (if is_mp then 4 else 3) l with
  | None => None
  | Some l1 =>
    match frames_uint8_decode l1 with
    | None => None
    | Some (cid_length, l2) => frames_fixed_skip (cid_length + 16) l2
    end
  end.

(** picoquic/frames.c 4919-4942, picoquic_skip_datagram_frame, after the type. *)
Definition skip_datagram_frame (frame_id : N) (l : list N) : option (list N) :=
  if N.land frame_id 1 =? 0 then Some []
  else
    match frames_varint_decode l with
    | None => None
    | Some (length, l1) =>
      if blen l1 <? length then None else Some (skipn (N.to_nat length) l1)
    end.

(** picoquic/frames.c 6147-6157, picoquic_skip_observed_address_frame, after the
    type. *)
Definition skip_observed_address_frame (ftype : N) (l : list N) : option (list N) :=
  match frames_varint_skip l with
  | None => None
  | Some l1 => frames_fixed_skip ((if N.land ftype 1 =? 0 then 4 else 16) + 2) l1
  end.

(** picoquic/frames.c 6886-6962: the types that need a varint, after reading it.
    [l0] starts at the type, [l] after it; the boolean is pure_ack. *)
Definition skip_extension (frame_id64 : N) (l0 l : list N) : outcome (list N) * bool :=
  if frame_id64 =? ft_ack_frequency then (of_skip (skip_varints 4 l), false)
  else if frame_id64 =? ft_immediate_ack then (Ok l, false)
  else if frame_id64 =? ft_time_stamp then (of_skip (frames_varint_skip l), true)
  else if frame_id64 =? ft_path_ack then (skip_ack_frame_maybe_ecn false true l0, true)
  else if frame_id64 =? ft_path_ack_ecn then (skip_ack_frame_maybe_ecn true true l0, true)
  else if frame_id64 =? ft_path_abandon then (of_skip (skip_varints 2 l), false)
  else if (frame_id64 =? ft_path_backup) || (frame_id64 =? ft_path_available) then
    (of_skip (skip_varints 2 l), false)
  else if frame_id64 =? ft_max_path_id then (of_skip (frames_varint_skip l), false)
  else if frame_id64 =? ft_paths_blocked then (of_skip (frames_varint_skip l), false)
  else if frame_id64 =? ft_path_cid_blocked then (of_skip (skip_varints 2 l), false)
  else if frame_id64 =? ft_bdp then
    (of_skip (sbind (skip_varints 3) frames_length_data_skip l), false)
  else if frame_id64 =? ft_path_new_connection_id then
    (of_skip (skip_new_connection_id_frame true l0), false)
  else if frame_id64 =? ft_path_retire_connection_id then
    (of_skip (skip_varints 3 l0), false)
  else if (frame_id64 =? ft_observed_address_v4) || (frame_id64 =? ft_observed_address_v6) then
    (of_skip (skip_observed_address_frame frame_id64 l), false)
  else (Fail, true).

(** picoquic/frames.c 6800-6971, picoquic_skip_frame: the remaining bytes and
    pure_ack.  The read of [bytes[0]] is undefined on an empty buffer. *)
Definition skip_frame (l0 : list N) : outcome (list N) * bool :=
  match l0 with
  | [] => (UB, true)
  | b :: l =>
    if is_stream_type b then (of_skip (skip_stream_frame b l), false)
    else if b =? ft_ack then (skip_ack_frame_maybe_ecn false false l0, true)
    else if b =? ft_ack_ecn then (skip_ack_frame_maybe_ecn true false l0, true)
    else if b =? ft_padding then (Ok (skip_run b l), true)
    else if b =? ft_reset_stream then (of_skip (skip_varints 3 l), false)
    else if b =? ft_connection_close then
      (of_skip (sbind (skip_varints 2) frames_length_data_skip l), false)
    else if b =? ft_application_close then
      (of_skip (sbind frames_varint_skip frames_length_data_skip l), false)
    else if b =? ft_max_data then (of_skip (frames_varint_skip l), false)
    else if b =? ft_max_stream_data then (of_skip (skip_varints 2 l), false)
    else if (b =? ft_max_streams_bidir) || (b =? ft_max_streams_unidir) then
      (of_skip (frames_varint_skip l), false)
    else if b =? ft_ping then (Ok (skip_run b l), false)
    else if b =? ft_data_blocked then (of_skip (frames_varint_skip l), false)
    else if b =? ft_stream_data_blocked then (of_skip (skip_varints 2 l), false)
    else if (b =? ft_streams_blocked_bidir) || (b =? ft_streams_blocked_unidir) then
      (of_skip (frames_varint_skip l), false)
    else if b =? ft_new_connection_id then
      (of_skip (skip_new_connection_id_frame false l0), false)
    else if b =? ft_stop_sending then (of_skip (skip_varints 2 l), false)
    else if b =? ft_path_challenge then (of_skip (frames_fixed_skip 8 l), true)
    else if b =? ft_path_response then (of_skip (frames_fixed_skip 8 l), true)
    else if b =? ft_crypto_hs then
      (of_skip (sbind frames_varint_skip frames_length_data_skip l), false)
    else if b =? ft_new_token then (of_skip (frames_length_data_skip l), false)
    else if b =? ft_retire_connection_id then (of_skip (frames_varint_skip l), false)
    else if b =? ft_handshake_done then (Ok l, false)
    else if (b =? ft_datagram) || (b =? ft_datagram_l) then
      (of_skip (skip_datagram_frame b l), false)
    else
      match frames_varint_decode l0 with
      | None => (Fail, true)
      | Some (frame_id64, l1) => skip_extension frame_id64 l0 l1
      end
  end.

(** Result of a walk over a payload: how it ended. *)
Inductive walk_result :=
| WalkDone                (* end of payload *)
| WalkClosing             (* a closing frame was found *)
| WalkError               (* skip_frame returned an error *)
| WalkFuel.               (* does not happen *)

(** picoquic/frames.c 6975-6998, picoquic_decode_closing_frames. *)
Fixpoint decode_closing_frames (fuel : nat) (l : list N) : outcome walk_result :=
  match l with
  | [] => Ok WalkDone
  | b :: _ =>
    if (b =? ft_connection_close) || (b =? ft_application_close) then Ok WalkClosing
    else
      match fst (skip_frame l) with
      | UB => UB
      | Fail => Ok WalkError
      | Ok l' =>
        match fuel with
        | O => Ok WalkFuel
        | S f => decode_closing_frames f l'
        end
      end
  end.

(** ** Writing *)

(** The control frames the library writes, with the values it puts in them. *)
Inductive wframe :=
| WReset (stream_id error final_size : N)
| WStopSending (stream_id error : N)
| WCrypto (offset : N) (data : list N)
| WNewToken (token : list N)
| WMaxData (maxdata : N)
| WMaxStreamData (stream_id maxdata : N)
| WMaxStreams (unidir : bool) (rank : N)
| WDataBlocked (limit : N)
| WStreamDataBlocked (stream_id limit : N)
| WStreamsBlocked (unidir : bool) (rank : N)
| WNewCid (path_id : option N) (sequence retire_before : N) (cid secret : list N)
| WRetireCid (path_id : option N) (sequence : N)
| WPathChallenge (challenge : N)
| WPathResponse (response : N)
| WConnectionClose (error frame_type : N) (reason : list N)
| WApplicationClose (error : N)
| WHandshakeDone
| WDatagram (data : list N)
| WAckFrequency (seq gap delay reordering : N)
| WImmediateAck
| WTimeStamp (stamp : N)
| WPathAbandon (path_id reason : N)
| WPathStatus (available : bool) (path_id sequence : N)
| WMaxPathId (path_id : N)
| WPathsBlocked (path_id : N)
| WPathCidBlocked (path_id sequence : N)
| WBdp (lifetime bytes_in_flight min_rtt : N) (ip : list N)
| WObservedAddress (v6 : bool) (sequence : N) (addr : list N) (port : N).

(** Only the bytes of the frames are modelled here: the tests of the connection
    state that decide whether the frame is written, and the updates of that
    state, are in the models of the functions concerned.  When the room is
    too small the C functions restore [bytes] and set more_data: [None]. *)
Definition write_frame (f : wframe) : writer :=
  match f with
  (* frames.c 229-264, picoquic_format_stream_reset_frame, 235-238 *)
  | WReset sid err off =>
    frames_uint8_encode ft_reset_stream >>> frames_varint_encode sid
    >>> frames_varint_encode err >>> frames_varint_encode off
  (* frames.c 876-902, picoquic_format_stop_sending_frame, 887-889 *)
  | WStopSending sid err =>
    frames_uint8_encode ft_stop_sending >>> frames_varint_encode sid
    >>> frames_varint_encode err
  (* frames.c 2402-2450, picoquic_format_crypto_hs_frame, 2406-2431, once the
     length of the data is chosen *)
  | WCrypto off data =>
    frames_uint8_encode ft_crypto_hs >>> frames_varint_encode off
    >>> frames_length_data_encode data
  (* frames.c 802-816, picoquic_format_new_token_frame *)
  | WNewToken token =>
    frames_uint8_encode ft_new_token >>> frames_length_data_encode token
  (* frames.c 4211-4226, picoquic_format_max_data_frame *)
  | WMaxData v => frames_uint8_encode ft_max_data >>> frames_varint_encode v
  (* frames.c 4271-4290, picoquic_format_max_stream_data_frame *)
  | WMaxStreamData sid v =>
    frames_uint8_encode ft_max_stream_data >>> frames_varint_encode sid
    >>> frames_varint_encode v
  (* frames.c 4384-4420, picoquic_format_max_streams_frame_if_needed, one of the
     two frames *)
  | WMaxStreams unidir rank =>
    frames_uint8_encode (if unidir then ft_max_streams_unidir else ft_max_streams_bidir)
    >>> frames_varint_encode rank
  (* frames.c 1426-1442, picoquic_format_data_blocked_frame *)
  | WDataBlocked v => frames_uint8_encode ft_data_blocked >>> frames_varint_encode v
  (* frames.c 1444-1462, picoquic_format_stream_data_blocked_frame *)
  | WStreamDataBlocked sid v =>
    frames_uint8_encode ft_stream_data_blocked >>> frames_varint_encode sid
    >>> frames_varint_encode v
  (* frames.c 1464-1500, picoquic_format_stream_blocked_frame *)
  | WStreamsBlocked unidir rank =>
    frames_uint8_encode (if unidir then ft_streams_blocked_unidir else ft_streams_blocked_bidir)
    >>> frames_varint_encode rank
  (* frames.c 384-411, picoquic_format_new_connection_id_frame; the 16 bytes of
     the secret are those of picoquic_create_cnxid_reset_secret *)
  | WNewCid mp seq retire cid secret =>
    (match mp with
     | None => frames_varint_encode ft_new_connection_id
     | Some p => frames_varint_encode ft_path_new_connection_id >>> frames_varint_encode p
     end)
    >>> frames_varint_encode seq >>> frames_varint_encode retire
    >>> frames_length_data_encode cid >>> put_bytes secret
  (* frames.c 609-627, picoquic_format_retire_connection_id_frame *)
  | WRetireCid mp seq =>
    (match mp with
     | None => frames_varint_encode ft_retire_connection_id
     | Some p => frames_varint_encode ft_path_retire_connection_id >>> frames_varint_encode p
     end)
    >>> frames_varint_encode seq
  (* frames.c 4606-4619, picoquic_format_path_challenge_frame *)
  | WPathChallenge v => frames_uint8_encode ft_path_challenge >>> frames_uint64_encode v
  (* frames.c 4709-4722, picoquic_format_path_response_frame *)
  | WPathResponse v => frames_uint8_encode ft_path_response >>> frames_uint64_encode v
  (* frames.c 4118-4133, picoquic_format_connection_close_frame, with
     picoquic_frames_charz_encode, util.c 1016-1026: [reason] is the C string *)
  | WConnectionClose err ftype reason =>
    frames_uint8_encode ft_connection_close >>> frames_varint_encode err
    >>> frames_varint_encode ftype >>> frames_length_data_encode reason
  (* frames.c 4163-4180, picoquic_format_application_close_frame *)
  | WApplicationClose err =>
    frames_uint8_encode ft_application_close >>> frames_varint_encode err
    >>> frames_uint8_encode 0
  (* frames.c 4905-4911, picoquic_queue_handshake_done_frame *)
  | WHandshakeDone => frames_uint8_encode ft_handshake_done
  (* frames.c 5003-5022, picoquic_format_datagram_frame *)
  | WDatagram data =>
    frames_uint8_encode ft_datagram_l >>> frames_varint_encode (blen data) >>> put_bytes data
  (* frames.c 5279-5319, picoquic_format_ack_frequency_frame, 5300-5304 *)
  | WAckFrequency seq gap delay reordering =>
    frames_varint_encode ft_ack_frequency >>> frames_varint_encode seq
    >>> frames_varint_encode gap >>> frames_varint_encode delay
    >>> frames_varint_encode reordering
  (* frames.c 5348-5356, picoquic_format_immediate_ack_frame *)
  | WImmediateAck => frames_varint_encode ft_immediate_ack
  (* frames.c 5400-5412, picoquic_format_time_stamp_frame *)
  | WTimeStamp v => frames_varint_encode ft_time_stamp >>> frames_varint_encode v
  (* frames.c 5510-5523, picoquic_format_path_abandon_frame *)
  | WPathAbandon p reason =>
    frames_varint_encode ft_path_abandon >>> frames_varint_encode p
    >>> frames_varint_encode reason
  (* frames.c 5545-5558, picoquic_format_path_available_or_backup_frame *)
  | WPathStatus available p seq =>
    frames_varint_encode (if available then ft_path_available else ft_path_backup)
    >>> frames_varint_encode p >>> frames_varint_encode seq
  (* frames.c 5680-5690, picoquic_format_max_path_id_frame *)
  | WMaxPathId p => frames_varint_encode ft_max_path_id >>> frames_varint_encode p
  (* frames.c 5795-5806, picoquic_format_paths_blocked_frame *)
  | WPathsBlocked p => frames_varint_encode ft_paths_blocked >>> frames_varint_encode p
  (* frames.c 5905-5917, picoquic_format_path_cid_blocked_frame *)
  | WPathCidBlocked p seq =>
    frames_varint_encode ft_path_cid_blocked >>> frames_varint_encode p
    >>> frames_varint_encode seq
  (* frames.c 6325-6369, picoquic_format_bdp_frame, 6355-6359 *)
  | WBdp lifetime bif rtt ip =>
    frames_varint_encode ft_bdp >>> frames_varint_encode lifetime
    >>> frames_varint_encode bif >>> frames_varint_encode rtt
    >>> frames_length_data_encode ip
  (* frames.c 6064-6084, picoquic_format_observed_address_frame; the test at 6073 is
     strict, which the following port makes equivalent to the plain one *)
  | WObservedAddress v6 seq addr port =>
    frames_varint_encode (if v6 then ft_observed_address_v6 else ft_observed_address_v4)
    >>> frames_varint_encode seq
    >>> (fun room => if blen addr <? room then Some addr else None)
    >>> frames_uint16_encode port
  end.

(** ** Reading *)

(** What the receiver extracts from a frame before acting on it. *)
Inductive rframe :=
| RPadding
| RPing
| RAck (is_ecn : bool) (path_id : option N) (largest delay : N) (ranges : list (N * N))
| RReset (stream_id error final_size : N)
| RStopSending (stream_id error : N)
| RCrypto (offset : N) (data : list N)
| RNewToken (token : list N)
| RStream (stream_id offset : N) (fin : bool) (data : list N)
| RMaxData (maxdata : N)
| RMaxStreamData (stream_id maxdata : N)
| RMaxStreams (unidir : bool) (rank : N)
| RDataBlocked
| RStreamDataBlocked
| RStreamsBlocked (unidir : bool) (rank : N)
| RNewCid (path_id : option N) (sequence retire_before : N) (cid secret : list N)
| RRetireCid (path_id : option N) (sequence : N)
| RPathChallenge (challenge : N)
| RPathResponse (response : N)
| RConnectionClose (error : N)
| RApplicationClose (error : N)
| RHandshakeDone
| RDatagram (data : list N)
| RAckFrequency (seq gap delay reordering : N)
| RImmediateAck
| RTimeStamp (stamp : N)
| RPathAbandon (path_id reason : N)
| RPathStatus (available : bool) (path_id sequence : N)
| RMaxPathId (path_id : N)
| RPathsBlocked (path_id : N)
| RPathCidBlocked (path_id sequence : N)
| RBdp (lifetime bytes_in_flight min_rtt : N) (ip : list N)
| RObservedAddress (v6 : bool) (sequence : N) (addr : list N) (port : N).

(** picoquic/intformat.c 136-162 as used by the header parsers: a zero length
    is a failure. *)
Definition varint_read : reader N := fun l =>
  match varint_decode l with
  | Ok (n, v) => if n =? 0 then None else Some (v, skipn (N.to_nat n) l)
  | _ => None
  end.

(** A skip seen as a reader. *)
Definition rskip (s : skipper) : reader unit := fun l =>
  match s l with Some l' => Some (tt, l') | None => None end.

(** The pair of calls picoquic_frames_varint_decode, picoquic_frames_fixed_skip
    that delimits a field (frames.c 849-853, 2274-2280). *)
Definition length_data : reader (list N) :=
  n <-- frames_varint_decode ;; take_bytes n.

(** picoquic/frames.c 993-1049, picoquic_parse_stream_header, followed by the
    extraction of the data at 1330-1338; [b0] is the first byte. *)
Definition parse_stream (b0 : N) : reader (N * N * bool * list N) := fun l =>
  match varint_read l with
  | None => None
  | Some (sid, l1) =>
    match (if N.land b0 4 =? 0 then Some (0, l1) else varint_read l1) with
    | None => None
    | Some (offset, l2) =>
      if N.land b0 2 =? 0 then Some ((sid, offset, negb (N.land b0 1 =? 0), l2), [])
      else
        match varint_read l2 with
        | None => None
        | Some (length, l3) =>
          match take_bytes length l3 with
          | None => None
          | Some (data, rest) => Some ((sid, offset, negb (N.land b0 1 =? 0), data), rest)
          end
        end
    end
  end.

(** picoquic/frames.c 430-451, picoquic_parse_new_connection_id_frame, from the
    type. *)
Definition parse_new_connection_id (is_mp : bool) : reader (N * N * N * list N * list N) :=
  _ <-- rskip frames_varint_skip ;;
  path <-- (if is_mp then frames_varint_decode else rret 0) ;;
  seq <-- frames_varint_decode ;;
  retire <-- frames_varint_decode ;;
  len <-- frames_uint8_decode ;;
  both <-- take_bytes (len + 16) ;;
  rret (path, seq, retire, firstn (N.to_nat len) both, skipn (N.to_nat len) both).

(** picoquic/frames.c 675-690, picoquic_parse_retire_connection_id_frame, with the
    skip of the type at 704. *)
Definition parse_retire_connection_id (is_mp : bool) : reader (N * N) :=
  _ <-- rskip frames_varint_skip ;;
  path <-- (if is_mp then frames_varint_decode else rret 0) ;;
  seq <-- frames_varint_decode ;;
  rret (path, seq).

(** picoquic/frames.c 6250-6268, picoquic_parse_bdp_frame, after the type. *)
Definition parse_bdp : reader (N * N * N * list N) :=
  lifetime <-- frames_varint_decode ;;
  bif <-- frames_varint_decode ;;
  rtt <-- frames_varint_decode ;;
  len <-- frames_varint_decode ;;
  if (len =? 4) || (len =? 16) then
    ip <-- take_bytes len ;; rret (lifetime, bif, rtt, ip)
  else rfail.

(** picoquic/frames.c 6159-6174, picoquic_parse_observed_address_frame, after the
    type. *)
Definition parse_observed_address (ftype : N) : reader (N * list N * N) :=
  seq <-- frames_varint_decode ;;
  addr <-- take_bytes (if N.land ftype 1 =? 0 then 4 else 16) ;;
  port <-- frames_uint16_decode ;;
  rret (seq, addr, port).

(** ** The dispatcher *)

(** The parts of the connection that the dispatcher itself consults
    (picoquic_internal.h, picoquic_cnx_t): client_mode, is_multipath_enabled,
    is_ack_frequency_negotiated, is_time_stamp_enabled,
    is_address_discovery_receiver, local_parameters.enable_bdp_frame,
    local_parameters.max_datagram_frame_size, local_parameters.min_ack_delay,
    remote_parameters.ack_delay_exponent. *)
Record options := mk_opt {
  o_client : bool; o_multipath : bool; o_ack_frequency : bool; o_time_stamp : bool;
  o_address_discovery : bool; o_bdp : bool; o_max_datagram : N; o_min_ack_delay : N;
  o_exponent : N }.

(** Epochs, picoquic/picoquic_internal.h 254-260. *)
Definition epoch_initial : N := 0.
Definition epoch_0rtt : N := 1.
Definition epoch_handshake : N := 2.
Definition epoch_1rtt : N := 3.

(** Transport errors, picoquic/picoquic.h 122 and 125. *)
Definition err_frame_format : N := 7.
Definition err_protocol_violation : N := 10.

(** What happens to a frame once it is read and allowed is left abstract: a
    state, the processing of a frame (the boolean is false when the decoder
    returns NULL, having raised any error itself), picoquic_connection_error
    with the error code and the offending type, and
    picoquic_find_path_by_unique_id (frames.c 3691). *)
Record handlers (S : Type) := mk_h {
  h_frame : S -> rframe -> S * bool;
  h_error : S -> N -> N -> S;
  h_path : S -> N -> bool }.
Arguments h_frame {S} _ _ _.
Arguments h_error {S} _ _ _ _.
Arguments h_path {S} _ _ _.
Arguments mk_h {S} _ _ _.

(** Result of one turn of the loop: [bytes] is NULL, or the rest. *)
Inductive turn (S : Type) :=
| Halt (s : S)
| Continue (s : S) (rest : list N).
Arguments Halt {S} s.
Arguments Continue {S} s rest.

Section dispatch.
Context {S : Type} (h : handlers S) (o : options) (epoch : N).

(** Raise an error and set [bytes] to NULL. *)
Definition halt_error (s : S) (code ftype : N) : turn S := Halt (h_error h s code ftype).

(** Process a frame that was read: the decoders return NULL on error. *)
Definition deliver (s : S) (f : rframe) (rest : list N) : turn S :=
  let '(s', ok) := h_frame h s f in
  if ok then Continue s' rest else Halt s'.

(** The common shape of the decoders: read, FRAME_FORMAT_ERROR if short,
    process. *)
Definition decode_with {A} (r : reader A) (k : A -> rframe) (ftype : N) (s : S) (l : list N)
    : turn S :=
  match r l with
  | None => halt_error s err_frame_format ftype
  | Some (a, rest) => deliver s (k a) rest
  end.

(** The shape of the multipath decoders (frames.c 5441-5460, 5610-5627,
    5719-5735, 5836-5850): without negotiation an error is raised but [bytes] is
    left after the type, and the loop goes on from there. *)
Definition decode_negotiated {A} (negotiated : bool) (r : reader A) (k : A -> rframe)
    (ftype : N) (s : S) (l : list N) : turn S :=
  if negotiated then decode_with r k ftype s l
  else Continue (h_error h s err_protocol_violation ftype) l.

(** picoquic/frames.c 3661-3812, picoquic_decode_ack_frame: the reading part.
    The ranges read before an error are processed before it is raised. *)
Definition decode_ack (is_ecn has_path : bool) (s : S) (l : list N) : turn S :=
  let ftype := if has_path then (if is_ecn then ft_path_ack_ecn else ft_path_ack)
               else (if is_ecn then ft_ack_ecn else ft_ack) in
  match parse_ack_header has_path (o_exponent o) l with
  | None => halt_error s err_frame_format ftype
  | Some ((path_id, largest, delay, num_block), l1) =>
    if has_path && negb (o_multipath o) then halt_error s err_protocol_violation ftype
    else if (epoch =? epoch_1rtt) && o_multipath o && negb (h_path h s path_id) then
      match skip_ack_frame_maybe_ecn is_ecn has_path l with
      | Ok rest => Continue s rest
      | _ => Halt s
      end
    else
      let f := RAck is_ecn (if has_path then Some path_id else None) largest delay in
      match read_ranges (Datatypes.S (length l1)) largest num_block l1 with
      | RangesOk rs l2 =>
        let '(s', ok) := h_frame h s (f rs) in
        if ok then
          match read_ecn is_ecn l2 with
          | Some rest => Continue s' rest
          | None => halt_error s' err_frame_format ftype
          end
        else Halt s'
      | RangesErr rs => halt_error (fst (h_frame h s (f rs))) err_frame_format ftype
      | RangesFuel => Halt s
      end
  end.

(** picoquic/frames.c 1310-1342, picoquic_decode_stream_frame: a malformed header
    sets [bytes] to NULL without raising an error; an end offset of 2^62 or
    more raises FINAL_OFFSET_ERROR (6) with type 0. *)
Definition decode_stream (b0 : N) (s : S) (l : list N) : turn S :=
  match parse_stream b0 l with
  | None => Halt s
  | Some ((sid, offset, fin, data), rest) =>
    if two62 <=? offset + blen data then halt_error s 6 0
    else deliver s (RStream sid offset fin data) rest
  end.

(** picoquic/frames.c 453-518, picoquic_decode_new_connection_id_frame, the tests
    on the frame itself (the tests at 493-507 depend on the connection). *)
Definition decode_new_connection_id (is_mp : bool) (s : S) (l : list N) : turn S :=
  if is_mp && negb (o_multipath o) then
    halt_error (h_error h s err_protocol_violation ft_path_new_connection_id)
      err_frame_format ft_new_connection_id
  else
    match parse_new_connection_id is_mp l with
    | None => halt_error s err_frame_format ft_new_connection_id
    | Some ((path, seq, retire, cid, secret), rest) =>
      if seq <? retire then halt_error s err_frame_format ft_new_connection_id
      else if 20 <? blen cid then halt_error s err_protocol_violation ft_new_connection_id
      else deliver s (RNewCid (if is_mp then Some path else None) seq retire cid secret) rest
    end.

(** picoquic/frames.c 691-727, picoquic_decode_retire_connection_id_frame. *)
Definition decode_retire_connection_id (is_mp : bool) (s : S) (l : list N) : turn S :=
  let ftype := if is_mp then ft_path_retire_connection_id else ft_retire_connection_id in
  if is_mp && negb (o_multipath o) then halt_error s err_protocol_violation ftype
  else decode_with (parse_retire_connection_id is_mp)
         (fun a => RRetireCid (if is_mp then Some (fst a) else None) (snd a)) ftype s l.

(** picoquic/frames.c 839-870, picoquic_decode_new_token_frame. *)
Definition decode_new_token (s : S) (l : list N) : turn S :=
  match length_data l with
  | None => halt_error s err_frame_format ft_new_token
  | Some (token, rest) =>
    if o_client o then deliver s (RNewToken token) rest
    else halt_error s err_protocol_violation ft_new_token
  end.

(** picoquic/frames.c 4622-4632, picoquic_decode_path_challenge_frame. *)
Definition decode_path_challenge (s : S) (l : list N) : turn S :=
  decode_with frames_uint64_decode RPathChallenge ft_path_challenge s l.

(** picoquic/frames.c 4881-4903, picoquic_decode_handshake_done_frame. *)
Definition decode_handshake_done (s : S) (l : list N) : turn S :=
  if o_client o then deliver s RHandshakeDone l
  else halt_error s err_protocol_violation ft_handshake_done.

(** picoquic/frames.c 4962-5001, picoquic_decode_datagram_frame. *)
Definition decode_datagram (b0 : N) (s : S) (l : list N) : turn S :=
  if N.land b0 1 =? 0 then
    if o_max_datagram o <? blen l then halt_error s err_frame_format b0
    else deliver s (RDatagram l) []
  else
    match frames_varint_decode l with
    | None => halt_error s err_frame_format b0
    | Some (length, l1) =>
      if (blen l1 <? length) || (o_max_datagram o <? length) then halt_error s err_frame_format b0
      else deliver s (RDatagram (firstn (N.to_nat length) l1)) (skipn (N.to_nat length) l1)
    end.

(** picoquic/frames.c 5231-5275, picoquic_decode_ack_frequency_frame; a short frame
    raises no error. *)
Definition decode_ack_frequency (s : S) (l : list N) : turn S :=
  match (a <-- frames_varint_decode ;; b <-- frames_varint_decode ;;
         c <-- frames_varint_decode ;; d <-- frames_varint_decode ;; rret (a, b, c, d)) l with
  | None => Halt s
  | Some ((seq, packets, microsec, reordering), rest) =>
    if negb (o_ack_frequency o) || (microsec <? o_min_ack_delay o) || (packets =? 0) then
      halt_error s err_frame_format ft_ack_frequency
    else deliver s (RAckFrequency seq packets microsec reordering) rest
  end.

(** picoquic/frames.c 5328-5346, picoquic_decode_immediate_ack_frame: as the last
    frame of a packet it is ignored. *)
Definition decode_immediate_ack (s : S) (l : list N) : turn S :=
  match l with
  | [] => Continue s []
  | _ :: _ =>
    if o_ack_frequency o then deliver s RImmediateAck l
    else halt_error s err_protocol_violation ft_immediate_ack
  end.

(** picoquic/frames.c 5376-5398, picoquic_decode_time_stamp_frame. *)
Definition decode_time_stamp (s : S) (l : list N) : turn S :=
  match frames_varint_decode l with
  | None => Halt s
  | Some (v, rest) =>
    if o_time_stamp o then deliver s (RTimeStamp v) rest
    else halt_error s err_protocol_violation ft_time_stamp
  end.

(** Two varints. *)
Definition two_varints : reader (N * N) :=
  a <-- frames_varint_decode ;; b <-- frames_varint_decode ;; rret (a, b).

(** picoquic/frames.c 6607-6628 and 6270-6321: the BDP frame. *)
Definition decode_bdp (first_byte : N) (s : S) (l : list N) : turn S :=
  if o_client o && negb (epoch =? epoch_1rtt) then
    halt_error s err_protocol_violation first_byte
  else if negb (o_client o) && negb (epoch =? epoch_0rtt) && negb (epoch =? epoch_1rtt) then
    halt_error s err_protocol_violation first_byte
  else if o_client o && negb (o_bdp o) then halt_error s err_protocol_violation 0
  else decode_with parse_bdp
         (fun a => let '(lifetime, bif, rtt, ip) := a in RBdp lifetime bif rtt ip) ft_bdp s l.

(** picoquic/frames.c 6539-6650: the types that need a varint; [l0] starts at the
    type and [l] after it. *)
Definition decode_extension (first_byte frame_id64 : N) (s : S) (l0 l : list N) : turn S :=
  if (epoch =? epoch_0rtt) && negb (frame_id64 =? ft_bdp) then
    halt_error s err_protocol_violation first_byte
  else if frame_id64 =? ft_ack_frequency then decode_ack_frequency s l
  else if frame_id64 =? ft_immediate_ack then decode_immediate_ack s l
  else if frame_id64 =? ft_time_stamp then decode_time_stamp s l
  else if frame_id64 =? ft_path_ack then decode_ack false true s l0
  else if frame_id64 =? ft_path_ack_ecn then decode_ack true true s l0
  else if frame_id64 =? ft_path_abandon then
    decode_negotiated (o_multipath o) two_varints (fun a => RPathAbandon (fst a) (snd a))
      frame_id64 s l
  else if (frame_id64 =? ft_path_backup) || (frame_id64 =? ft_path_available) then
    decode_negotiated (o_multipath o) two_varints
      (fun a => RPathStatus (frame_id64 =? ft_path_available) (fst a) (snd a)) frame_id64 s l
  else if frame_id64 =? ft_max_path_id then
    decode_negotiated (o_multipath o) frames_varint_decode RMaxPathId frame_id64 s l
  else if frame_id64 =? ft_paths_blocked then
    decode_negotiated (o_multipath o) frames_varint_decode RPathsBlocked frame_id64 s l
  else if frame_id64 =? ft_path_cid_blocked then
    decode_negotiated (o_multipath o) two_varints (fun a => RPathCidBlocked (fst a) (snd a))
      frame_id64 s l
  else if frame_id64 =? ft_path_new_connection_id then decode_new_connection_id true s l0
  else if frame_id64 =? ft_path_retire_connection_id then decode_retire_connection_id true s l0
  else if frame_id64 =? ft_bdp then decode_bdp first_byte s l
  else if (frame_id64 =? ft_observed_address_v4) || (frame_id64 =? ft_observed_address_v6) then
    decode_negotiated (o_address_discovery o) (parse_observed_address frame_id64)
      (fun a => let '(seq, addr, port) := a in
                RObservedAddress (frame_id64 =? ft_observed_address_v6) seq addr port)
      frame_id64 s l
  else halt_error s err_protocol_violation frame_id64.

(** picoquic/frames.c 6454-6535: the switch on the first byte; [l0] starts at the
    first byte [b] and [l] after it. *)
Definition decode_by_type (b : N) (s : S) (l0 l : list N) : turn S :=
  if b =? ft_padding then deliver s RPadding (skip_run b l)
  else if b =? ft_reset_stream then
    decode_with (a <-- frames_varint_decode ;; b <-- frames_varint_decode ;;
                 c <-- frames_varint_decode ;; rret (a, b, c))
      (fun a => let '(x, y, z) := a in RReset x y z) ft_reset_stream s l
  else if b =? ft_connection_close then
    decode_with (e <-- frames_varint_decode ;; _ <-- rskip frames_varint_skip ;;
                 _ <-- rskip frames_length_data_skip ;; rret e)
      RConnectionClose ft_connection_close s l
  else if b =? ft_application_close then
    decode_with (e <-- frames_varint_decode ;; _ <-- rskip frames_length_data_skip ;; rret e)
      RApplicationClose ft_application_close s l
  else if b =? ft_max_data then
    decode_with frames_varint_decode RMaxData ft_max_data s l
  else if b =? ft_max_stream_data then
    decode_with two_varints (fun a => RMaxStreamData (fst a) (snd a)) ft_max_stream_data s l
  else if (b =? ft_max_streams_bidir) || (b =? ft_max_streams_unidir) then
    decode_with frames_varint_decode (RMaxStreams (b =? ft_max_streams_unidir)) b s l
  else if b =? ft_ping then deliver s RPing (skip_run b l)
  else if b =? ft_data_blocked then
    decode_with (rskip frames_varint_skip) (fun _ => RDataBlocked) ft_data_blocked s l
  else if b =? ft_stream_data_blocked then
    decode_with (rskip (skip_varints 2)) (fun _ => RStreamDataBlocked)
      ft_stream_data_blocked s l
  else if (b =? ft_streams_blocked_bidir) || (b =? ft_streams_blocked_unidir) then
    decode_with frames_varint_decode (RStreamsBlocked (b =? ft_streams_blocked_unidir)) b s l
  else if b =? ft_new_connection_id then decode_new_connection_id false s l0
  else if b =? ft_stop_sending then
    decode_with two_varints (fun a => RStopSending (fst a) (snd a)) ft_stop_sending s l
  else if b =? ft_path_challenge then decode_path_challenge s l
  else if b =? ft_path_response then
    decode_with frames_uint64_decode RPathResponse ft_path_response s l
  else if b =? ft_crypto_hs then
    decode_with (off <-- frames_varint_decode ;; data <-- length_data ;; rret (off, data))
      (fun a => RCrypto (fst a) (snd a)) ft_crypto_hs s l
  else if b =? ft_new_token then decode_new_token s l
  else if b =? ft_retire_connection_id then decode_retire_connection_id false s l0
  else if b =? ft_handshake_done then decode_handshake_done s l
  else if (b =? ft_datagram) || (b =? ft_datagram_l) then decode_datagram b s l
  else
    match frames_varint_decode l0 with
    | None => Halt s
    | Some (frame_id64, l1) => decode_extension b frame_id64 s l0 l1
    end.

(** picoquic/frames.c 6394-6652: one turn of the loop of picoquic_decode_frames, on
    a non-empty rest. *)
Definition decode_one (s : S) (b : N) (l : list N) : turn S :=
  let l0 := b :: l in
  if is_stream_type b then
    if negb (epoch =? epoch_0rtt) && negb (epoch =? epoch_1rtt) then
      halt_error s err_protocol_violation b
    else decode_stream b s l
  else if b =? ft_ack then
    if epoch =? epoch_0rtt then halt_error s err_protocol_violation b
    else decode_ack false false s l0
  else if b =? ft_ack_ecn then
    if epoch =? epoch_0rtt then halt_error s err_protocol_violation b
    else decode_ack true false s l0
  else if negb (epoch =? epoch_0rtt) && negb (epoch =? epoch_1rtt) && negb (b =? ft_padding)
       && negb (b =? ft_ping) && negb (b =? ft_connection_close) && negb (b =? ft_crypto_hs) then
    halt_error s err_protocol_violation b
  else if (epoch =? epoch_0rtt)
       && ((b =? ft_crypto_hs) || (b =? ft_handshake_done) || (b =? ft_new_token)
           || (b =? ft_path_response) || (b =? ft_retire_connection_id)) then
    halt_error s err_protocol_violation b
  else decode_by_type b s l0 l.

(** Result of the loop: [Some true] is the return value 0, [Some false] is
    PICOQUIC_ERROR_DETECTED and [None] is fuel exhaustion (never reached, see
    Frames_proofs.v). *)
Fixpoint decode_frames_loop (fuel : nat) (s : S) (l : list N) : S * option bool :=
  match l with
  | [] => (s, Some true)
  | b :: l' =>
    match fuel with
    | O => (s, None)
    | Datatypes.S f =>
      match decode_one s b l' with
      | Halt s' => (s', Some false)
      | Continue s' rest => decode_frames_loop f s' rest
      end
    end
  end.

(** picoquic/frames.c 6377-6662, picoquic_decode_frames, without the bookkeeping at
    6393, 6651 and 6654-6664 (path probing, acknowledgement timing). *)
Definition decode_frames (s : S) (l : list N) : S * option bool :=
  decode_frames_loop (length l) s l.

End dispatch.
