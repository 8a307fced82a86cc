(** Model of what happens to the frames of a packet once it is lost or
    acknowledged: picoquic/frames.c 3156-3591, picoquic/loss_recovery.c 677-783 and
    picoquic/sender.c 1264-1331 (definitions only).

    Simplifications.  Connection fields that no frame consults are left out.  The
    lists of local connection ids (one list per path) and of stashed remote ids are
    flattened: an entry carries the path id of its list.  retire_acked is left out:
    it is set only at frames.c 779, just before the entry is removed.  The trees of
    streams and the array of paths are lists.  Memory allocations succeed and the
    application callback for datagrams returns 0.  do_not_detect_spurious is left
    out.  Entries of the flattened lists are distinct, so that the first match is the
    only one.  In [process_ack] the effect of acknowledged ACK frames on the receive
    side is left out (it is [process_ack_of_ack_range] of Sack_model.v), these
    frames are skipped; the statistics of the path are left out, as well as the
    limits computed by picoquic_update_max_stream_ID_local. *)
From Verif Require Import Base Varint_model Sack_model Ack_model Frames_model Header_model Send_model Stream_model.

(** picoquic_stream_head_t, picoquic/picoquic_internal.h 803-849: stream_id,
    fin_requested, fin_sent, reset_requested, reset_sent, reset_acked, fin_received,
    fin_signalled, reset_received, reset_signalled, stop_sending_sent, maxdata_local,
    maxdata_local_acked, maxdata_remote, stream_data_blocked_sent, sent_offset,
    is_closed, sack_list. *)
Record nstrm := mk_ns {
  n_id : N; n_fin_req : bool; n_fin_sent : bool; n_rst_req : bool; n_rst_sent : bool; n_rst_acked : bool;
  n_fin_rcvd : bool; n_fin_sig : bool; n_rst_rcvd : bool; n_rst_sig : bool; n_stop_sent : bool;
  n_md_l : N; n_md_l_acked : N; n_md_r : N; n_blocked_sent : bool; n_sent : N; n_closed : bool;
  n_sack : sack_list }.

(** picoquic_path_t and its first tuple, picoquic/picoquic_internal.h 1024-1190:
    unique_path_id, status_sequence_sent_last, path_is_demoted,
    sending_path_cid_blocked_frame, observed_addr_acked, and of the first tuple
    challenge_response, challenge_verified, challenge_failed. *)
Record npath := mk_np {
  np_id : N; np_status : N; np_demoted : bool; np_blocked : bool; np_observed : bool;
  np_response : N; np_verified : bool; np_failed : bool }.

(** picoquic_cnx_t, picoquic/picoquic_internal.h 1400-1620: client_mode, streams,
    maxdata_local, maxdata_local_acked, maxdata_remote, sent_blocked_frame,
    max_stream_id_{bidir,unidir}_local, max_stream_id_{bidir,unidir}_rank_acked,
    max_stream_id_{bidir,unidir}_remote, stream_blocked_{bidir,unidir}_sent,
    is_handshake_done_acked, is_new_token_acked, the sack lists of tls_stream by
    epoch, the local connection ids (path, sequence, is_acked), the stashed remote
    ids (path, sequence), ack_frequency_sequence_local, the paths,
    max_path_id_local, max_path_id_acknowledged, max_path_id_remote,
    paths_blocked_acknowledged. *)
Record nconn := mk_nc {
  nc_client : bool; nc_streams : list nstrm; nc_md_l : N; nc_md_l_acked : N; nc_md_r : N; nc_blocked : bool;
  nc_max_l : bool -> N; nc_rank_acked : bool -> N; nc_max_r : bool -> N; nc_sblocked : bool -> bool;
  nc_done_acked : bool; nc_token_acked : bool; nc_tls : N -> sack_list;
  nc_local : list (N * N * bool); nc_remote : list (N * N); nc_freq : N; nc_paths : list npath;
  nc_mp_l : N; nc_mp_acked : N; nc_mp_r : N; nc_pb_acked : N }.

(** picoquic/quicctx.c 3425-3431, picoquic_find_stream. *)
Definition n_find (c : nconn) (sid : N) : option nstrm := find (fun s => n_id s =? sid) (nc_streams c).

(** picoquic/quicctx.c 2041-2053, picoquic_find_path_by_unique_id: the first path with this id. *)
Definition np_find (c : nconn) (p : N) : option npath := find (fun x => np_id x =? p) (nc_paths c).

(** picoquic/quicctx.c 3578-3607, search of a local connection id list, then of the
    sequence in it (frames.c 580-596). *)
Definition lc_find (c : nconn) (p seq : N) : option (N * N * bool) :=
  find (fun e => (fst (fst e) =? p) && (snd (fst e) =? seq)) (nc_local c).

(** picoquic/frames.c 743-752: search of the stash, then of the sequence in it. *)
Definition rc_find (c : nconn) (p seq : N) : option (N * N) :=
  find (fun e => (fst e =? p) && (snd e =? seq)) (nc_remote c).

(** picoquic/frames.c 5919-5935, picoquic_path_cid_next_sequence_number. *)
Definition next_cid_sequence (c : nconn) (p : N) : N :=
  fold_left (fun m e => if (fst e =? p) && (m <=? snd e) then snd e + 1 else m) (nc_remote c) 0.

(** picoquic/frames.c 2320-2341, picoquic_crypto_stream_from_ptype: the epoch whose
    stream carries the CRYPTO frames of a packet. *)
Definition crypto_epoch (pt : ptype) : option N :=
  match pt with
  | PtInitial => Some 0
  | Pt0rtt => Some 1
  | PtHandshake => Some 2
  | Pt1rtt => Some 3
  | _ => None
  end.

(** ** Is a frame of a lost packet still needed?

    The results below are (ret == 0, no_need_to_repeat). *)

(** [offset + length - 1] or, with FIN, [offset + length], on uint64_t: frames.c 2362,
    2392, 3187, 3437. *)
Definition last_pos (off len : N) (fin : bool) : N := sub64 (off + len) (if fin then 0 else 1).

(** picoquic/frames.c 3172-3195. *)
Definition stream_needs (c : nconn) (b0 : N) (l : list N) : bool * bool :=
  match parse_stream b0 l with
  | None => (false, false)
  | Some ((sid, off, fin, d), _) =>
    match n_find c sid with
    | None => (true, true)
    | Some s =>
      (true, if n_rst_sent s then true else check_sack_list (n_sack s) off (last_pos off (blen d) fin))
    end
  end.

(** picoquic/frames.c 4513-4541, picoquic_check_max_streams_frame_needs_repeat, after the
    type. *)
Definition max_streams_needs (c : nconn) (unidir : bool) (l : list N) : bool :=
  match frames_varint_decode l with
  | None => true
  | Some (rank, _) =>
    (rank <=? nc_rank_acked c unidir) || (id_of_rank rank (nc_client c) unidir <? nc_max_l c unidir)
  end.

(** picoquic/frames.c 3246-3274, the two types of STREAMS_BLOCKED. *)
Definition streams_blocked_needs (c : nconn) (unidir : bool) (l : list N) : bool :=
  match frames_varint_decode l with
  | None => true
  | Some (rank, _) =>
    if id_of_rank rank (nc_client c) unidir <? nc_max_r c unidir then true else negb (nc_sblocked c unidir)
  end.

(** picoquic/frames.c 3207-3226. *)
Definition max_stream_data_needs (c : nconn) (l : list N) : bool :=
  match two_varints l with
  | None => true
  | Some ((sid, v), _) =>
    match n_find c sid with
    | None => true
    | Some s =>
      if n_fin_rcvd s || n_rst_rcvd s || n_stop_sent s then true
      else (v <? n_md_l s) || (v <=? n_md_l_acked s)
    end
  end.

(** picoquic/frames.c 3275-3294. *)
Definition stream_data_blocked_needs (c : nconn) (l : list N) : bool :=
  match two_varints l with
  | None => true
  | Some ((sid, v), _) =>
    match n_find c sid with
    | None => true
    | Some s =>
      if n_fin_req s || n_rst_req s || n_fin_sent s || n_rst_sent s then true
      else (v <? n_md_r s) || negb (n_blocked_sent s)
    end
  end.

(** picoquic/frames.c 4785-4821, picoquic_should_repeat_path_response_frame. *)
Definition should_repeat_path_response (c : nconn) (l : list N) : bool :=
  match frames_uint64_decode l with
  | None => false
  | Some (r, _) =>
    match find (fun p => np_response p =? r) (nc_paths c) with
    | None => false
    | Some p => np_verified p || (nc_client c && negb (np_failed p))
    end
  end.

(** picoquic/frames.c 2370-2397, picoquic_check_crypto_frame_needs_repeat, after the
    type. *)
Definition crypto_needs (c : nconn) (pt : ptype) (l : list N) : bool * bool :=
  match (off <-- frames_varint_decode ;; d <-- length_data ;; rret (off, d)) l with
  | None => (false, true)
  | Some ((off, d), _) =>
    match crypto_epoch pt with
    | None => (true, true)
    | Some e => (true, check_sack_list (nc_tls c e) off (last_pos off (blen d) false))
    end
  end.

(** picoquic/frames.c 564-602, picoquic_check_new_cid_needs_repeat, from the type. *)
Definition new_cid_needs (c : nconn) (is_mp : bool) (l0 : list N) : bool * bool :=
  match parse_new_connection_id is_mp l0 with
  | None => (false, true)
  | Some ((p, seq, _, _, _), _) =>
    (true, match lc_find c p seq with Some (_, _, acked) => acked | None => true end)
  end.

(** picoquic/frames.c 728-760, picoquic_check_retire_connection_id_needs_repeat, from the
    type. *)
Definition retire_cid_needs (c : nconn) (is_mp : bool) (l0 : list N) : bool * bool :=
  match parse_retire_connection_id is_mp l0 with
  | None => (false, true)
  | Some ((p, seq), _) => (true, match rc_find c p seq with Some _ => false | None => true end)
  end.

(** picoquic/frames.c 354-377, picoquic_check_reset_stream_needs_repeat, from the type:
    the id of the stream is read where the type is. *)
Definition reset_needs (c : nconn) (l0 : list N) : bool * bool :=
  match frames_varint_decode l0 with
  | None => (false, false)
  | Some (sid, l1) =>
    match skip_varints 2 l1 with
    | None => (false, false)
    | Some _ => (true, match n_find c sid with None => true | Some s => n_rst_acked s end)
    end
  end.

(** picoquic/frames.c 955-985, picoquic_check_stop_sending_needs_repeat, after the type. *)
Definition stop_needs (c : nconn) (l : list N) : bool :=
  match two_varints l with
  | None => true
  | Some ((sid, _), _) =>
    match n_find c sid with None => true | Some s => n_fin_rcvd s || n_rst_rcvd s end
  end.

(** picoquic/frames.c 5652-5677, picoquic_path_available_or_backup_frame_need_repeat. *)
Definition path_status_needs (c : nconn) (l : list N) : bool :=
  match two_varints l with
  | None => true
  | Some ((p, seq), _) =>
    match np_find c p with
    | None => true
    | Some x => negb (np_status x =? seq) || np_demoted x
    end
  end.

(** picoquic/frames.c 5748-5768, picoquic_max_path_id_frame_needs_repeat. *)
Definition max_path_id_needs (c : nconn) (l : list N) : bool :=
  match frames_varint_decode l with
  | None => true
  | Some (v, _) => (v <=? nc_mp_l c) || (v <=? nc_mp_acked c)
  end.

(** picoquic/frames.c 5858-5878, picoquic_paths_blocked_frame_needs_repeat. *)
Definition paths_blocked_needs (c : nconn) (l : list N) : bool :=
  match frames_varint_decode l with
  | None => true
  | Some (v, _) => (v <=? nc_mp_r c) || (v <=? nc_pb_acked c)
  end.

(** picoquic/frames.c 5997-6033, picoquic_path_cid_blocked_frame_needs_repeat. *)
Definition path_cid_blocked_needs (c : nconn) (l : list N) : bool :=
  match two_varints l with
  | None => true
  | Some ((p, seq), _) =>
    match np_find c p with
    | None => true
    | Some x => if np_blocked x then seq <? next_cid_sequence c p else true
    end
  end.

(** picoquic/frames.c 5218-5229, picoquic_parse_ack_frequency_frame, as far as the
    sequence number, called at 3356. *)
Definition ack_frequency_needs (c : nconn) (l : list N) : bool * bool :=
  match frames_varint_decode l with
  | None => (false, false)
  | Some (seq, l1) =>
    match skip_varints 3 l1 with
    | None => (false, false)
    | Some _ => (true, seq =? nc_freq c)
    end
  end.

(** picoquic/frames.c 3341-3411: the types that need a varint. *)
Definition extension_needs (c : nconn) (l0 : list N) : bool * bool :=
  match frames_varint_decode l0 with
  | None => (true, false)
  | Some (t, l) =>
    if t =? ft_ack_frequency then ack_frequency_needs c l
    else if t =? ft_immediate_ack then (true, false)
    else if (t =? ft_path_ack) || (t =? ft_path_ack_ecn) || (t =? ft_time_stamp) then (true, true)
    else if t =? ft_path_abandon then (true, false)
    else if (t =? ft_path_backup) || (t =? ft_path_available) then (true, path_status_needs c l)
    else if t =? ft_max_path_id then (true, max_path_id_needs c l)
    else if t =? ft_paths_blocked then (true, paths_blocked_needs c l)
    else if t =? ft_path_cid_blocked then (true, path_cid_blocked_needs c l)
    else if t =? ft_path_new_connection_id then new_cid_needs c true l0
    else if t =? ft_path_retire_connection_id then retire_cid_needs c true l0
    else (true, false)
  end.

(** picoquic/frames.c 3156-3415, picoquic_check_frame_needs_repeat, on the bytes of one
    frame; [None] is the read of [bytes[0]] in an empty buffer. *)
Definition check_needs (c : nconn) (pt : ptype) (l0 : list N) : option (bool * bool) :=
  match l0 with
  | [] => None
  | b :: l =>
    Some (
      if is_stream_type b then stream_needs c b l
      else if b =? ft_max_data then
        (true, match frames_varint_decode l with
               | None => true
               | Some (v, _) => (v <? nc_md_l c) || (v <=? nc_md_l_acked c)
               end)
      else if b =? ft_max_stream_data then (true, max_stream_data_needs c l)
      else if b =? ft_max_streams_bidir then (true, max_streams_needs c false l)
      else if b =? ft_max_streams_unidir then (true, max_streams_needs c true l)
      else if b =? ft_data_blocked then
        (true, match frames_varint_decode l with
               | None => true
               | Some (v, _) => if v <? nc_md_r c then true else negb (nc_blocked c)
               end)
      else if b =? ft_streams_blocked_bidir then (true, streams_blocked_needs c false l)
      else if b =? ft_streams_blocked_unidir then (true, streams_blocked_needs c true l)
      else if b =? ft_stream_data_blocked then (true, stream_data_blocked_needs c l)
      else if b =? ft_path_challenge then (true, true)
      else if b =? ft_path_response then (true, should_repeat_path_response c l)
      else if (b =? ft_datagram) || (b =? ft_datagram_l) then (true, true)
      else if b =? ft_handshake_done then (true, nc_done_acked c)
      else if b =? ft_new_token then (true, nc_token_acked c)
      else if b =? ft_crypto_hs then crypto_needs c pt l
      else if b =? ft_new_connection_id then new_cid_needs c false l0
      else if b =? ft_retire_connection_id then retire_cid_needs c false l0
      else if b =? ft_reset_stream then reset_needs c l0
      else if b =? ft_stop_sending then (true, stop_needs c l)
      else extension_needs c l0)
  end.

(** ** Copy of the frames of a lost packet *)

(** What the loop has produced: bytes appended to the new packet, frames given to
    picoquic_queue_misc_frame, add_to_data_repeat_queue. *)
Record copied_frames := mk_cf { cf_bytes : list N; cf_queued : list (list N); cf_stream : bool }.

(** Outcome of the loop: ret = 0, ret <> 0 (with what was done before), undefined
    behaviour; [CFuel] does not happen. *)
Inductive copy_result := COk (r : copied_frames) | CErr (r : copied_frames) | CUndef | CFuel.

(** picoquic/loss_recovery.c 719-779: the loop over the frames.  [room] is
    send_buffer_max_minus_checksum minus the length of the header; the copy function
    is called with a header that fits. *)
Fixpoint copy_lost (fuel : nat) (c : nconn) (pt : ptype) (force_queue : bool) (room : N) (l : list N)
    (acc : copied_frames) : copy_result :=
  match l with
  | [] => COk acc
  | b :: _ =>
    match fuel with
    | O => CFuel
    | S f =>
      match skip_frame l with
      | (UB, _) => CUndef
      | (Fail, _) => CErr acc
      | (Ok rest, pure) =>
        let frame := firstn (length l - length rest) l in
        match (if pure then Some (true, true) else check_needs c pt frame) with
        | None => CUndef
        | Some (false, _) => CErr acc
        | Some (true, true) => copy_lost f c pt force_queue room rest acc
        | Some (true, false) =>
          copy_lost f c pt force_queue room rest
            (if is_stream_type b then mk_cf (cf_bytes acc) (cf_queued acc) true
             else if force_queue || (room - blen (cf_bytes acc) <? blen frame) then
               mk_cf (cf_bytes acc) (cf_queued acc ++ [frame]) (cf_stream acc)
             else mk_cf (cf_bytes acc ++ frame) (cf_queued acc) (cf_stream acc))
        end
      end
    end
  end.

(** picoquic/loss_recovery.c 677-783, picoquic_copy_before_retransmit: a packet that was
    a probe, a trap, or that was repeated preemptively is not copied. *)
Definition copy_before_retransmit (c : nconn) (pt : ptype) (special force_queue : bool) (room : N) (payload : list N)
    : copy_result :=
  let none := mk_cf [] [] false in
  if special then COk none else copy_lost (S (length payload)) c pt force_queue room payload none.

(** picoquic/sender.c 1286-1317, the loop of picoquic_preemptive_retransmit_packet: the
    bytes written, is_repeated, has_data, is_preemptive_needed. *)
Record preempted := mk_pre { pr_bytes : list N; pr_repeated : bool; pr_data : bool; pr_needed : bool }.

(** Outcome of the loop, as for [copy_result]. *)
Inductive pre_result := POk (r : preempted) | PErr (r : preempted) | PUndef | PFuel.

(** picoquic/frames.c 3187-3189: is_preemptive_needed is set for a stream whose FIN was
    sent. *)
Definition preemptive_hint (c : nconn) (l0 : list N) : bool :=
  match l0 with
  | [] => false
  | b :: l =>
    if is_stream_type b then
      match parse_stream b l with
      | Some ((sid, _, _, _), _) => match n_find c sid with Some s => n_fin_sent s | None => false end
      | None => false
      end
    else false
  end.

(** picoquic/sender.c 1286-1317.  After an error the position advances by the length of
    the previous frame, and the loop ends. *)
Fixpoint preempt_loop (fuel : nat) (c : nconn) (pt : ptype) (room : N) (l : list N) (acc : preempted) : pre_result :=
  match l with
  | [] => POk acc
  | b :: _ =>
    match fuel with
    | O => PFuel
    | S f =>
      match skip_frame l with
      | (UB, _) => PUndef
      | (Fail, _) => PErr acc
      | (Ok rest, pure) =>
        let frame := firstn (length l - length rest) l in
        match (if pure then Some (true, true) else check_needs c pt frame) with
        | None => PUndef
        | Some (false, _) => PErr acc
        | Some (true, no_need) =>
          let needed := pr_needed acc || (negb pure && preemptive_hint c frame) in
          if no_need then preempt_loop f c pt room rest (mk_pre (pr_bytes acc) (pr_repeated acc) (pr_data acc) needed)
          else
            let padded :=
              if is_stream_type b && (N.land b 2 =? 0) && (blen (pr_bytes acc) + blen frame <? room)
              then pr_bytes acc ++ repeat 0 (N.to_nat (room - blen (pr_bytes acc) - blen frame))
              else pr_bytes acc in
            preempt_loop f c pt room rest
              (if blen padded + blen frame <=? room
               then mk_pre (padded ++ frame) (pr_repeated acc) true needed
               else mk_pre padded false (pr_data acc) needed)
        end
      end
    end
  end.

(** picoquic/sender.c 1264-1331, picoquic_preemptive_retransmit_packet on a packet that is
    not a probe: the bytes written to the new packet, and whether the old packet is
    marked was_preemptively_repeated.  When the packet does not need it, what was
    written is abandoned (the length is restored). *)
Definition preemptive_retransmit (c : nconn) (pt : ptype) (room : N) (payload : list N) : option (list N * bool) :=
  match preempt_loop (S (length payload)) c pt room payload (mk_pre [] true false false) with
  | POk r | PErr r =>
    if pr_data r then
      if pr_needed r then Some (pr_bytes r, pr_repeated r) else Some ([], false)
    else Some ([], false)
  | _ => None
  end.

(** ** Acknowledgement of the frames of a packet *)

(** Writes through a pointer to a stream of the connection. *)
Definition n_put (c : nconn) (s : nstrm) : nconn :=
  mk_nc (nc_client c) (map (fun x => if n_id x =? n_id s then s else x) (nc_streams c)) (nc_md_l c) (nc_md_l_acked c)
    (nc_md_r c) (nc_blocked c) (nc_max_l c) (nc_rank_acked c) (nc_max_r c) (nc_sblocked c) (nc_done_acked c)
    (nc_token_acked c) (nc_tls c) (nc_local c) (nc_remote c) (nc_freq c) (nc_paths c) (nc_mp_l c) (nc_mp_acked c)
    (nc_mp_r c) (nc_pb_acked c).

(** picoquic/quicctx.c 3511-3514, picoquic_delete_stream. *)
Definition n_delete (c : nconn) (sid : N) : nconn :=
  mk_nc (nc_client c) (filter (fun x => negb (n_id x =? sid)) (nc_streams c)) (nc_md_l c) (nc_md_l_acked c)
    (nc_md_r c) (nc_blocked c) (nc_max_l c) (nc_rank_acked c) (nc_max_r c) (nc_sblocked c) (nc_done_acked c)
    (nc_token_acked c) (nc_tls c) (nc_local c) (nc_remote c) (nc_freq c) (nc_paths c) (nc_mp_l c) (nc_mp_acked c)
    (nc_mp_r c) (nc_pb_acked c).

(** Assignments of the acknowledgement fields of the connection, one function for each
    of frames.c 4253, 4497-4505, 3491, 3526, 2363, 548, 780, 5780, 5890. *)
Definition set_md_acked (c : nconn) (v : N) : nconn :=
  mk_nc (nc_client c) (nc_streams c) (nc_md_l c) v
    (nc_md_r c) (nc_blocked c) (nc_max_l c) (nc_rank_acked c) (nc_max_r c) (nc_sblocked c) (nc_done_acked c)
    (nc_token_acked c) (nc_tls c) (nc_local c) (nc_remote c) (nc_freq c) (nc_paths c) (nc_mp_l c) (nc_mp_acked c)
    (nc_mp_r c) (nc_pb_acked c).
Definition set_rank_acked (c : nconn) (u : bool) (v : N) : nconn :=
  mk_nc (nc_client c) (nc_streams c) (nc_md_l c) (nc_md_l_acked c)
    (nc_md_r c) (nc_blocked c) (nc_max_l c) (fun x => if Bool.eqb x u then v else nc_rank_acked c x) (nc_max_r c)
    (nc_sblocked c) (nc_done_acked c)
    (nc_token_acked c) (nc_tls c) (nc_local c) (nc_remote c) (nc_freq c) (nc_paths c) (nc_mp_l c) (nc_mp_acked c)
    (nc_mp_r c) (nc_pb_acked c).
Definition set_done (c : nconn) : nconn :=
  mk_nc (nc_client c) (nc_streams c) (nc_md_l c) (nc_md_l_acked c)
    (nc_md_r c) (nc_blocked c) (nc_max_l c) (nc_rank_acked c) (nc_max_r c) (nc_sblocked c) true
    (nc_token_acked c) (nc_tls c) (nc_local c) (nc_remote c) (nc_freq c) (nc_paths c) (nc_mp_l c) (nc_mp_acked c)
    (nc_mp_r c) (nc_pb_acked c).
Definition set_token (c : nconn) : nconn :=
  mk_nc (nc_client c) (nc_streams c) (nc_md_l c) (nc_md_l_acked c)
    (nc_md_r c) (nc_blocked c) (nc_max_l c) (nc_rank_acked c) (nc_max_r c) (nc_sblocked c) (nc_done_acked c)
    true (nc_tls c) (nc_local c) (nc_remote c) (nc_freq c) (nc_paths c) (nc_mp_l c) (nc_mp_acked c)
    (nc_mp_r c) (nc_pb_acked c).
Definition set_tls (c : nconn) (e : N) (s : sack_list) : nconn :=
  mk_nc (nc_client c) (nc_streams c) (nc_md_l c) (nc_md_l_acked c)
    (nc_md_r c) (nc_blocked c) (nc_max_l c) (nc_rank_acked c) (nc_max_r c) (nc_sblocked c) (nc_done_acked c)
    (nc_token_acked c) (fun x => if x =? e then s else nc_tls c x) (nc_local c) (nc_remote c) (nc_freq c) (nc_paths c)
    (nc_mp_l c) (nc_mp_acked c) (nc_mp_r c) (nc_pb_acked c).
Definition set_local (c : nconn) (l : list (N * N * bool)) : nconn :=
  mk_nc (nc_client c) (nc_streams c) (nc_md_l c) (nc_md_l_acked c)
    (nc_md_r c) (nc_blocked c) (nc_max_l c) (nc_rank_acked c) (nc_max_r c) (nc_sblocked c) (nc_done_acked c)
    (nc_token_acked c) (nc_tls c) l (nc_remote c) (nc_freq c) (nc_paths c) (nc_mp_l c) (nc_mp_acked c)
    (nc_mp_r c) (nc_pb_acked c).
Definition set_remote (c : nconn) (l : list (N * N)) : nconn :=
  mk_nc (nc_client c) (nc_streams c) (nc_md_l c) (nc_md_l_acked c)
    (nc_md_r c) (nc_blocked c) (nc_max_l c) (nc_rank_acked c) (nc_max_r c) (nc_sblocked c) (nc_done_acked c)
    (nc_token_acked c) (nc_tls c) (nc_local c) l (nc_freq c) (nc_paths c) (nc_mp_l c) (nc_mp_acked c)
    (nc_mp_r c) (nc_pb_acked c).
Definition set_paths (c : nconn) (l : list npath) : nconn :=
  mk_nc (nc_client c) (nc_streams c) (nc_md_l c) (nc_md_l_acked c)
    (nc_md_r c) (nc_blocked c) (nc_max_l c) (nc_rank_acked c) (nc_max_r c) (nc_sblocked c) (nc_done_acked c)
    (nc_token_acked c) (nc_tls c) (nc_local c) (nc_remote c) (nc_freq c) l (nc_mp_l c) (nc_mp_acked c)
    (nc_mp_r c) (nc_pb_acked c).
Definition set_mp_acked (c : nconn) (v : N) : nconn :=
  mk_nc (nc_client c) (nc_streams c) (nc_md_l c) (nc_md_l_acked c)
    (nc_md_r c) (nc_blocked c) (nc_max_l c) (nc_rank_acked c) (nc_max_r c) (nc_sblocked c) (nc_done_acked c)
    (nc_token_acked c) (nc_tls c) (nc_local c) (nc_remote c) (nc_freq c) (nc_paths c) (nc_mp_l c) v
    (nc_mp_r c) (nc_pb_acked c).
Definition set_pb_acked (c : nconn) (v : N) : nconn :=
  mk_nc (nc_client c) (nc_streams c) (nc_md_l c) (nc_md_l_acked c)
    (nc_md_r c) (nc_blocked c) (nc_max_l c) (nc_rank_acked c) (nc_max_r c) (nc_sblocked c) (nc_done_acked c)
    (nc_token_acked c) (nc_tls c) (nc_local c) (nc_remote c) (nc_freq c) (nc_paths c) (nc_mp_l c) (nc_mp_acked c)
    (nc_mp_r c) v.

(** Assignments of the fields of a stream: frames.c 347, 4337, 3436, 139. *)
Definition n_set_rst_acked (s : nstrm) : nstrm :=
  mk_ns (n_id s) (n_fin_req s) (n_fin_sent s) (n_rst_req s) (n_rst_sent s) true (n_fin_rcvd s) (n_fin_sig s)
    (n_rst_rcvd s) (n_rst_sig s) (n_stop_sent s) (n_md_l s) (n_md_l_acked s) (n_md_r s) (n_blocked_sent s) (n_sent s)
    (n_closed s) (n_sack s).
Definition n_set_md_acked (s : nstrm) (v : N) : nstrm :=
  mk_ns (n_id s) (n_fin_req s) (n_fin_sent s) (n_rst_req s) (n_rst_sent s) (n_rst_acked s) (n_fin_rcvd s) (n_fin_sig s)
    (n_rst_rcvd s) (n_rst_sig s) (n_stop_sent s) (n_md_l s) v (n_md_r s) (n_blocked_sent s) (n_sent s)
    (n_closed s) (n_sack s).
Definition n_set_sack (s : nstrm) (k : sack_list) : nstrm :=
  mk_ns (n_id s) (n_fin_req s) (n_fin_sent s) (n_rst_req s) (n_rst_sent s) (n_rst_acked s) (n_fin_rcvd s) (n_fin_sig s)
    (n_rst_rcvd s) (n_rst_sig s) (n_stop_sent s) (n_md_l s) (n_md_l_acked s) (n_md_r s) (n_blocked_sent s) (n_sent s)
    (n_closed s) k.
Definition n_set_closed (s : nstrm) (b : bool) : nstrm :=
  mk_ns (n_id s) (n_fin_req s) (n_fin_sent s) (n_rst_req s) (n_rst_sent s) (n_rst_acked s) (n_fin_rcvd s) (n_fin_sig s)
    (n_rst_rcvd s) (n_rst_sig s) (n_stop_sent s) (n_md_l s) (n_md_l_acked s) (n_md_r s) (n_blocked_sent s) (n_sent s)
    b (n_sack s).

(** picoquic/frames.c 97-114, picoquic_is_stream_closed. *)
Definition n_is_closed (client : bool) (s : nstrm) : bool :=
  let tx_done := (n_fin_req s && n_fin_sent s) || (n_rst_req s && n_rst_sent s) in
  let rx_done := (n_fin_rcvd s && n_fin_sig s) || (n_rst_rcvd s && n_rst_sig s) in
  if is_bidir_id (n_id s) then tx_done && rx_done
  else if is_local_id (n_id s) client then tx_done else rx_done.

(** picoquic/frames.c 133-149, picoquic_delete_stream_if_closed (with 116-131,
    picoquic_is_stream_acked), writing the stream back to the table. *)
Definition n_delete_if_closed (c : nconn) (s : nstrm) : nconn :=
  let s1 := n_set_closed s (n_closed s || n_is_closed (nc_client c) s) in
  if n_closed s1 && (if n_rst_sent s1 then n_rst_acked s1 else check_sack_list (n_sack s1) 0 (n_sent s1))
  then n_delete c (n_id s1) else n_put c s1.

(** picoquic/sacks.c 197-256 as called at frames.c 2363 and 3436: current_time is 0. *)
Definition sack_add (k : sack_list) (off len : N) (fin : bool) : sack_list :=
  fst (update_sack_list k off (last_pos off len fin) 0).

(** picoquic/frames.c 3417-3445, picoquic_process_ack_of_stream_frame: the connection and
    the bytes after the frame. *)
Definition ack_stream (c : nconn) (b0 : N) (l : list N) : option (nconn * list N) :=
  match parse_stream b0 l with
  | None => None
  | Some ((sid, off, fin, d), rest) =>
    Some (match n_find c sid with
          | None => c
          | Some s => n_delete_if_closed c (n_set_sack s (sack_add (n_sack s) off (blen d) fin))
          end, rest)
  end.

(** picoquic/frames.c 323-352, picoquic_process_ack_of_reset_stream_frame. *)
Definition ack_reset (c : nconn) (l : list N) : option (nconn * list N) :=
  match frames_varint_decode l with
  | None => None
  | Some (sid, l1) =>
    match skip_varints 2 l1 with
    | None => None
    | Some rest =>
      Some (match n_find c sid with
            | None => c
            | Some s => n_delete_if_closed c (n_set_rst_acked s)
            end, rest)
    end
  end.

(** picoquic/frames.c 520-562, picoquic_process_ack_of_new_cid_frame, from the type. *)
Definition ack_new_cid (c : nconn) (is_mp : bool) (l0 : list N) : option (nconn * list N) :=
  match parse_new_connection_id is_mp l0 with
  | None => None
  | Some ((p, seq, _, _, _), rest) =>
    Some (set_local c (map (fun e => if (fst (fst e) =? p) && (snd (fst e) =? seq) then (fst e, true) else e) (nc_local c)),
          rest)
  end.

(** picoquic/frames.c 762-797, picoquic_process_ack_of_retire_connection_id_frame: the
    fields are read one byte after the start of the frame (with 675-690). *)
Definition ack_retire_cid (c : nconn) (is_mp : bool) (l : list N) : option (nconn * list N) :=
  match (p <-- (if is_mp then frames_varint_decode else rret 0) ;; seq <-- frames_varint_decode ;; rret (p, seq)) l with
  | None => None
  | Some ((p, seq), rest) =>
    Some (set_remote c (filter (fun e => negb ((fst e =? p) && (snd e =? seq))) (nc_remote c)), rest)
  end.

(** picoquic/frames.c 2345-2367, picoquic_process_ack_of_crypto_frame. *)
Definition ack_crypto (c : nconn) (pt : ptype) (l : list N) : option (nconn * list N) :=
  match (off <-- frames_varint_decode ;; d <-- length_data ;; rret (off, d)) l with
  | None => None
  | Some ((off, d), rest) =>
    Some (match crypto_epoch pt with
          | None => c
          | Some e => set_tls c e (sack_add (nc_tls c e) off (blen d) false)
          end, rest)
  end.

(** picoquic/frames.c 4320-4347, picoquic_process_ack_of_max_stream_data_frame. *)
Definition ack_max_stream_data (c : nconn) (l : list N) : option (nconn * list N) :=
  match two_varints l with
  | None => None
  | Some ((sid, v), rest) =>
    Some (match n_find c sid with
          | None => c
          | Some s => if n_md_l_acked s <? v then n_put c (n_set_md_acked s v) else c
          end, rest)
  end.

(** picoquic/frames.c 4483-4511, picoquic_process_ack_of_max_streams_frame. *)
Definition ack_max_streams (c : nconn) (u : bool) (l : list N) : option (nconn * list N) :=
  match frames_varint_decode l with
  | None => None
  | Some (rank, rest) => Some (if nc_rank_acked c u <? rank then set_rank_acked c u rank else c, rest)
  end.

(** picoquic/frames.c 4242-4264, picoquic_process_ack_of_max_data_frame. *)
Definition ack_max_data (c : nconn) (l : list N) : option (nconn * list N) :=
  match frames_varint_decode l with
  | None => None
  | Some (v, rest) => Some (if nc_md_l_acked c <? v then set_md_acked c v else c, rest)
  end.

(** picoquic/frames.c 5771-5792, picoquic_process_ack_of_max_path_id_frame, called with the
    start of the frame (3545): the value is read where the type is. *)
Definition ack_max_path_id (c : nconn) (l0 : list N) : option (nconn * list N) :=
  match frames_varint_decode l0 with
  | None => None
  | Some (v, rest) => Some (if nc_mp_acked c <? v then set_mp_acked c v else c, rest)
  end.

(** picoquic/frames.c 5881-5902, picoquic_process_ack_of_paths_blocked_frame, called with
    the start of the frame (3549). *)
Definition ack_paths_blocked (c : nconn) (l0 : list N) : option (nconn * list N) :=
  match frames_varint_decode l0 with
  | None => None
  | Some (v, rest) => Some (if nc_pb_acked c <? v then set_pb_acked c v else c, rest)
  end.

(** picoquic/frames.c 6035-6060, picoquic_process_ack_of_path_cid_blocked_frame, called
    with the start of the frame (3553). *)
Definition ack_path_cid_blocked (c : nconn) (l0 : list N) : option (nconn * list N) :=
  match two_varints l0 with
  | None => None
  | Some ((p, _), rest) =>
    Some (match np_find c p with
          | None => c
          | Some _ =>
            set_paths c (map (fun x => if np_id x =? p
              then mk_np (np_id x) (np_status x) (np_demoted x) false (np_observed x) (np_response x) (np_verified x) (np_failed x)
              else x) (nc_paths c))
          end, rest)
  end.

(** Outcome of the processing of an acknowledged packet: the connection at the end of the
    loop, whether ret = 0 then; undefined behaviour; [AFuel] does not happen. *)
Inductive ack_result := AOk (c : nconn) (all : bool) | AUndef | AFuel.

(** picoquic/frames.c 3469-3589: one frame.  [None] is ret <> 0.  The outer option is
    [None] for the write through a NULL send_path in
    picoquic_process_ack_of_observed_address_frame (6207-6223), called with the start of the
    frame; [path] is the unique id of p->send_path. *)
Definition ack_frame_step (c : nconn) (pt : ptype) (path : option N) (t : N) (l0 l : list N)
    : option (option (nconn * list N)) :=
  let skip := match fst (skip_frame l0) with Ok rest => Some (c, rest) | _ => None end in
  if t =? ft_handshake_done then Some (Some (set_done c, l))
  else if t =? ft_new_connection_id then Some (ack_new_cid c false l0)
  else if t =? ft_path_new_connection_id then Some (ack_new_cid c true l0)
  else if t =? ft_retire_connection_id then Some (ack_retire_cid c false (skipn 1 l0))
  else if t =? ft_path_retire_connection_id then Some (ack_retire_cid c true (skipn 1 l0))
  else if t =? ft_crypto_hs then Some (ack_crypto c pt (skipn 1 l0))
  else if t =? ft_new_token then
    Some (match fst (skip_frame l0) with Ok rest => Some (set_token c, rest) | _ => None end)
  else if t =? ft_max_data then Some (ack_max_data c (skipn 1 l0))
  else if t =? ft_max_stream_data then Some (ack_max_stream_data c (skipn 1 l0))
  else if t =? ft_max_streams_bidir then Some (ack_max_streams c false (skipn 1 l0))
  else if t =? ft_max_streams_unidir then Some (ack_max_streams c true (skipn 1 l0))
  else if t =? ft_reset_stream then Some (ack_reset c (skipn 1 l0))
  else if t =? ft_max_path_id then Some (ack_max_path_id c l0)
  else if t =? ft_paths_blocked then Some (ack_paths_blocked c l0)
  else if t =? ft_path_cid_blocked then Some (ack_path_cid_blocked c l0)
  else if (t =? ft_observed_address_v4) || (t =? ft_observed_address_v6) then
    match skip_observed_address_frame t l0 with
    | None => Some None
    | Some rest =>
      match path with
      | None => None
      | Some p =>
        Some (Some (set_paths c (map (fun x => if np_id x =? p
              then mk_np (np_id x) (np_status x) (np_demoted x) (np_blocked x) true (np_response x) (np_verified x) (np_failed x)
              else x) (nc_paths c)), rest))
      end
    end
  else if is_stream_type t then Some (ack_stream c (hd 0 l0) (skipn 1 l0))
  else Some skip.

(** picoquic/frames.c 3450-3591, picoquic_process_ack_of_frames. *)
Fixpoint process_ack (fuel : nat) (c : nconn) (pt : ptype) (path : option N) (l0 : list N) : ack_result :=
  match l0 with
  | [] => AOk c true
  | _ :: _ =>
    match varint_read l0 with
    | None => AOk c true
    | Some (t, l) =>
      match ack_frame_step c pt path t l0 l with
      | None => AUndef
      | Some None => AOk c false
      | Some (Some (c', rest)) =>
        match fuel with
        | O => AFuel
        | S f => process_ack f c' pt path rest
        end
      end
    end
  end.

(** picoquic/frames.c 3450-3591 on the payload of an acknowledged packet. *)
Definition process_ack_of_frames (c : nconn) (pt : ptype) (path : option N) (payload : list N) : ack_result :=
  process_ack (S (length payload)) c pt path payload.
