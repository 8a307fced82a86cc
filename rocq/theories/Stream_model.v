(** Model of the stream table of a connection, receive side: creation and deletion
    of streams, STREAM, RESET_STREAM and STOP_SENDING frames, flow-control limits
    in both directions (definitions only).

    Simplifications.  The connection is in a state where errors are recorded
    (picoquic_state_ready or before, see [conn_error]).  Allocations succeed, a
    callback function is set and returns 0, no direct receive function is set.  The
    splay tree of streams is represented by the list of its nodes (see
    P_Splay.v).  What the sending side does to a stream is given by the flags it
    sets ([OpTxSent], [OpTxAcked]).  Frames are taken after decoding of their
    fields.  64-bit sums of limits are not wrapped. *)
From Verif Require Import Base Reasm_model.

(** Macros of picoquic/picoquic_internal.h 851-857. *)
Definition is_client_id (id : N) : bool := id mod 2 =? 0.
Definition is_bidir_id (id : N) : bool := (id / 2) mod 2 =? 0.
Definition is_local_id (id : N) (client : bool) : bool := xorb (negb (id mod 2 =? 0)) client.
Definition stream_type (id : N) : N := id mod 4.

(** STREAM_ID_FROM_RANK, picoquic/picoquic_internal.h 854, with the 64-bit wrap of
    rank - 1. *)
Definition id_of_rank (rank : N) (client uni : bool) : N :=
  ((rank + (two64 - 1)) mod two64 * 4) mod two64 + (if uni then 2 else 0) + (if client then 0 else 1).

(** STREAM_RANK_FROM_ID, picoquic/picoquic_internal.h 855. *)
Definition rank_of_id (id : N) : N := ((id + 4) mod two64) / 4.

(** Flags of the sending half, picoquic/picoquic_internal.h 828-835: fin_requested,
    fin_sent, reset_requested, reset_sent, reset_acked, and the value of
    picoquic_check_sack_list(&sack_list, 0, sent_offset). *)
Record tx := mk_tx { t_fin_req : bool; t_fin_sent : bool; t_rst_req : bool; t_rst_sent : bool;
                     t_rst_acked : bool; t_acked : bool }.

(** picoquic_stream_head_t, picoquic/picoquic_internal.h 803-849: stream_id,
    receiving half, sending half, maxdata_remote, stop_sending_requested,
    stop_sending_received, max_stream_updated, is_closed, is_discarded. *)
Record strm := mk_strm { s_id : N; s_rx : rx; s_tx : tx; s_md_remote : N; s_stop_req : bool;
                         s_stop_rcvd : bool; s_max_upd : bool; s_closed : bool; s_discarded : bool }.

(** initial_max_stream_data_bidi_local, _bidi_remote and _uni of the local and
    the remote parameters, picoquic/picoquic.h 308-315. *)
Record params := mk_params { p_lbl : N; p_lbr : N; p_lu : N; p_rbl : N; p_rbr : N; p_ru : N }.

(** Calls to the application: stream data or fin, stream reset, stop sending. *)
Inductive event := EvPiece (sid : N) (p : piece) | EvReset (sid : N) | EvStop (sid : N).

(** Stream part of picoquic_cnx_t, picoquic/picoquic_internal.h 1465-1486:
    client_mode, stream_tree, next_stream_id, max_stream_id_bidir_local,
    max_stream_id_unidir_local, their _computed variants, the initial numbers of
    streams, data_received, maxdata_local, maxdata_remote,
    max_stream_id_bidir_remote, max_stream_id_unidir_remote, parameters,
    local_error.  [k_out] is the sequence of calls to the application, oldest first.
    [k_retired] is not in the code: it records the id and the fin_offset of the
    deleted streams. *)
Record scnx := mk_scnx {
  k_client : bool; k_streams : list strm; k_next : N -> N;
  k_maxb_l : N; k_maxu_l : N; k_compb : N; k_compu : N; k_initb : N; k_initu : N;
  k_rcvd : N; k_md_l : N; k_md_r : N; k_maxb_r : N; k_maxu_r : N;
  k_par : params; k_err : option N; k_out : list event; k_retired : list (N * N) }.

(** Assignments of the fields above. *)
Definition set_streams (c : scnx) (l : list strm) : scnx :=
  mk_scnx (k_client c) l (k_next c) (k_maxb_l c) (k_maxu_l c) (k_compb c) (k_compu c) (k_initb c) (k_initu c)
    (k_rcvd c) (k_md_l c) (k_md_r c) (k_maxb_r c) (k_maxu_r c) (k_par c) (k_err c) (k_out c) (k_retired c).
Definition set_next (c : scnx) (t v : N) : scnx :=
  mk_scnx (k_client c) (k_streams c) (fun x => if x =? t then v else k_next c x) (k_maxb_l c) (k_maxu_l c)
    (k_compb c) (k_compu c) (k_initb c) (k_initu c)
    (k_rcvd c) (k_md_l c) (k_md_r c) (k_maxb_r c) (k_maxu_r c) (k_par c) (k_err c) (k_out c) (k_retired c).
Definition set_limits (c : scnx) (maxb maxu compb compu : N) : scnx :=
  mk_scnx (k_client c) (k_streams c) (k_next c) maxb maxu compb compu (k_initb c) (k_initu c)
    (k_rcvd c) (k_md_l c) (k_md_r c) (k_maxb_r c) (k_maxu_r c) (k_par c) (k_err c) (k_out c) (k_retired c).
Definition set_rcvd (c : scnx) (v : N) : scnx :=
  mk_scnx (k_client c) (k_streams c) (k_next c) (k_maxb_l c) (k_maxu_l c) (k_compb c) (k_compu c) (k_initb c) (k_initu c)
    v (k_md_l c) (k_md_r c) (k_maxb_r c) (k_maxu_r c) (k_par c) (k_err c) (k_out c) (k_retired c).
Definition set_md (c : scnx) (l r : N) : scnx :=
  mk_scnx (k_client c) (k_streams c) (k_next c) (k_maxb_l c) (k_maxu_l c) (k_compb c) (k_compu c) (k_initb c) (k_initu c)
    (k_rcvd c) l r (k_maxb_r c) (k_maxu_r c) (k_par c) (k_err c) (k_out c) (k_retired c).
Definition set_max_r (c : scnx) (b u : N) : scnx :=
  mk_scnx (k_client c) (k_streams c) (k_next c) (k_maxb_l c) (k_maxu_l c) (k_compb c) (k_compu c) (k_initb c) (k_initu c)
    (k_rcvd c) (k_md_l c) (k_md_r c) b u (k_par c) (k_err c) (k_out c) (k_retired c).
Definition set_err (c : scnx) (e : option N) : scnx :=
  mk_scnx (k_client c) (k_streams c) (k_next c) (k_maxb_l c) (k_maxu_l c) (k_compb c) (k_compu c) (k_initb c) (k_initu c)
    (k_rcvd c) (k_md_l c) (k_md_r c) (k_maxb_r c) (k_maxu_r c) (k_par c) e (k_out c) (k_retired c).
Definition add_out (c : scnx) (l : list event) : scnx :=
  mk_scnx (k_client c) (k_streams c) (k_next c) (k_maxb_l c) (k_maxu_l c) (k_compb c) (k_compu c) (k_initb c) (k_initu c)
    (k_rcvd c) (k_md_l c) (k_md_r c) (k_maxb_r c) (k_maxu_r c) (k_par c) (k_err c) (k_out c ++ l) (k_retired c).
Definition add_retired (c : scnx) (id off : N) : scnx :=
  mk_scnx (k_client c) (k_streams c) (k_next c) (k_maxb_l c) (k_maxu_l c) (k_compb c) (k_compu c) (k_initb c) (k_initu c)
    (k_rcvd c) (k_md_l c) (k_md_r c) (k_maxb_r c) (k_maxu_r c) (k_par c) (k_err c) (k_out c) ((id, off) :: k_retired c).

Definition s_set_rx (s : strm) (r : rx) : strm :=
  mk_strm (s_id s) r (s_tx s) (s_md_remote s) (s_stop_req s) (s_stop_rcvd s) (s_max_upd s) (s_closed s) (s_discarded s).
Definition s_set_tx (s : strm) (t : tx) : strm :=
  mk_strm (s_id s) (s_rx s) t (s_md_remote s) (s_stop_req s) (s_stop_rcvd s) (s_max_upd s) (s_closed s) (s_discarded s).
Definition s_set_md_remote (s : strm) (v : N) : strm :=
  mk_strm (s_id s) (s_rx s) (s_tx s) v (s_stop_req s) (s_stop_rcvd s) (s_max_upd s) (s_closed s) (s_discarded s).
Definition s_set_stop (s : strm) (req rcvd disc : bool) : strm :=
  mk_strm (s_id s) (s_rx s) (s_tx s) (s_md_remote s) req rcvd (s_max_upd s) (s_closed s) disc.
Definition s_set_upd (s : strm) (b : bool) : strm :=
  mk_strm (s_id s) (s_rx s) (s_tx s) (s_md_remote s) (s_stop_req s) (s_stop_rcvd s) b (s_closed s) (s_discarded s).
Definition s_set_closed (s : strm) (b : bool) : strm :=
  mk_strm (s_id s) (s_rx s) (s_tx s) (s_md_remote s) (s_stop_req s) (s_stop_rcvd s) (s_max_upd s) b (s_discarded s).

Definition r_set_fin (r : rx) (b : bool) : rx :=
  mk_rx b (rx_fin_signalled r) (rx_reset_received r) (rx_reset_signalled r) (rx_consumed r) (rx_fin_offset r) (rx_maxdata r) (rx_chunks r).
Definition r_set_reset (r : rx) : rx :=
  mk_rx (rx_fin_received r) (rx_fin_signalled r) true true (rx_consumed r) (rx_fin_offset r) (rx_maxdata r) (rx_chunks r).
Definition r_set_fin_offset (r : rx) (v : N) : rx :=
  mk_rx (rx_fin_received r) (rx_fin_signalled r) (rx_reset_received r) (rx_reset_signalled r) (rx_consumed r) v (rx_maxdata r) (rx_chunks r).
Definition r_set_maxdata (r : rx) (v : N) : rx :=
  mk_rx (rx_fin_received r) (rx_fin_signalled r) (rx_reset_received r) (rx_reset_signalled r) (rx_consumed r) (rx_fin_offset r) v (rx_chunks r).

(** picoquic_find_stream, picoquic/quicctx.c 3425-3431. *)
Definition lookup (c : scnx) (id : N) : option strm := find (fun s => s_id s =? id) (k_streams c).

(** Writes through a pointer to a stream of the table. *)
Definition put (c : scnx) (s : strm) : scnx :=
  set_streams c (map (fun x => if s_id x =? s_id s then s else x) (k_streams c)).

(** picoquic_connection_error, picoquic/quicctx.c 4695-4727: only the first error
    is recorded.  Simplified: valid for the states ready, client_ready_start,
    server_false_start and those before server_false_start. *)
Definition conn_error (c : scnx) (e : N) : scnx :=
  match k_err c with None => set_err c (Some e) | Some _ => c end.

(** picoquic/quicctx.c 3451-3508, picoquic_create_stream: the maxima of the new
    stream. *)
Definition new_stream (c : scnx) (id : N) : strm :=
  let p := k_par c in
  let '(l, r) :=
    if is_local_id id (k_client c) then
      if is_bidir_id id then (p_lbl p, p_rbr p) else (0, p_ru p)
    else if is_bidir_id id then (p_lbr p, p_rbl p) else (p_lu p, 0) in
  mk_strm id (mk_rx false false false false 0 0 l []) (mk_tx false false false false false false) r
          false false false false false.

(** picoquic/quicctx.c 3451-3508, picoquic_create_stream, followed by the marking of
    remote unidirectional streams of picoquic/frames.c 84-90.  The call of
    picoquic_delete_stream_if_closed (quicctx.c 3500) has no effect on a new
    stream. *)
Definition create_stream (c : scnx) (id : N) : scnx :=
  let s := new_stream c id in
  let s := if negb (is_bidir_id id) && negb (is_local_id id (k_client c))
           then s_set_tx s (mk_tx true true false false false false) else s in
  let c1 := set_streams c (k_streams c ++ [s]) in
  if k_next c (stream_type id) <=? id then set_next c1 (stream_type id) (id + 4) else c1.

(** picoquic/frames.c 76-92: the loop creating the missing streams. *)
Definition create_loop (c : scnx) (id : N) : scnx :=
  let t := stream_type id in
  N.iter ((id - k_next c t) / 4 + 1) (fun x => create_stream x (k_next x t)) c.

(** picoquic/frames.c 56-95, picoquic_create_missing_streams; the boolean tells
    whether a stream is returned. *)
Definition create_missing (c : scnx) (id : N) (is_remote : bool) : scnx * bool :=
  if is_remote && (id <? k_next c (stream_type id)) then (c, false)
  else if negb (Bool.eqb (is_client_id id) (xorb (k_client c) is_remote)) then (conn_error c 4, false)
  else if is_remote && ((if is_bidir_id id then k_maxb_l c else k_maxu_l c) <? id) then (conn_error c 4, false)
  else if id <? k_next c (stream_type id) then (conn_error c 5, false)
  else (create_loop c id, true).

(** picoquic/frames.c 181-190, picoquic_find_or_create_stream. *)
Definition find_or_create (c : scnx) (id : N) : scnx * option strm :=
  match lookup c id with
  | Some s => (c, Some s)
  | None => let '(c1, ok) := create_missing c id true in (c1, if ok then lookup c1 id else None)
  end.

(** picoquic/frames.c 97-114, picoquic_is_stream_closed. *)
Definition is_stream_closed (s : strm) (client : bool) : bool :=
  let t := s_tx s in let r := s_rx s in
  let tx_done := (t_fin_req t && t_fin_sent t) || (t_rst_req t && t_rst_sent t) in
  let rx_done := (rx_fin_received r && rx_fin_signalled r) || (rx_reset_received r && rx_reset_signalled r) in
  if is_bidir_id (s_id s) then tx_done && rx_done
  else if is_local_id (s_id s) client then tx_done else rx_done.

(** picoquic/frames.c 116-131, picoquic_is_stream_acked. *)
Definition is_stream_acked (s : strm) : bool :=
  s_closed s && (if t_rst_sent (s_tx s) then t_rst_acked (s_tx s) else t_acked (s_tx s)).

(** picoquic/frames.c 4422-4442, picoquic_update_max_stream_ID_local. *)
Definition update_max (c : scnx) (s : strm) : scnx * strm :=
  if negb (Bool.eqb (k_client c) (is_client_id (s_id s))) && negb (s_max_upd s) then
    let r := s_rx s in
    if (rx_fin_offset r <=? rx_consumed r) && (rx_fin_received r || rx_reset_received r) then
      if is_bidir_id (s_id s) then
        if t_fin_sent (s_tx s) || t_rst_sent (s_tx s) then
          (set_limits c (k_maxb_l c) (k_maxu_l c) (k_compb c + 4) (k_compu c), s_set_upd s true)
        else (c, s)
      else (set_limits c (k_maxb_l c) (k_maxu_l c) (k_compb c) (k_compu c + 4), s_set_upd s true)
    else (c, s)
  else (c, s).

(** picoquic/frames.c 133-149, picoquic_delete_stream_if_closed, writing the stream
    back to the table. *)
Definition delete_if_closed (c : scnx) (s : strm) : scnx :=
  let '(c1, s1) :=
    if negb (s_closed s) && is_stream_closed s (k_client c) then
      let '(c1, s1) := update_max c s in (c1, s_set_closed s1 true)
    else (c, s) in
  if s_closed s1 && is_stream_acked s1 then
    add_retired (set_streams c1 (filter (fun x => negb (s_id x =? s_id s1)) (k_streams c1))) (s_id s1) (rx_fin_offset (s_rx s1))
  else put c1 s1.

(** picoquic/frames.c 197-221, picoquic_flow_control_check_stream_offset; the
    boolean is ret == 0. *)
Definition flow_check (c : scnx) (s : strm) (nfo : N) : scnx * strm * bool :=
  let r := s_rx s in
  if rx_maxdata r <? nfo then (conn_error c 3, s, false)
  else if rx_fin_offset r <? nfo then
    let new := nfo - rx_fin_offset r in
    if (k_md_l c <? new) || (k_md_l c - new <? k_rcvd c) then (conn_error c 3, s, false)
    else (set_rcvd c (k_rcvd c + new), s_set_rx s (r_set_fin_offset r nfo), true)
  else (c, s, true).

(** picoquic/frames.c 1064-1070: pieces are passed to the application unless it
    asked the peer to stop or discarded the stream. *)
Definition gate (s : strm) (ps : list piece) : list event :=
  if s_stop_req s || s_discarded s then [] else map (EvPiece (s_id s)) ps.

(** picoquic/frames.c 1190-1300, picoquic_stream_network_input, called by
    picoquic_decode_stream_frame (1310-1342) after the check of the offset (1322).
    The boolean is false when the decoding of the packet stops.  [None]:
    out-of-bounds access in the reassembly. *)
Definition stream_frame (c : scnx) (sid off : N) (fin : bool) (d : list N) : option (scnx * bool) :=
  let nfo := off + blen d in
  if two62 <=? nfo then Some (conn_error c 6, false)
  else
    match find_or_create c sid with
    | (c1, None) => Some (c1, sid <? k_next c1 (stream_type sid))
    | (c1, Some s) =>
      let r := s_rx s in
      let '(c2, s2, ok, notify) :=
        if rx_fin_received r then
          if (if fin then negb (rx_fin_offset r =? nfo) else rx_fin_offset r <? nfo)
          then (conn_error c1 6, s, false, false) else (c1, s, true, false)
        else
          let '(c', s') := if fin then update_max c1 (s_set_rx s (r_set_fin r true)) else (c1, s) in
          if rx_fin_offset r <? nfo then
            let '(c'', s'', ok) := flow_check c' s' nfo in (c'', s'', ok, fin)
          else (c', s', true, fin) in
      if ok then
        match rx_input (s_rx s2) off d notify with
        | None => None
        | Some (r', ps) =>
          let s3 := s_set_rx s2 r' in
          let c3 := add_out (put c2 s3) (gate s3 ps) in
          Some (if rx_fin_signalled r' then delete_if_closed c3 s3 else c3, true)
        end
      else Some (put c2 s2, false)
    end.

(** picoquic/frames.c 267-320, picoquic_decode_stream_reset_frame, after the
    decoding of the fields. *)
Definition reset_frame (c : scnx) (sid final : N) : scnx * bool :=
  match find_or_create c sid with
  | (c1, None) => (c1, match k_err c1 with None => true | Some _ => false end)
  | (c1, Some s) =>
    let r := s_rx s in
    if (rx_fin_received r || rx_reset_received r) && negb (final =? rx_fin_offset r) then (conn_error c1 6, false)
    else
      let '(c2, s2, ok) := flow_check c1 s final in
      if ok then
        if rx_reset_received r then (put c2 s2, true)
        else
          let s3 := s_set_rx s2 (r_set_reset (s_rx s2)) in
          let '(c3, s4) := update_max c2 s3 in
          let c4 := add_out (put c3 s4) (if rx_reset_signalled r || s_discarded s4 then [] else [EvReset sid]) in
          (if rx_reset_signalled r then c4 else delete_if_closed c4 s4, true)
      else (c2, false)
  end.

(** picoquic/frames.c 904-941, picoquic_decode_stop_sending_frame, after the
    decoding of the fields; stop_sending_signalled equals stop_sending_received. *)
Definition stop_sending_frame (c : scnx) (sid : N) : scnx * bool :=
  match find_or_create c sid with
  | (c1, None) => (c1, true)
  | (c1, Some s) =>
    if negb (is_bidir_id sid) && negb (is_local_id sid (k_client c1)) then (conn_error c1 5, false)
    else if negb (s_stop_rcvd s) && negb (t_rst_req (s_tx s)) && negb (t_fin_sent (s_tx s)) then
      (add_out (put c1 (s_set_stop s (s_stop_req s) true (s_discarded s))) (if s_discarded s then [] else [EvStop sid]), true)
    else (c1, true)
  end.

(** picoquic/frames.c 4229-4241, picoquic_decode_max_data_frame. *)
Definition max_data_frame (c : scnx) (v : N) : scnx :=
  if k_md_r c <? v then set_md c (k_md_l c) v else c.

(** picoquic/frames.c 4294-4320, picoquic_decode_max_stream_data_frame. *)
Definition max_stream_data_frame (c : scnx) (sid v : N) : scnx :=
  match find_or_create c sid with
  | (c1, None) => c1
  | (c1, Some s) => if s_md_remote s <? v then put c1 (s_set_md_remote s v) else c1
  end.

(** picoquic/frames.c 4444-4481, picoquic_decode_max_streams_frame; the list of
    output streams is not modelled. *)
Definition max_streams_frame (c : scnx) (uni : bool) (rank : N) : scnx * bool :=
  let id := id_of_rank rank (k_client c) uni in
  let c1 := if uni then (if k_maxu_r c <? id then set_max_r c (k_maxb_r c) id else c)
            else (if k_maxb_r c <? id then set_max_r c id (k_maxu_r c) else c) in
  if two62 <=? id then (conn_error c1 4, false) else (c1, true).

(** picoquic/frames.c 4211-4226, picoquic_format_max_data_frame, when there is
    room. *)
Definition send_max_data (c : scnx) (increase : N) : scnx := set_md c (k_md_l c + increase) (k_md_r c).

(** picoquic/frames.c 4271-4291, picoquic_format_max_stream_data_frame, when there
    is room.  Both callers (4350-4377 and picoquic/sender.c 281-313) pass a value
    that is not lower than maxdata_local; lower values are ignored here. *)
Definition send_max_stream_data (c : scnx) (sid v : N) : scnx :=
  match lookup c sid with
  | None => c
  | Some s => if rx_maxdata (s_rx s) <? v then put c (s_set_rx s (r_set_maxdata (s_rx s) v)) else c
  end.

(** picoquic/frames.c 4384-4420, picoquic_format_max_streams_frame_if_needed, when
    there is room. *)
Definition send_max_streams (c : scnx) : scnx :=
  let b := if k_maxb_l c <? k_compb c + 2 * k_initb c then k_maxb_l c + 4 * k_initb c else k_maxb_l c in
  let u := if k_maxu_l c <? k_compu c + 2 * k_initu c then k_maxu_l c + 4 * k_initu c else k_maxu_l c in
  set_limits c b u (k_compb c) (k_compu c).

(** picoquic/sender.c 49-72, picoquic_find_stream_for_writing. *)
Definition open_local (c : scnx) (sid : N) : scnx :=
  match lookup c sid with
  | Some _ => c
  | None => if Bool.eqb (is_client_id sid) (k_client c) then fst (create_missing c sid false) else c
  end.

(** Progress of the sending half: FIN or RESET_STREAM was sent (picoquic/frames.c
    229-264 and 1792-1818).  The values of the flags are not constrained. *)
Definition tx_sent (c : scnx) (sid : N) (t : tx) : scnx :=
  match lookup c sid with
  | None => c
  | Some s => let '(c1, s1) := update_max c (s_set_tx s t) in delete_if_closed (put c1 s1) s1
  end.

(** Progress of the sending half: data or RESET_STREAM was acknowledged
    (picoquic/frames.c 322-352, 1395-1400 and 3417-3445). *)
Definition tx_acked (c : scnx) (sid : N) (t : tx) : scnx :=
  match lookup c sid with
  | None => c
  | Some s => let s1 := s_set_tx s t in delete_if_closed (put c s1) s1
  end.

(** picoquic/sender.c 366-393, picoquic_stop_sending: the flag. *)
Definition app_stop_sending (c : scnx) (sid : N) : scnx :=
  match lookup c sid with
  | None => c
  | Some s => if rx_reset_received (s_rx s) then c else put c (s_set_stop s true (s_stop_rcvd s) (s_discarded s))
  end.

(** picoquic/sender.c 395-424, picoquic_discard_stream: the stop_sending_requested
    and is_discarded flags; the reset of the sending half is a [tx_sent]
    operation. *)
Definition app_discard (c : scnx) (sid : N) : scnx :=
  match lookup c sid with
  | None => c
  | Some s =>
    let stop := (is_bidir_id sid || negb (is_client_id sid)) && negb (rx_reset_received (s_rx s)) in
    put c (s_set_stop s (s_stop_req s || stop) (s_stop_rcvd s) true)
  end.

(** What can happen to a connection. *)
Inductive sop :=
| OpStream (sid off : N) (fin : bool) (d : list N)
| OpReset (sid final : N)
| OpStopFrame (sid : N)
| OpMaxData (v : N)
| OpMaxStreamData (sid v : N)
| OpMaxStreams (uni : bool) (rank : N)
| OpSendMaxData (increase : N)
| OpSendMaxStreamData (sid v : N)
| OpSendMaxStreams
| OpOpen (sid : N)
| OpTxSent (sid : N) (t : tx)
| OpTxAcked (sid : N) (t : tx)
| OpStop (sid : N)
| OpDiscard (sid : N).

(** One event: dispatch of picoquic/frames.c 6377-6662 for the frames, calls of the
    application and of the sender otherwise. *)
Definition sstep (c : scnx) (o : sop) : option (scnx * bool) :=
  match o with
  | OpStream sid off fin d => stream_frame c sid off fin d
  | OpReset sid final => Some (reset_frame c sid final)
  | OpStopFrame sid => Some (stop_sending_frame c sid)
  | OpMaxData v => Some (max_data_frame c v, true)
  | OpMaxStreamData sid v => Some (max_stream_data_frame c sid v, true)
  | OpMaxStreams uni rank => Some (max_streams_frame c uni rank)
  | OpSendMaxData v => Some (send_max_data c v, true)
  | OpSendMaxStreamData sid v => Some (send_max_stream_data c sid v, true)
  | OpSendMaxStreams => Some (send_max_streams c, true)
  | OpOpen sid => Some (open_local c sid, true)
  | OpTxSent sid t => Some (tx_sent c sid t, true)
  | OpTxAcked sid t => Some (tx_acked c sid t, true)
  | OpStop sid => Some (app_stop_sending c sid, true)
  | OpDiscard sid => Some (app_discard c sid, true)
  end.

(** A history: it stops at the first frame that stops the decoding
    (picoquic/frames.c 6383: the loop ends when bytes is NULL).  The boolean is true
    if the whole history was processed. *)
Fixpoint srun (c : scnx) (ops : list sop) : option (scnx * bool) :=
  match ops with
  | [] => Some (c, true)
  | o :: t =>
    match sstep c o with
    | None => None
    | Some (c1, true) => srun c1 t
    | Some (c1, false) => Some (c1, false)
    end
  end.

(** A new connection: picoquic/quicctx.c 3901-3903 (next_stream_id), 3942-3949 (local
    limits, from the numbers of streams [nb] and [nu] and initial_max_data [md]),
    4167-4172 and picoquic/transport.c 602-653 (remote limits [mdr], [br], [ur]). *)
Definition scnx0 (client : bool) (p : params) (nb nu md mdr br ur : N) : scnx :=
  let b := id_of_rank nb client false in
  let u := id_of_rank nu client true in
  mk_scnx client [] (fun t => t) b u (stream_type b) (stream_type u) nb nu 0 md mdr br ur p None [] [].
