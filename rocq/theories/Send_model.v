(** Model of the sending side of streams: application writes, peer limits,
    selection of the ready stream, formatting of STREAM, RESET_STREAM and
    STOP_SENDING frames and the loop that fills a packet (definitions only). *)
From Verif Require Import Base Varint_model Stream_model.

(** The sending half of picoquic_stream_head_t, picoquic/picoquic_internal.h
    803-849.  [w_queue] is the chain picoquic_stream_queue_node_t (771-777):
    content and number of bytes already sent.  [w_rcv_end] stands for
    [fin_received || reset_received]; path affinity is left out (single path). *)
Record wstream := mk_ws {
  w_id : N; w_prio : N; w_sent : N; w_max : N; w_queue : list (list N * N);
  w_active : bool; w_fin_req : bool; w_fin_sent : bool; w_rst_req : bool; w_rst_sent : bool;
  w_stop_req : bool; w_stop_sent : bool; w_stop_rcvd : bool; w_rcv_end : bool;
  w_err : N; w_stop_err : N; w_last : N }.

(** The three stream credits among the remote transport parameters,
    picoquic/picoquic.h 320-336: bidi_local, bidi_remote, uni. *)
Record credits := mk_cr { cr_bl : N; cr_br : N; cr_u : N }.

(** The fields of picoquic_cnx_t used when sending stream data,
    picoquic/picoquic_internal.h 1465-1486.  [n_out] is the doubly linked list
    first_output_stream .. last_output_stream as the list of stream ids, so
    that is_output_stream is membership; [n_next] is next_stream_id. *)
Record snd_cnx := mk_snd {
  n_client : bool; n_streams : list wstream; n_out : list N; n_next : N -> N;
  n_data_sent : N; n_max : N; n_max_bidi : N; n_max_uni : N; n_cr : credits; n_prio0 : N }.

(** Field updates: sent_offset, last_time_data_sent and send_queue after data
    has been copied in a frame (picoquic/frames.c 1773-1783). *)
Definition w_set_data (s : wstream) (sent : N) (q : list (list N * N)) (last : N) : wstream :=
  mk_ws (w_id s) (w_prio s) sent (w_max s) q (w_active s) (w_fin_req s) (w_fin_sent s)
    (w_rst_req s) (w_rst_sent s) (w_stop_req s) (w_stop_sent s) (w_stop_rcvd s) (w_rcv_end s)
    (w_err s) (w_stop_err s) last.
(** Updates of is_active, fin_requested and fin_sent (frames.c 1733-1751, 1790). *)
Definition w_set_fin (s : wstream) (active req sent : bool) : wstream :=
  mk_ws (w_id s) (w_prio s) (w_sent s) (w_max s) (w_queue s) active req sent
    (w_rst_req s) (w_rst_sent s) (w_stop_req s) (w_stop_sent s) (w_stop_rcvd s) (w_rcv_end s)
    (w_err s) (w_stop_err s) (w_last s).
(** Updates of reset_requested, reset_sent and local_error (frames.c 241,
    sender.c 341-344). *)
Definition w_set_rst (s : wstream) (req sent : bool) (err : N) : wstream :=
  mk_ws (w_id s) (w_prio s) (w_sent s) (w_max s) (w_queue s) (w_active s) (w_fin_req s) (w_fin_sent s)
    req sent (w_stop_req s) (w_stop_sent s) (w_stop_rcvd s) (w_rcv_end s)
    err (w_stop_err s) (w_last s).
(** Updates of stop_sending_requested, stop_sending_sent and local_stop_error
    (frames.c 881-893, sender.c 383-385). *)
Definition w_set_stop (s : wstream) (req sent : bool) (err : N) : wstream :=
  mk_ws (w_id s) (w_prio s) (w_sent s) (w_max s) (w_queue s) (w_active s) (w_fin_req s) (w_fin_sent s)
    (w_rst_req s) (w_rst_sent s) req sent (w_stop_rcvd s) (w_rcv_end s)
    (w_err s) err (w_last s).
(** Update of maxdata_remote (frames.c 160-176, 4310). *)
Definition w_set_max (s : wstream) (v : N) : wstream :=
  mk_ws (w_id s) (w_prio s) (w_sent s) v (w_queue s) (w_active s) (w_fin_req s) (w_fin_sent s)
    (w_rst_req s) (w_rst_sent s) (w_stop_req s) (w_stop_sent s) (w_stop_rcvd s) (w_rcv_end s)
    (w_err s) (w_stop_err s) (w_last s).
(** Update of stream_priority (sender.c 184). *)
Definition w_set_prio (s : wstream) (p : N) : wstream :=
  mk_ws (w_id s) p (w_sent s) (w_max s) (w_queue s) (w_active s) (w_fin_req s) (w_fin_sent s)
    (w_rst_req s) (w_rst_sent s) (w_stop_req s) (w_stop_sent s) (w_stop_rcvd s) (w_rcv_end s)
    (w_err s) (w_stop_err s) (w_last s).
(** Update of stop_sending_received (frames.c 925) and of fin_received or
    reset_received (frames.c 318, 1221). *)
Definition w_set_peer (s : wstream) (stop_rcvd rcv_end : bool) : wstream :=
  mk_ws (w_id s) (w_prio s) (w_sent s) (w_max s) (w_queue s) (w_active s) (w_fin_req s) (w_fin_sent s)
    (w_rst_req s) (w_rst_sent s) (w_stop_req s) (w_stop_sent s) stop_rcvd rcv_end
    (w_err s) (w_stop_err s) (w_last s).

(** Field updates of the connection. *)
Definition n_set_streams (c : snd_cnx) (l : list wstream) (out : list N) : snd_cnx :=
  mk_snd (n_client c) l out (n_next c) (n_data_sent c) (n_max c) (n_max_bidi c) (n_max_uni c)
    (n_cr c) (n_prio0 c).
(** data_sent, frames.c 1723 and 1784. *)
Definition n_add_sent (c : snd_cnx) (len : N) : snd_cnx :=
  mk_snd (n_client c) (n_streams c) (n_out c) (n_next c) (n_data_sent c + len) (n_max c)
    (n_max_bidi c) (n_max_uni c) (n_cr c) (n_prio0 c).
(** maxdata_remote and the two stream id limits. *)
Definition n_set_limits (c : snd_cnx) (m mb mu : N) : snd_cnx :=
  mk_snd (n_client c) (n_streams c) (n_out c) (n_next c) (n_data_sent c) m mb mu
    (n_cr c) (n_prio0 c).
(** remote_parameters (the stream credits). *)
Definition n_set_cr (c : snd_cnx) (cr : credits) : snd_cnx :=
  mk_snd (n_client c) (n_streams c) (n_out c) (n_next c) (n_data_sent c) (n_max c)
    (n_max_bidi c) (n_max_uni c) cr (n_prio0 c).
(** next_stream_id, quicctx.c 3502-3504. *)
Definition n_set_next (c : snd_cnx) (t v : N) : snd_cnx :=
  mk_snd (n_client c) (n_streams c) (n_out c) (fun x => if x =? t then v else n_next c x)
    (n_data_sent c) (n_max c) (n_max_bidi c) (n_max_uni c) (n_cr c) (n_prio0 c).

(** picoquic/quicctx.c 3425-3431, picoquic_find_stream; the splay tree keyed by
    stream id is a list (see Splay_model for the tree itself). *)
Definition w_lookup (c : snd_cnx) (id : N) : option wstream :=
  find (fun s => w_id s =? id) (n_streams c).

(** In-place update of the stream object. *)
Definition w_put (c : snd_cnx) (s : wstream) : snd_cnx :=
  n_set_streams c (map (fun x => if w_id x =? w_id s then s else x) (n_streams c)) (n_out c).

(** is_output_stream, quicctx.c 3319. *)
Definition is_out (c : snd_cnx) (id : N) : bool := existsb (N.eqb id) (n_out c).

(** picoquic/quicctx.c 3299-3313, picoquic_compare_stream_priority, on (priority, id). *)
Definition prio_lt (p1 i1 p2 i2 : N) : bool := (p1 <? p2) || ((p1 =? p2) && (i1 <? i2)).

(** Priority of a listed stream. *)
Definition prio_of (c : snd_cnx) (id : N) : N :=
  match w_lookup c id with Some s => w_prio s | None => 0 end.

(** The insertion loop, quicctx.c 3327-3369: after the last element if it is not
    above the new one, else before the first element above it. *)
Fixpoint out_insert (c : snd_cnx) (p id : N) (l : list N) : list N :=
  match l with
  | [] => [id]
  | x :: r => if prio_lt p id (prio_of c x) x then id :: l else x :: out_insert c p id r
  end.
Definition out_place (c : snd_cnx) (p id : N) (l : list N) : list N :=
  match rev l with
  | [] => [id]
  | last :: _ => if prio_lt p id (prio_of c last) last then out_insert c p id l else l ++ [id]
  end.

(** The condition shared by quicctx.c 3321-3324, frames.c 1376-1379 and frames.c
    1639-1644: a local stream above the limit set by the peer. *)
Definition above_limit (c : snd_cnx) (id : N) : bool :=
  Bool.eqb (is_client_id id) (n_client c) &&
  ((if is_bidir_id id then n_max_bidi c else n_max_uni c) <? id).

(** picoquic/quicctx.c 3317-3373, picoquic_insert_output_stream. *)
Definition insert_output (c : snd_cnx) (s : wstream) : snd_cnx :=
  if is_out c (w_id s) then c
  else if above_limit c (w_id s) then c
  else n_set_streams c (n_streams c) (out_place c (w_prio s) (w_id s) (n_out c)).

(** picoquic/quicctx.c 3375-3397, picoquic_remove_output_stream. *)
Definition remove_output (c : snd_cnx) (id : N) : snd_cnx :=
  n_set_streams c (n_streams c) (filter (fun x => negb (x =? id)) (n_out c)).

(** Neighbours of an element in the output list. *)
Fixpoint out_prev (l : list N) (id : N) (prev : option N) : option N :=
  match l with
  | [] => None
  | x :: r => if x =? id then prev else out_prev r id (Some x)
  end.
Definition out_next (l : list N) (id : N) : option N := out_prev (rev l) id None.

(** picoquic/quicctx.c 3404-3417, picoquic_reorder_output_stream. *)
Definition reorder_output (c : snd_cnx) (s : wstream) : snd_cnx :=
  if is_out c (w_id s) then
    if (match out_prev (n_out c) (w_id s) None with
        | Some p => prio_lt (w_prio s) (w_id s) (prio_of c p) p
        | None => false end) ||
       (match out_next (n_out c) (w_id s) with
        | Some x => prio_lt (prio_of c x) x (w_prio s) (w_id s)
        | None => false end)
    then insert_output (remove_output c (w_id s)) s
    else c
  else c.

(** picoquic/quicctx.c 3451-3508, picoquic_create_stream: the initial credit and
    the output list.  The deletion test at 3498 never fires on a new stream. *)
Definition initial_max (c : snd_cnx) (id : N) : N :=
  if is_local_id id (n_client c) then
    if is_bidir_id id then cr_br (n_cr c) else cr_u (n_cr c)
  else if is_bidir_id id then cr_bl (n_cr c) else 0.
Definition new_output (c : snd_cnx) (id : N) : bool :=
  if is_local_id id (n_client c) then
    if is_bidir_id id then id <=? n_max_bidi c else id <=? n_max_uni c
  else is_bidir_id id.
(** The flags set for a peer's unidirectional stream are those of
    picoquic_create_missing_streams, frames.c 83-89. *)
Definition new_wstream (c : snd_cnx) (id : N) : wstream :=
  let rx_only := negb (is_bidir_id id) && negb (is_local_id id (n_client c)) in
  mk_ws id (n_prio0 c) 0 (initial_max c id) [] false rx_only rx_only false false false false false false
    0 0 0.
Definition w_create (c : snd_cnx) (id : N) : snd_cnx :=
  let s := new_wstream c id in
  let c1 := n_set_streams c (n_streams c ++ [s]) (n_out c) in
  let c2 := if new_output c id then insert_output c1 s else c1 in
  n_set_next c2 (stream_type id) (id + 4).

(** picoquic/frames.c 56-95, picoquic_create_missing_streams: the loop creating
    the streams from next_stream_id up to [id]; [k] of them. *)
Fixpoint w_create_loop (k : nat) (c : snd_cnx) (id : N) : snd_cnx :=
  match k with
  | O => c
  | S k' => w_create_loop k' (w_create c (n_next c (stream_type id))) id
  end.
Definition w_create_missing (c : snd_cnx) (id : N) : snd_cnx :=
  if id <? n_next c (stream_type id) then c
  else w_create_loop (N.to_nat ((id - n_next c (stream_type id)) / 4 + 1)) c id.

(** picoquic/sender.c 49-72, picoquic_find_stream_for_writing.  Connection
    errors raised for a stream that is already closed are not modelled. *)
Definition for_writing (c : snd_cnx) (id : N) : snd_cnx * option wstream :=
  match w_lookup c id with
  | Some s => (c, Some s)
  | None =>
    if Bool.eqb (is_client_id id) (n_client c) then
      let c' := w_create_missing c id in (c', w_lookup c' id)
    else (c, None)
  end.

(** What can be observed: a frame put in the packet, data accepted from the
    application ([IWrote]: return value 0 of picoquic_add_to_stream, or buffer
    filled during the callback), end of stream requested ([IFin]). *)
Inductive item :=
| IWrote (id : N) (data : list N)
| IFin (id : N)
| IStream (id offset : N) (fin : bool) (data : list N)
| IReset (id err final : N)
| IStop (id err : N).

(** picoquic/sender.c 211-275, picoquic_add_to_stream_with_ctx; allocation
    succeeds.  No [IWrote] is observed when the call returns -1. *)
Definition add_to_stream (c : snd_cnx) (id : N) (data : list N) (set_fin : bool) : snd_cnx * list item :=
  match for_writing c id with
  | (c, None) => (c, [])
  | (c, Some s) =>
    if set_fin && w_fin_req s && (0 <? blen data) then (c, [])
    else
      let s1 := w_set_fin s (w_active s) (w_fin_req s || set_fin) (w_fin_sent s) in
      let asked := if set_fin && negb (w_fin_req s) then [IFin id] else [] in
      if w_rst_sent s || w_stop_rcvd s then (w_put c s1, asked)
      else
        let q := if 0 <? blen data then w_queue s ++ [(data, 0)] else w_queue s in
        let s2 := w_set_data s1 (w_sent s) q (w_last s) in
        (w_put c (w_set_fin s2 false (w_fin_req s2) (w_fin_sent s2)), IWrote id data :: asked)
  end.

(** picoquic/sender.c 137-165, picoquic_mark_active_stream, with a callback
    function set. *)
Definition mark_active (c : snd_cnx) (id : N) (active : bool) : snd_cnx :=
  match for_writing c id with
  | (c, None) => c
  | (c, Some s) =>
    if active then
      if negb (w_fin_req s) && negb (w_rst_req s)
      then w_put c (w_set_fin s true (w_fin_req s) (w_fin_sent s))
      else c
    else w_put c (w_set_fin s false (w_fin_req s) (w_fin_sent s))
  end.

(** picoquic/sender.c 178-189, picoquic_set_stream_priority. *)
Definition set_priority (c : snd_cnx) (id p : N) : snd_cnx :=
  match for_writing c id with
  | (c, None) => c
  | (c, Some s) => let s' := w_set_prio s p in reorder_output (w_put c s') s'
  end.

(** picoquic/sender.c 325-350, picoquic_reset_stream.  [unacked] is the value of
    the test picoquic_check_sack_list(.., 0, fin_offset) == 0 at 339, which
    depends on receive-side state. *)
Definition app_reset (c : snd_cnx) (id err : N) (unacked : bool) : snd_cnx :=
  match w_lookup c id with
  | None => c
  | Some s =>
    if w_fin_sent s && unacked then c
    else if w_rst_req s then c
    else w_put c (w_set_rst s true (w_rst_sent s) err)
  end.

(** picoquic/sender.c 366-393, picoquic_stop_sending; [reset_received] is part
    of receive-side state. *)
Definition app_stop (c : snd_cnx) (id err : N) (reset_received : bool) : snd_cnx :=
  match w_lookup c id with
  | None => c
  | Some s =>
    if reset_received then c
    else if w_stop_req s then c
    else let s' := w_set_stop s true (w_stop_sent s) err in insert_output (w_put c s') s'
  end.

(** picoquic/frames.c 4228-4240, picoquic_decode_max_data_frame. *)
Definition recv_max_data (c : snd_cnx) (v : N) : snd_cnx :=
  if n_max c <? v then n_set_limits c v (n_max_bidi c) (n_max_uni c) else c.

(** picoquic/frames.c 56-95 for a frame of the peer that names a stream it has
    not opened yet; the limit on the peer's stream ids is that of Stream_model
    and is not checked here. *)
Definition peer_stream (c : snd_cnx) (id : N) : snd_cnx :=
  match w_lookup c id with
  | Some _ => c
  | None => if is_local_id id (n_client c) then c else w_create_missing c id
  end.

(** picoquic/frames.c 4292-4319, picoquic_decode_max_stream_data_frame. *)
Definition recv_max_stream_data (c : snd_cnx) (id v : N) : snd_cnx :=
  let c := peer_stream c id in
  match w_lookup c id with
  | Some s => if w_max s <? v then w_put c (w_set_max s v) else c
  | None => c
  end.

(** picoquic/quicctx.c 3433-3449, picoquic_add_output_streams: walk over the
    tree of streams, by increasing id, from the stream following the old limit. *)
Fixpoint ids_from (l : list wstream) (id : N) (acc : list N) : list N :=
  match l with
  | [] => acc
  | s :: r => if id <=? w_id s then ids_from r id (w_id s :: acc) else ids_from r id acc
  end.
Fixpoint id_insert (x : N) (l : list N) : list N :=
  match l with
  | [] => [x]
  | y :: r => if x <=? y then x :: l else y :: id_insert x r
  end.
Definition sorted_ids (l : list N) : list N := fold_right id_insert [] l.
Fixpoint add_out_loop (c : snd_cnx) (l : list N) (old_limit new_limit : N) (bidir : bool) : snd_cnx :=
  match l with
  | [] => c
  | id :: r =>
    if old_limit <? id then
      if new_limit <? id then c
      else if is_local_id id (n_client c) && Bool.eqb (is_bidir_id id) bidir then
        match w_lookup c id with
        | Some s => add_out_loop (insert_output c s) r old_limit new_limit bidir
        | None => c
        end
      else add_out_loop c r old_limit new_limit bidir
    else add_out_loop c r old_limit new_limit bidir
  end.
Definition add_output_streams (c : snd_cnx) (old_limit new_limit : N) (bidir : bool) : snd_cnx :=
  let first := id_of_rank (u64 (rank_of_id old_limit + 1)) (n_client c) (negb bidir) in
  match w_lookup c first with
  | None => c
  | Some _ => add_out_loop c (sorted_ids (ids_from (n_streams c) first [])) old_limit new_limit bidir
  end.

(** picoquic/frames.c 4444-4481, picoquic_decode_max_streams_frame. *)
Definition recv_max_streams (c : snd_cnx) (uni : bool) (rank : N) : snd_cnx :=
  let id := id_of_rank rank (n_client c) uni in
  if uni then
    if n_max_uni c <? id then
      add_output_streams (n_set_limits c (n_max c) (n_max_bidi c) id) (n_max_uni c) id false
    else c
  else
    if n_max_bidi c <? id then
      add_output_streams (n_set_limits c (n_max c) id (n_max_uni c)) (n_max_bidi c) id true
    else c.

(** picoquic/frames.c 154-178, picoquic_update_stream_initial_remote. *)
Definition raise_initial (c : snd_cnx) : snd_cnx :=
  n_set_streams c
    (map (fun s =>
       if is_local_id (w_id s) (n_client c) || is_bidir_id (w_id s) then
         if w_max s <? initial_max c (w_id s) then w_set_max s (initial_max c (w_id s)) else s
       else s) (n_streams c)) (n_out c).

(** The transport parameters that set sending limits, transport.c 578-660. *)
Inductive tp := TpBidiLocal | TpBidiRemote | TpUni | TpMaxData | TpStreamsBidi | TpStreamsUni.

(** picoquic/transport.c 578-616 and 652-661, one parameter of
    picoquic_receive_transport_extensions. *)
Definition recv_tp (c : snd_cnx) (p : tp * N) : snd_cnx :=
  let v := snd p in
  let cr := n_cr c in
  match fst p with
  | TpBidiLocal => raise_initial (n_set_cr c (mk_cr v (cr_br cr) (cr_u cr)))
  | TpBidiRemote => raise_initial (n_set_cr c (mk_cr (cr_bl cr) v (cr_u cr)))
  | TpUni => raise_initial (n_set_cr c (mk_cr (cr_bl cr) (cr_br cr) v))
  | TpMaxData => n_set_limits c v (n_max_bidi c) (n_max_uni c)
  | TpStreamsBidi =>
    let id := id_of_rank (if v =? 4294967295 then 0 else v) (n_client c) false in
    add_output_streams (n_set_limits c (n_max c) id (n_max_uni c)) (n_max_bidi c) id true
  | TpStreamsUni =>
    let id := id_of_rank (if v =? 4294967295 then 0 else v) (n_client c) true in
    add_output_streams (n_set_limits c (n_max c) (n_max_bidi c) id) (n_max_uni c) id false
  end.

(** picoquic/transport.c 499-526, picoquic_clear_transport_extensions, called at
    539 before the parameters are read. *)
Definition clear_tp (c : snd_cnx) : snd_cnx :=
  n_set_limits (n_set_cr c (mk_cr 0 0 0)) 0 0 0.
Definition recv_transport (c : snd_cnx) (l : list (tp * N)) : snd_cnx :=
  fold_left recv_tp l (clear_tp c).

(** picoquic/quicctx.c 4152-4180, picoquic_start_client_cnx, with the parameters
    remembered in the session ticket (all zero without one). *)
Definition start_client (c : snd_cnx) (cr : credits) (maxdata sb su : N) : snd_cnx :=
  n_set_limits (n_set_cr c cr) maxdata (id_of_rank sb (n_client c) false)
    (id_of_rank su (n_client c) true).

(** send_queue != NULL && send_queue->length > send_queue->offset, frames.c 1362. *)
Definition queue_ready (s : wstream) : bool :=
  match w_queue s with
  | (d, o) :: _ => o <? blen d
  | [] => false
  end.

(** picoquic/frames.c 1361-1363, the has_data condition. *)
Definition has_data (c : snd_cnx) (s : wstream) : bool :=
  (n_data_sent c <? n_max c) && (w_sent s <? w_max s) &&
  (w_active s || queue_ready s || (w_fin_req s && negb (w_fin_sent s))).

(** picoquic/frames.c 1368-1369. *)
Definition urgent (s : wstream) : bool :=
  (w_rst_req s && negb (w_rst_sent s)) || (w_stop_req s && negb (w_stop_sent s)).

(** picoquic/frames.c 1396. *)
Definition exhausted (s : wstream) : bool :=
  ((w_fin_req s && w_fin_sent s) || (w_rst_req s && w_rst_sent s)) &&
  (negb (w_stop_req s) || w_stop_sent s).

(** picoquic/frames.c 1344-1416, picoquic_find_ready_stream_path without path:
    the stream selected and the list of the streams to be removed from the
    output list.  The stream_blocked and flow_blocked hints (1402-1410) and the
    deletion of closed streams (1399) are left out: see [SDelete]. *)
Fixpoint find_walk (c : snd_cnx) (l : list N) (found : option wstream) (gone : list N)
  : option wstream * list N :=
  match l with
  | [] => (found, gone)
  | id :: r =>
    match w_lookup c id with
    | None => find_walk c r found gone
    | Some s =>
      if (match found with Some f => w_prio f <? w_prio s | None => false end) then (found, gone)
      else if urgent s then (Some s, gone)
      else if has_data c s then
        if (w_sent s =? 0) && above_limit c (w_id s) then find_walk c r found gone
        else if N.odd (w_prio s) then (Some s, gone)
        else
          match found with
          | Some f => if w_last s <? w_last f then find_walk c r (Some s) gone
                      else find_walk c r found gone
          | None => find_walk c r (Some s) gone
          end
      else if exhausted s then find_walk c r found (id :: gone)
      else find_walk c r found gone
    end
  end.
Definition find_ready (c : snd_cnx) : snd_cnx * option wstream :=
  match find_walk c (n_out c) None [] with
  | (f, gone) => (fold_right (fun id c => remove_output c id) c gone, f)
  end.

(** picoquic/frames.c 1618-1630, picoquic_format_stream_frame_header. *)
Definition stream_frame_header (id offset : N) : writer :=
  if 0 <? offset
  then frames_uint8_encode 12 >>> frames_varint_encode id >>> frames_varint_encode offset
  else frames_uint8_encode 8 >>> frames_varint_encode id.

(** [bytes[0] |= flag]. *)
Definition set_flag (l : list N) (flag : N) : list N :=
  match l with
  | [] => []
  | b :: r => N.lor b flag :: r
  end.

(** picoquic/frames.c 1562-1590, picoquic_encode_length_of_stream_frame: the
    bytes before the data, from those of the header; [fin] is the FIN flag, set
    before (1600) or after (1791) on the same octet. *)
Definition frame_prefix (hdr : list N) (space len : N) (fin : bool) : list N :=
  let hdr := if fin then set_flag hdr 1 else hdr in
  if len <? space then
    if len =? space - 1 then 0 :: hdr
    else set_flag hdr 2 ++ varint_encode space len
  else hdr.

(** picoquic/frames.c 229-264, picoquic_format_stream_reset_frame. *)
Definition reset_writer (id err final : N) : writer :=
  frames_uint8_encode 4 >>> frames_varint_encode id >>> frames_varint_encode err >>>
  frames_varint_encode final.
(** picoquic/frames.c 876-902, picoquic_format_stop_sending_frame. *)
Definition stop_writer (id err : N) : writer :=
  frames_uint8_encode 5 >>> frames_varint_encode id >>> frames_varint_encode err.

(** What the application answers to picoquic_callback_prepare_to_send: an
    error, nothing, or one call of picoquic_provide_stream_data_buffer
    (frames.c 1592-1616) followed by the copy of the data. *)
Inductive reply := ReplyError | ReplyNone | ReplyData (data : list N) (fin still_active : bool).

(** Result of one call of the formatting function. *)
Inductive fmt :=
| FNull                                   (* returned NULL *)
| FOk (c : snd_cnx) (bytes : list N) (items : list item) (asked : bool)
| FErr (c : snd_cnx) (asked : bool)       (* *ret != 0 *)
| FUb.                                    (* write outside of the packet *)

(** [maxdata_remote - sent_offset] on uint64_t. *)
Definition sub64 (a b : N) : N := (a + two64 - b) mod two64.

(** picoquic/frames.c 1665-1678, the number of data bytes allowed. *)
Definition allowed_space (c : snd_cnx) (s : wstream) (space : N) : N :=
  let a := if sub64 (w_max s) (w_sent s) <? space then sub64 (w_max s) (w_sent s) else space in
  if sub64 (n_max c) (n_data_sent c) <? a then sub64 (n_max c) (n_data_sent c) else a.

(** picoquic/frames.c 1680-1751, active polling: [hdr] is the header, [r] the
    answer of the application. *)
Definition format_active (c : snd_cnx) (s : wstream) (hdr : list N) (room now : N) (r : reply) : fmt :=
  let space := room - blen hdr in
  let allowed := allowed_space c s space in
  match r with
  | ReplyError => FErr c true
  | ReplyNone => FOk (w_put c (w_set_fin s false (w_fin_req s) (w_fin_sent s))) [] [] true
  | ReplyData d fin still =>
    if allowed <? blen d then FOk (w_put c (w_set_fin s false (w_fin_req s) (w_fin_sent s))) [] [] true
    else if (blen d =? 0) && negb fin then
      FOk (w_put c (w_set_fin s still (w_fin_req s) (w_fin_sent s))) [] [] true
    else
      let pre := frame_prefix hdr space (blen d) fin in
      if room <? blen pre + blen d then FUb
      else
        let s1 := w_set_data s (w_sent s + blen d) (w_queue s) now in
        let it := IWrote (w_id s) d :: (if fin then [IFin (w_id s)] else []) ++
                  [IStream (w_id s) (w_sent s) fin d] in
        if fin then
          FOk (remove_output (n_add_sent (w_put c (w_set_fin s1 false true true)) (blen d)) (w_id s))
            (pre ++ d) it true
        else
          FOk (n_add_sent (w_put c (w_set_fin s1 still (w_fin_req s1) (w_fin_sent s1))) (blen d))
            (pre ++ d) it true
  end.

(** picoquic/frames.c 1753-1802, data queued by the application. *)
Definition format_queued (c : snd_cnx) (s : wstream) (hdr : list N) (room now : N) : fmt :=
  let space := room - blen hdr in
  let allowed := allowed_space c s space in
  let avail := match w_queue s with (d, o) :: _ => blen d - o | [] => 0 end in
  let len := if allowed <=? avail then allowed else avail in
  let d := match w_queue s with
           | (b, o) :: _ => firstn (N.to_nat len) (skipn (N.to_nat o) b)
           | [] => [] end in
  let q := if 0 <? len then
             match w_queue s with
             | (b, o) :: r => if blen b <=? o + len then r else (b, o + len) :: r
             | [] => [] end
           else w_queue s in
  let fin := match q with [] => w_fin_req s | _ :: _ => false end in
  let pre := frame_prefix hdr space len fin in
  if room <? blen pre + len then FUb
  else
    let s1 := if 0 <? len then w_set_data s (w_sent s + len) q now else s in
    let c1 := n_add_sent (w_put c (w_set_fin s1 (w_active s1) (w_fin_req s1) (w_fin_sent s1 || fin))) len in
    match q with
    | [] => FOk c1 (pre ++ d) [IStream (w_id s) (w_sent s) fin d] false
    | _ :: _ =>
      if len =? 0 then FOk c1 [] [] false
      else FOk c1 (pre ++ d) [IStream (w_id s) (w_sent s) fin d] false
    end.

(** picoquic/frames.c 1632-1822, picoquic_format_stream_frame.  The receive-side
    credit update (1743, 1793) and the deletion of closed streams (1809) are
    left out. *)
Definition format_stream (c : snd_cnx) (s : wstream) (room now : N) (r : reply) : fmt :=
  if above_limit c (w_id s) then FNull
  else if w_rst_sent s then FOk c [] [] false
  else if w_rst_req s then
    match reset_writer (w_id s) (w_err s) (w_sent s) room with
    | Some b =>
      let s1 := w_set_rst s true true (w_err s) in
      let s2 := w_set_fin s1 (w_active s1) (w_fin_req s1) true in
      FOk (w_put c (w_set_data s2 (w_sent s) [] (w_last s))) b [IReset (w_id s) (w_err s) (w_sent s)] false
    | None => FOk c [] [] false
    end
  else if w_stop_req s && negb (w_stop_sent s) then
    if w_rcv_end s then FOk (w_put c (w_set_stop s true true (w_stop_err s))) [] [] false
    else
      match stop_writer (w_id s) (w_stop_err s) room with
      | Some b => FOk (w_put c (w_set_stop s true true (w_stop_err s))) b [IStop (w_id s) (w_stop_err s)] false
      | None => FOk c [] [] false
      end
  else if negb (w_active s) && negb (queue_ready s) && (negb (w_fin_req s) || w_fin_sent s) then FOk c [] [] false
  else
    match stream_frame_header (w_id s) (w_sent s) room with
    | None => FOk c [] [] false
    | Some hdr =>
      if w_active s && (match w_queue s with [] => true | _ => false end) && negb (w_fin_req s)
      then format_active c s hdr room now r
      else format_queued c s hdr room now
    end.

(** Outcome of the packet filling loop; [LMore] is the exhaustion of the fuel. *)
Inductive loop_result :=
| LDone (c : snd_cnx) (bytes : list N) (items : list item) (ok : bool)
| LNull (c : snd_cnx) (items : list item)
| LMore
| LUb.

(** picoquic/frames.c 1829-1863, the loop of
    picoquic_format_available_stream_frames.  [pos] is [Some room], or [None]
    when bytes_next is NULL: then [bytes_next < bytes_max] holds and any write
    goes through the null pointer.  [asks] numbers the calls to the
    application. *)
Fixpoint fill_loop (fuel : nat) (c : snd_cnx) (stream : option wstream) (pos : option N)
    (bytes : list N) (items : list item) (asks : nat) (now prio : N) (app : nat -> reply) : loop_result :=
  match fuel with
  | O => LMore
  | S fuel' =>
    let finish := match pos with Some _ => LDone c bytes items true | None => LNull c items end in
    match stream with
    | None => finish
    | Some s =>
      if (w_prio s <=? prio) && (match pos with Some room => 0 <? room | None => true end) then
        match pos with
        | None =>
          if above_limit c (w_id s) then
            let '(c', st') := find_ready c in
            fill_loop fuel' c' st' None bytes items asks now prio app
          else LUb
        | Some room =>
          match format_stream c s room now (app asks) with
          | FUb => LUb
          | FErr c' _ => LDone c' bytes items false
          | FNull =>
            let '(c', st') := find_ready c in
            fill_loop fuel' c' st' None bytes items asks now prio app
          | FOk c' b its asked =>
            let '(c'', st') := find_ready c' in
            let room' := room - blen b in
            match st' with
            | Some _ =>
              if room' <=? 17 then LDone c'' (bytes ++ b) (items ++ its) true
              else fill_loop fuel' c'' st' (Some room') (bytes ++ b) (items ++ its)
                     (if asked then S asks else asks) now prio app
            | None =>
              fill_loop fuel' c'' st' (Some room') (bytes ++ b) (items ++ its)
                (if asked then S asks else asks) now prio app
            end
          end
        end
      else finish
    end
  end.
Definition fill (fuel : nat) (c : snd_cnx) (room now prio : N) (app : nat -> reply) : loop_result :=
  let '(c', st) := find_ready c in
  fill_loop fuel c' st (Some room) [] [] 0 now prio app.

(** Everything that changes the sending state: start of the client with
    remembered parameters; transport parameters and frames of the peer;
    application calls; deletion of a stream whose sending side is over
    (frames.c 133-149); and filling of a packet. *)
Inductive sev :=
| SStart (cr : credits) (maxdata sb su : N)
| STransport (l : list (tp * N))
| SMaxData (v : N)
| SMaxStreamData (id v : N)
| SMaxStreams (uni : bool) (rank : N)
| SPeer (id : N)
| SRcvEnd (id : N)
| SStopRcvd (id : N)
| SAdd (id : N) (data : list N) (fin : bool)
| SActive (id : N) (active : bool)
| SPrio (id p : N)
| SReset (id err : N) (unacked : bool)
| SStop (id err : N) (reset_received : bool)
| SDelete (id : N)
| SFill (fuel : nat) (room now prio : N) (app : nat -> reply).

(** One event: the new state and the frames emitted; [None] when the filling
    loop does not end within the fuel, returns NULL or has undefined
    behaviour. *)
Definition snd_step (c : snd_cnx) (e : sev) : option (snd_cnx * list item) :=
  match e with
  | SStart cr m sb su => Some (start_client c cr m sb su, [])
  | STransport l => Some (recv_transport c l, [])
  | SMaxData v => Some (recv_max_data c v, [])
  | SMaxStreamData id v => Some (recv_max_stream_data c id v, [])
  | SMaxStreams uni rank => Some (recv_max_streams c uni rank, [])
  | SPeer id => Some (peer_stream c id, [])
  | SRcvEnd id =>
    Some (match w_lookup c id with Some s => w_put c (w_set_peer s (w_stop_rcvd s) true) | None => c end, [])
  | SStopRcvd id =>
    Some (match w_lookup c id with Some s => w_put c (w_set_peer s true (w_rcv_end s)) | None => c end, [])
  | SAdd id d fin => Some (add_to_stream c id d fin)
  | SActive id b => Some (mark_active c id b, [])
  | SPrio id p => Some (set_priority c id p, [])
  | SReset id err u => Some (app_reset c id err u, [])
  | SStop id err r => Some (app_stop c id err r, [])
  | SDelete id =>
    Some (match w_lookup c id with
          | Some s =>
            if (w_fin_req s && w_fin_sent s) || (w_rst_req s && w_rst_sent s)
            then n_set_streams c (filter (fun x => negb (w_id x =? id)) (n_streams c))
                   (filter (fun x => negb (x =? id)) (n_out c))
            else c
          | None => c end, [])
  | SFill fuel room now prio app =>
    match fill fuel c room now prio app with
    | LDone c' _ items _ => Some (c', items)
    | _ => None
    end
  end.

(** A history: the final state and all the frames, in order. *)
Fixpoint snd_run (c : snd_cnx) (l : list sev) : option (snd_cnx * list item) :=
  match l with
  | [] => Some (c, [])
  | e :: r =>
    match snd_step c e with
    | None => None
    | Some (c1, i1) =>
      match snd_run c1 r with
      | None => None
      | Some (c2, i2) => Some (c2, i1 ++ i2)
      end
    end
  end.

(** A new connection: quicctx.c 3901-3903 for next_stream_id, zero limits from
    the initial memset (quicctx.c 3840) until the parameters are known. *)
Definition snd0 (client : bool) (prio0 : N) : snd_cnx :=
  mk_snd client [] [] (fun t => t) 0 0 0 0 (mk_cr 0 0 0) prio0.
