(** Model of the reassembly of stream data (definitions only).

    The splay tree of received chunks is represented by its in-order sequence
    (see Splay_model.v and P_Splay.v for the tree itself): a chunk is its offset
    and its bytes. *)
From Verif Require Import Base.

(** picoquic/picoquic_internal.h 360-368, picoquic_stream_data_node_t: offset and
    bytes. *)
Definition chunk : Type := N * list N.
Definition c_off (c : chunk) : N := fst c.
Definition c_data (c : chunk) : list N := snd c.
Definition c_end (c : chunk) : N := c_off c + blen (c_data c).

(** Bytes [off, off+len[ of a buffer; [None] outside of the buffer (an
    out-of-bounds read in the C code). *)
Definition sub (d : list N) (off len : N) : option (list N) :=
  if off + len <=? blen d then Some (firstn (N.to_nat len) (skipn (N.to_nat off) d)) else None.

(** picosplay_find_previous in the chunk tree (picoquic/picosplay.c 165-186 with
    the comparison of offsets of picoquic/quicctx.c 3153-3157): last chunk whose
    offset is not above [x]. *)
Definition chunk_previous (tree : list chunk) (x : N) : option chunk :=
  hd_error (rev (filter (fun c => c_off c <=? x) tree)).

(** picosplay_next in the chunk tree (picoquic/picosplay.c 250-256): first chunk
    whose offset is above that of the given one. *)
Definition chunk_next (tree : list chunk) (x : N) : option chunk :=
  hd_error (filter (fun c => x <? c_off c) tree).

(** picosplay_insert in the chunk tree (picoquic/picosplay.c 102-138): after the
    chunks that are not above. *)
Fixpoint chunk_insert (c : chunk) (tree : list chunk) : list chunk :=
  match tree with
  | [] => [c]
  | x :: t => if c_off c <? c_off x then c :: tree else x :: chunk_insert c t
  end.

(** picoquic/frames.c 1091-1126, add_chunk_node when the allocation succeeds; the
    choice between copying the bytes and keeping the received packet is not
    visible here. *)
Definition add_chunk_node (tree : list chunk) (off : N) (d : list N) : list chunk :=
  chunk_insert (off, d) tree.

(** picoquic/frames.c 1159-1176: the loop over the chunks that follow; [begin] and
    [end_] are input_begin and input_end, [fdo] is frame_data_offset, [new] is
    new_data_available.  [None]: out of fuel or out-of-bounds read. *)
Fixpoint queue_loop (fuel : nat) (tree : list chunk) (begin end_ : N) (d : list N)
  (fdo : N) (next : option chunk) (new : bool) : option (list chunk * N * bool) :=
  match fuel with
  | O => None
  | S n =>
    match next with
    | None => Some (tree, fdo, new)
    | Some nx =>
      if (fdo <? end_) && (c_off nx <? end_) then
        let chunk_len := if fdo <? c_off nx then c_off nx - fdo else 0 in
        if 0 <? chunk_len then
          match sub d (fdo - begin) chunk_len with
          | None => None
          | Some b =>
            let tree' := add_chunk_node tree fdo b in
            queue_loop n tree' begin end_ d (c_end nx) (chunk_next tree' (c_off nx)) true
          end
        else queue_loop n tree begin end_ d (c_end nx) (chunk_next tree (c_off nx)) new
      else Some (tree, fdo, new)
    end
  end.

(** picoquic/frames.c 1129-1188, picoquic_queue_network_input: the new tree and
    new_data_available. *)
Definition queue_network_input (tree : list chunk) (consumed : N) (off : N) (d : list N)
  : option (list chunk * bool) :=
  let begin := off in
  let end_ := off + blen d in
  let fdo := if off <? consumed then consumed else off in
  if fdo <? end_ then
    let prev := chunk_previous tree fdo in
    let fdo' := match prev with
                | Some p => if c_end p <? fdo then fdo else c_end p
                | None => fdo
                end in
    let next := match prev with Some p => chunk_next tree (c_off p) | None => hd_error tree end in
    match queue_loop (S (length tree)) tree begin end_ d fdo' next false with
    | None => None
    | Some (tree', fdo'', new) =>
      if fdo'' <? end_ then
        match sub d (fdo'' - begin) (end_ - fdo'') with
        | None => None
        | Some b => Some (add_chunk_node tree' fdo'' b, true)
        end
      else Some (tree', new)
    end
  else Some (tree, false).

(** Receiving half of a stream, picoquic/picoquic_internal.h 803-849:
    fin_received, fin_signalled, reset_received, reset_signalled,
    consumed_offset, fin_offset, maxdata_local, stream_data_tree. *)
Record rx := mk_rx {
  rx_fin_received : bool; rx_fin_signalled : bool;
  rx_reset_received : bool; rx_reset_signalled : bool;
  rx_consumed : N; rx_fin_offset : N; rx_maxdata : N; rx_chunks : list chunk }.

(** A call to the application: the bytes passed and whether the event is
    picoquic_callback_stream_fin. *)
Definition piece : Type := list N * bool.

(** picoquic/frames.c 1051-1064, first part of
    picoquic_stream_data_chunk_callback: the update of the stream and the
    call, if needed. *)
Definition chunk_callback (r : rx) (d : list N) : rx * list piece :=
  let consumed := rx_consumed r + blen d in
  let fin_now := (rx_fin_offset r <=? consumed) && rx_fin_received r && negb (rx_fin_signalled r) in
  (mk_rx (rx_fin_received r) (rx_fin_signalled r || fin_now) (rx_reset_received r) (rx_reset_signalled r)
         consumed (rx_fin_offset r) (rx_maxdata r) (rx_chunks r),
   if (0 <? blen d) || fin_now then [(d, fin_now)] else []).

(** Assignment of the chunk tree. *)
Definition set_chunks (r : rx) (t : list chunk) : rx :=
  mk_rx (rx_fin_received r) (rx_fin_signalled r) (rx_reset_received r) (rx_reset_signalled r)
        (rx_consumed r) (rx_fin_offset r) (rx_maxdata r) t.

(** picoquic/frames.c 1078-1085: delivery of the chunks that are in sequence. *)
Fixpoint drain (tree : list chunk) (r : rx) : rx * list piece :=
  match tree with
  | [] => (set_chunks r [], [])
  | c :: t =>
    if c_off c <=? rx_consumed r then
      let start := rx_consumed r - c_off c in
      if start <=? blen (c_data c) then
        let '(r1, p1) := chunk_callback r (skipn (N.to_nat start) (c_data c)) in
        let '(r2, p2) := drain t r1 in (r2, p1 ++ p2)
      else drain t r
    else (set_chunks r tree, [])
  end.

(** picoquic/frames.c 1074-1089, picoquic_stream_data_callback. *)
Definition data_callback (r : rx) : rx * list piece :=
  let '(r1, p1) := drain (rx_chunks r) r in
  let '(r2, p2) := chunk_callback r1 [] in
  (r2, p1 ++ p2).

(** picoquic/frames.c 1242-1273: delivery or queueing of the data of a frame, for
    a stream without direct receive function on a connection with a callback
    function.  [should_notify] is set on the first FIN (1219-1220). *)
Definition rx_input (r : rx) (off : N) (d : list N) (should_notify : bool) : option (rx * list piece) :=
  if off <=? rx_consumed r then
    if rx_consumed r <=? off + blen d then
      let '(r1, p1) := chunk_callback r (skipn (N.to_nat (rx_consumed r - off)) d) in
      let '(r2, p2) := data_callback r1 in
      Some (r2, p1 ++ p2)
    else Some (r, [])
  else
    match queue_network_input (rx_chunks r) (rx_consumed r) off d with
    | None => None
    | Some (t, new) =>
      let r1 := set_chunks r t in
      if should_notify || new then Some (data_callback r1) else Some (r1, [])
    end.
