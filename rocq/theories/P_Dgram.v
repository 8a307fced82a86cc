(** Property C67: datagrams that are sent, on request of the application or from the queue. *)
From Verif Require Import Base Varint_spec Varint_model Varint_proofs Frames_model Dgram_model Dgram_spec Dgram_proofs Dgramb_proofs.

(** Whatever the application asks for, any number of times in each callback, nothing is written outside
    of the packet, the loop ends, and what is added fits in the packet. *)
Theorem C67_safe : forall limit app m r, blen m < two62 ->
  exists bytes r', ready_loop (S (length m)) limit app 0 m r = LDone bytes r' /\ blen bytes <= blen m.
Proof. exact safe_thm. Qed.
Print Assumptions C67_safe.
Example C67_safe_ex : ready_loop 41 1200 (fun _ => mk_answer [(repeat 5 60, 1); (repeat 6 7, 3); ([], 1); (repeat 8 9, 1)] false) 0 (repeat 0 40) asks0 =
  LDone (49 :: 9 :: repeat 8 9 ++ 49 :: 9 :: repeat 8 9 ++ 49 :: 9 :: repeat 8 9) (mk_ready true false true false false).
Proof. vm_compute. reflexivity. Qed.

(** If it asks for one datagram at most in each callback, what is added is its datagrams, in order, each
    in a frame; a frame without length comes last and ends with the packet; no datagram is empty or
    longer than the limit of the peer; and the packet counts as more than an acknowledgement if and
    only if there is one. *)
Theorem C67_loop : forall limit app m r, blen m < two62 -> (forall i, length (an_calls (app i)) <= 1)%nat ->
  exists bytes r' e ds, ready_loop (S (length m)) limit app 0 m r = LDone bytes r' /\ blen bytes <= blen m /\
    dgrams e ds bytes /\ (e = true -> blen bytes = blen m) /\ (r_pure r' = match ds with [] => r_pure r | _ => false end) /\
    forall i d, nth_error ds i = Some d -> 0 < blen d <= limit /\ exists act, an_calls (app i) = [(d, act)].
Proof. exact loop_thm. Qed.
Print Assumptions C67_loop.
Example C67_loop_ex : (forall i, length (an_calls (app2 i)) <= 1)%nat /\
  ready_loop 92 1200 app2 0 (repeat 9 91) asks0 = LDone (49 :: 17 :: repeat 8 17 ++ 0 :: 48 :: repeat 6 70) (mk_ready true false true false false).
Proof. split; [intros [|i]; simpl; lia|]. vm_compute. reflexivity. Qed.

(** A datagram that the peer accepts and that leaves room for one byte is sent, if the packet has 17. *)
Theorem C67_sent : forall limit app m r data act, blen m < two62 -> r_cnx r || r_path r = true ->
  an_calls (app 0%nat) = [(data, act)] -> an_error (app 0%nat) = false -> 17 <= blen m -> 0 < blen data <= limit ->
  blen data < blen m ->
  exists bytes r', ready_loop (S (length m)) limit app 0 m r = LDone bytes r' /\ blen data < blen bytes.
Proof. exact sent_thm. Qed.
Print Assumptions C67_sent.
Example C67_sent_ex : ready_loop 21 19 (app1 (repeat 5 19) 0) 0 (repeat 9 20) asks0 = LDone (48 :: repeat 5 19) (mk_ready false false false false false).
Proof. vm_compute. reflexivity. Qed.

(** A peer that accepts their lengths is given the same datagrams, in the same order. *)
Theorem C67_peer : forall o epoch e ds bytes, epoch = 1 \/ epoch = 3 -> dgrams e ds bytes -> Forall bytes_ok ds ->
  Forall (fun d => blen d <= o_max_datagram o) ds -> decode_frames keeper o epoch [] bytes = (ds, Some true).
Proof. exact peer_thm. Qed.
Print Assumptions C67_peer.
Example C67_peer_ex : dgrams true [repeat 8 17; repeat 6 70] ((49 :: [17] ++ repeat 8 17) ++ repeat 0 1 ++ 48 :: repeat 6 70) /\
  decode_frames keeper (opt0 70) 3 [] (49 :: 17 :: repeat 8 17 ++ 0 :: 48 :: repeat 6 70) = ([repeat 8 17; repeat 6 70], Some true).
Proof.
  split; [|vm_compute; reflexivity]. constructor; [|constructor; constructor; lia].
  constructor. change (blen (repeat 8 17)) with 17. change [17] with (varint_bytes 17). apply varint_bytes_is_varint. reflexivity.
Qed.

(** A connection still ready after the loop has more_data set, unless the application failed. *)
Theorem C67_more : forall limit app m r bytes r', ready_loop (S (length m)) limit app 0 m r = LDone bytes r' ->
  r_cnx r' = true -> r_error r' = false -> r_more r' = true.
Proof. exact more_thm. Qed.
Print Assumptions C67_more.
Example C67_more_ex : ready_loop 92 1200 app2 0 (repeat 9 91) asks0 = LDone (49 :: 17 :: repeat 8 17 ++ 0 :: 48 :: repeat 6 70) (mk_ready true false true false false).
Proof. vm_compute. reflexivity. Qed.

(** A datagram of 1200 bytes at most is queued last, as a frame with its length; a longer one is
    refused. *)
Theorem C67_queue : forall data q, bytes_ok data ->
  (blen data <= 1200 -> exists f, queue_datagram data q = Some (q ++ [f]) /\ with_length data f /\ blen f <= blen data + 3) /\
  (1200 < blen data -> queue_datagram data q = None).
Proof. exact queue_thm. Qed.
Print Assumptions C67_queue.
Example C67_queue_ex : queue_datagram [1; 2; 3] [[49; 1; 9]] = Some [[49; 1; 9]; [49; 3; 1; 2; 3]] /\ queue_datagram (repeat 1 1201) [] = None.
Proof. split; vm_compute; reflexivity. Qed.

(** Whatever the room of the packets, the queued frames are sent whole, in order and once, each in a
    packet with room for it; the others stay in the queue. *)
Theorem C67_fifo : forall rooms q, Forall (fun f => f <> []) q ->
  let '(bs, q') := send_all rooms q in
  filter (fun l => match l with [] => false | _ => true end) bs ++ q' = q /\ length bs = length rooms /\
  forall i room b, nth_error rooms i = Some room -> nth_error bs i = Some b -> blen b <= room.
Proof. exact send_thm. Qed.
Print Assumptions C67_fifo.
Example C67_fifo_ex : send_all [4; 5; 2; 100] [[49; 3; 1; 2; 3]; [49; 1; 7]; [49; 1; 8]] = ([[]; [49; 3; 1; 2; 3]; []; [49; 1; 7]], [[49; 1; 8]]).
Proof. vm_compute. reflexivity. Qed.

(** While a frame is left in the queue, more_data is set. *)
Theorem C67_queue_more : forall room q more, let '(b, q', m) := send_queued room q more in q' <> [] -> m = true.
Proof. exact queue_more_thm. Qed.
Print Assumptions C67_queue_more.
Example C67_queue_more_ex : send_queued 5 [[49; 3; 1; 2; 3]; [49; 1; 7]] false = ([49; 3; 1; 2; 3], [[49; 1; 7]], true) /\
  send_queued 4 [[49; 3; 1; 2; 3]] false = ([], [[49; 3; 1; 2; 3]], true).
Proof. split; vm_compute; reflexivity. Qed.

(** FINDING: the limit of the peer is for the whole frame (RFC 9221, section 3) but it is compared with
    the length of the data: a frame longer than the peer accepts can be sent. *)
Theorem C67_limit_refuted : exists limit app m bytes r' data, blen m < two62 /\ (forall i, length (an_calls (app i)) <= 1)%nat /\
  ready_loop (S (length m)) limit app 0 m asks0 = LDone bytes r' /\ with_length data bytes /\ limit < blen bytes.
Proof. exact w_limit. Qed.
Print Assumptions C67_limit_refuted.

(** FINDING: queued datagrams are not compared with the limit of the peer at all: a peer that takes no
    datagrams closes the connection with FRAME_ENCODING_ERROR. *)
Theorem C67_queue_refuted : exists data f, queue_datagram data [] = Some [f] /\ fst (fst (send_queued 1200 [f] false)) = f /\
  decode_frames judge (opt0 0) 3 [] f = ([(7, 49)], Some false).
Proof. exact w_queue. Qed.
Print Assumptions C67_queue_refuted.

(** FINDING: an application that asks for a buffer twice in a callback, the first time for a datagram
    that takes the whole packet: the type of the frame is overwritten, and the peer is given the length
    as a part of the datagram. *)
Theorem C67_twice_refuted : exists m bytes r' d1 d2, blen m < two62 /\
  ready_loop (S (length m)) 1200 (fun k => match k with O => mk_answer [(d1, 0); (d2, 0)] false | _ => mk_answer [] false end) 0 m asks0 = LDone bytes r' /\
  decode_frames keeper (opt0 1200) 3 [] bytes = ([blen d2 :: d2], Some true).
Proof. exact w_twice. Qed.
Print Assumptions C67_twice_refuted.

(** FINDING: an application that lacks room and stays ready on this path only does not have more_data
    set, as it would if it were ready on any path (C67_more). *)
Theorem C67_path_refuted : exists m bytes r', blen m < two62 /\
  ready_loop (S (length m)) 1200 (fun _ => mk_answer [([], 2)] false) 0 m asks0 = LDone bytes r' /\
  r_path r' = true /\ r_error r' = false /\ r_more r' = false.
Proof. exact w_path. Qed.
Print Assumptions C67_path_refuted.

(** FINDING: a queued datagram of 1200 bytes, which is accepted, is never sent, and the ones behind it
    wait, while packets have at most 1200 bytes. *)
Theorem C67_stuck_refuted : exists data f, blen data = 1200 /\ queue_datagram data [] = Some [f] /\
  forall rooms, Forall (fun room => room <= 1200) rooms -> snd (send_all rooms [f]) = [f].
Proof. exact w_stuck. Qed.
Print Assumptions C67_stuck_refuted.
