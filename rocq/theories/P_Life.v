(** C54: how connections end. *)
From Verif Require Import Base Life_model Life_spec Life_proofs Life2_proofs Life3_proofs Life4_proofs.

(** Concrete events: a poll at time [t], with or without a packet to send. *)
Definition at_ (t : N) : lev := LPoll (mk_seg t true true NextState) 100000 max64.
Definition idle_at (t : N) : lev := LPoll (mk_seg t false false SameState) 100000 max64.
Definition conf0 : lconf := mk_lc 30000000 30000.
(** A client handshake, and a client that is ready; estimates: timer 100 ms, smoothed
    RTT 50 ms, minimum 40 ms, idle timeout 10 s. *)
Definition handshake0 : list lev :=
  [at_ 1000; LPacket (mk_pk EInitial [FOther true] TNone false) false 51000;
   LPacket (mk_pk EHandshake [FOther true] TDone false) false 52000; LKeys true true].
Definition ready0 : list lev :=
  handshake0 ++ [at_ 53000; LPacket (mk_pk EOne [FDone] TNone false) false 103000; LPath 100000 50000 40000 10000000].
Definition cl0 : life := life0 true 1000.
Definition client_ready : life := fst (lrun conf0 cl0 ready0).
(** The same, with a close requested by the application at 200 ms, and the close sent. *)
Definition client_closing : life := fst (lrun conf0 client_ready [LCall (AClose 77) 200000; at_ 200001]).
Definition plain (t : N) : lev := LPacket (mk_pk EOne [FOther true] TNone false) true t.
(** A server: the Initial packet of the client, then its own flight is sent. *)
Definition sv0 : life := life0 false 1000.
Definition initial0 : lev := LPacket (mk_pk EInitial [FOther true] TDone false) false 1000.

(** From the moment a connection is being closed, whatever happens, its state only
    goes forward: disconnecting, closing, draining, disconnected. *)
Theorem C54_forward : forall c l x, down (li_st x) = true -> later (li_st x) (li_st (fst (lrun c x l))) = true.
Proof. exact forward. Qed.
Print Assumptions C54_forward.

Example C54_forward_ex :
  li_st client_ready = Ready /\ down (li_st (fst (lrun conf0 client_ready [LCall (AClose 77) 200000]))) = true /\
  li_st client_closing = Closing /\
  li_st (fst (lrun conf0 client_closing [LPacket (mk_pk EOne [FClose 0] TNone false) true 250000])) = Disconnected /\
  li_st (fst (lrun conf0 client_closing [plain 250000; LError 3 4; LCall (AClose 5) 251000])) = Closing.
Proof. repeat split; vm_compute; reflexivity. Qed.

(** Nothing is sent in draining, or once disconnected. *)
Theorem C54_quiet : forall c l x, later Draining (li_st x) = true ->
  Forall (fun o => is_sent o = false) (snd (lrun c x l)).
Proof. exact quiet. Qed.
Print Assumptions C54_quiet.

Example C54_quiet_ex :
  let x := fst (lrun conf0 client_ready [LCall AImmediate 200000]) in
  li_st x = Draining /\ snd (lrun conf0 x [at_ 200001; plain 210000; at_ 250000; at_ 600000; plain 700000; at_ 800000]) = [CbClose].
Proof. split; vm_compute; reflexivity. Qed.

(** A connection that closes sends at most one close packet, and one more for each
    1-RTT packet received. *)
Theorem C54_few : forall c l x, li_st x = Disconnecting \/ li_st x = Closing ->
  count is_sent (snd (lrun c x l)) <= 1 + count is_one_rtt l.
Proof. exact few_closing. Qed.
Print Assumptions C54_few.

Example C54_few_ex :
  let x := fst (lrun conf0 client_ready [LCall (AClose 77) 200000]) in
  let l := [at_ 200001; at_ 260000; plain 261000; at_ 262000; at_ 330000; plain 331000; plain 332000; at_ 400000; at_ 460000] in
  li_st x = Disconnecting /\ count is_sent (snd (lrun conf0 x l)) = 3 /\ count is_one_rtt l = 3.
Proof. repeat split; vm_compute; reflexivity. Qed.

(** Once the peer has closed, at most one packet is sent. *)
Theorem C54_one_reply : forall c l x, li_st x = ClosingReceived -> count is_sent (snd (lrun c x l)) <= 1.
Proof. exact few_received. Qed.
Print Assumptions C54_one_reply.

Example C54_one_reply_ex :
  let x := fst (lrun conf0 client_ready [LPacket (mk_pk EOne [FAppClose 9] TNone false) true 110000]) in
  li_st x = ClosingReceived /\
  snd (lrun conf0 x [at_ 110001; plain 111000; at_ 200000; plain 300000; at_ 800000]) = [SClose EOne 0 0; CbClose].
Proof. split; vm_compute; reflexivity. Qed.

(** Between two close packets there is at least the smoothed RTT, for times and RTT
    below 2^62 microseconds. *)
Theorem C54_spaced : forall c x e1 l e2 t1,
  (li_st x = Disconnecting \/ li_st x = Closing) -> small (li_smoothed x) -> small t1 -> at_time (eq t1) e1 ->
  Forall (at_time small) l -> at_time small e2 ->
  sends (snd (fst (lstep c x e1))) = true ->
  sends (snd (fst (lstep c (fst (lrun c x (e1 :: l))) e2))) = true ->
  at_time (fun t => t1 + li_smoothed x <= t) e2.
Proof. exact spaced. Qed.
Print Assumptions C54_spaced.

Example C54_spaced_ex :
  let x := fst (lrun conf0 client_ready [LCall (AClose 77) 200000]) in
  sends (snd (fst (lstep conf0 x (at_ 200001)))) = true /\
  sends (snd (fst (lstep conf0 (fst (lrun conf0 x [at_ 200001; plain 240000])) (at_ 250000)))) = false /\
  sends (snd (fst (lstep conf0 (fst (lrun conf0 x [at_ 200001; plain 240000; at_ 250000])) (at_ 250001)))) = true.
Proof. repeat split; vm_compute; reflexivity. Qed.

(** Closing and draining end: when the connection is polled three retransmission timers
    after the last progress, or later, it is disconnected, whatever was received in
    the meantime; unless the application called picoquic_close_immediate again. *)
Theorem C54_ends : forall c x l g rto others, (li_st x = Closing \/ li_st x = Draining) ->
  li_progress x + 3 * li_timer x < two64 ->
  Forall (fun e => immediate e = false) l -> li_progress x + 3 * li_timer x <= sg_now g ->
  li_st (fst (lrun c x (l ++ [LPoll g rto others]))) = Disconnected.
Proof. exact ends. Qed.
Print Assumptions C54_ends.

Example C54_ends_ex :
  li_progress client_closing + 3 * li_timer client_closing = 500001 /\
  li_st (fst (lrun conf0 client_closing ([plain 240000; plain 490000] ++ [idle_at 500000]))) = Closing /\
  li_st (fst (lrun conf0 client_closing ([plain 240000; plain 490000] ++ [idle_at 500001]))) = Disconnected.
Proof. repeat split; vm_compute; reflexivity. Qed.

(** The connection asks to be polled no later than that time: at once after the first
    close packet, then at most at the end of the period. *)
Theorem C54_wake : forall c x g rto others, down (li_st x) = true -> li_progress x + 3 * li_timer x < two64 ->
  match lstep c x (LPoll g rto others) with
  | (x', _, Some w) =>
    li_st x' = Disconnected \/
    match li_st x with
    | Disconnecting | ClosingReceived => w = sg_now g
    | _ => w <= li_progress x' + 3 * li_timer x'
    end
  | _ => False
  end.
Proof. exact wake. Qed.
Print Assumptions C54_wake.

Example C54_wake_ex :
  snd (lstep conf0 client_closing (idle_at 210000)) = Some 500001 /\
  snd (lstep conf0 client_closing (idle_at 260000)) = Some 310000 /\
  snd (lstep conf0 client_closing (idle_at 490000)) = Some 500001.
Proof. repeat split; vm_compute; reflexivity. Qed.

(** The closing period is not cut short: until that time, or the idle timeout if it
    comes before, nothing but a close frame, a stateless reset, a deletion or
    picoquic_close_immediate ends it. *)
Theorem C54_holds : forall c x l T, li_st x = Closing -> small (li_receive x) -> small T ->
  li_progress x + 3 * li_timer x < two64 ->
  T <= li_progress x + 3 * li_timer x -> T <= li_receive x + li_idle x ->
  Forall (fun e => abrupt e = false /\ sane_rto e /\ at_time (fun t => li_receive x <= t /\ t < T) e) l ->
  li_st (fst (lrun c x l)) = Closing.
Proof. exact holds. Qed.
Print Assumptions C54_holds.

Example C54_holds_ex :
  let l := [plain 240000; at_ 260000; LError 5 6; LCall (AClose 3) 270000; plain 280000; idle_at 400000; at_ 500000] in
  Forall (fun e => abrupt e = false /\ sane_rto e /\ at_time (fun t => li_receive client_closing <= t /\ t < 500001) e) l /\
  li_st (fst (lrun conf0 client_closing l)) = Closing.
Proof. split; [repeat constructor; vm_compute; try reflexivity; discriminate | vm_compute; reflexivity]. Qed.

(** The idle timer of a connection that is ready: it ends the connection when nothing
    was received for the idle timeout, or three retransmission timers if that is more,
    and not before; and the connection asks to be polled by then. *)
Theorem C54_idle : forall c x g rto others, li_st x = Ready -> rto < 1152921504606846976 -> small (li_receive x) ->
  sg_now g < max64 ->
  let limit := li_receive x + N.max (li_idle x) (3 * rto) in
  match lstep c x (LPoll g rto others) with
  | (x', o, Some w) =>
    (limit <= sg_now g -> li_st x' = Disconnected /\ li_err x' = 1075 /\ o = [CbClose]) /\
    (sg_now g < limit -> li_st x' = Ready /\ li_err x' = li_err x /\ (w <= N.max (sg_now g) limit))
  | _ => False
  end.
Proof. exact idle_poll. Qed.
Print Assumptions C54_idle.

Example C54_idle_ex :
  li_receive client_ready = 103000 /\
  li_st (fst (lrun conf0 client_ready [idle_at 10102999])) = Ready /\
  snd (lstep conf0 client_ready (idle_at 5000000)) = Some 10103000 /\
  lrun conf0 client_ready [idle_at 10103000] =
    (set_st (set_err client_ready 1075) Disconnected, [CbClose]).
Proof. repeat split; vm_compute; reflexivity. Qed.

(** The idle timeout is the smaller of the two announced, zero meaning none, as long
    as they fit in 64 bits when counted in microseconds. *)
Theorem C54_idle_agreed : forall local remote, local < 18446744073709551 -> remote < 18446744073709551 ->
  negotiated_idle local remote = match agreed local remote with Some t => t | None => max64 end.
Proof. exact negotiated. Qed.
Print Assumptions C54_idle_agreed.

Example C54_idle_agreed_ex :
  negotiated_idle 30000 20000 = 20000000 /\ negotiated_idle 0 20000 = 20000000 /\ negotiated_idle 0 0 = max64.
Proof. repeat split; vm_compute; reflexivity. Qed.

(** FINDING: they do not have to fit.  When the local timeout is disabled, a peer that
    announces 18446744073709552 ms (584 million years) gets an idle timeout of 384
    microseconds (transport.c 852), that is, of three retransmission timers. *)
Theorem C54_idle_agreed_refuted : exists remote, remote < two62 /\
  agreed 0 remote = Some 18446744073709552000 /\ negotiated_idle 0 remote = 384.
Proof. exists 18446744073709552. repeat split; vm_compute; reflexivity. Qed.
Print Assumptions C54_idle_agreed_refuted.

(** The callback picoquic_callback_close is made at most once, and so is
    picoquic_callback_application_close; the close callback is made when the state
    becomes disconnected; a connection becomes disconnected only with one of the two.
    For packets with at most one close frame each. *)
Theorem C54_callbacks : forall c l x, Forall one_close l ->
  let x' := fst (lrun c x l) in let o := snd (lrun c x l) in
  (li_st x = Disconnected -> count is_cb_close o = 0 /\ count is_cb_app o = 0 /\ li_st x' = Disconnected) /\
  (down (li_st x) = true -> count is_cb_app o = 0) /\
  (li_st x <> Disconnected ->
    count is_cb_close o <= 1 /\ count is_cb_app o <= 1 /\
    (count is_cb_close o = 1 -> li_st x' = Disconnected) /\
    (li_st x' = Disconnected -> count is_cb_close o = 1 \/ count is_cb_app o = 1)).
Proof. exact callbacks. Qed.
Print Assumptions C54_callbacks.

Example C54_callbacks_ex :
  let l := ready0 ++ [LPacket (mk_pk EOne [FOther true; FAppClose 9; FOther true] TNone false) true 110000; at_ 110001; at_ 800000; LDelete] in
  Forall one_close l /\
  snd (lrun conf0 cl0 l) = [SData; SData; CbAppClose; SClose EOne 0 0; CbClose] /\
  li_st (fst (lrun conf0 cl0 l)) = Disconnected.
Proof. split; [repeat constructor; vm_compute; discriminate | split; vm_compute; reflexivity]. Qed.

(** FINDING: a second close frame in the same packet brings a disconnected connection
    back.  A client that has just finished the handshake receives two CONNECTION_CLOSE
    frames in one 1-RTT packet: the first disconnects (frames.c 4150) and calls the
    application; the second finds a state that is not less than client_ready_start and
    moves it to closing_received.  The connection then sends a packet, drains, and makes
    the close callback again. *)
Theorem C54_two_closes_refuted : exists l,
  let r := lrun conf0 cl0 (handshake0 ++ [LPacket (mk_pk EOne [FClose 0; FClose 0] TNone false) true 100000]) in
  li_st (fst r) = ClosingReceived /\ count is_cb_close (snd r) = 1 /\
  snd (lrun conf0 (fst r) l) = [SClose EOne 0 0; CbClose].
Proof. exists [at_ 100001; at_ 5000000]. repeat split; vm_compute; reflexivity. Qed.
Print Assumptions C54_two_closes_refuted.

(** FINDING: an application close received before the client is ready, or while the
    server waits for the end of the handshake, disconnects without the close callback. *)
Theorem C54_no_close_callback_refuted : exists l, Forall one_close l /\
  li_st (fst (lrun conf0 cl0 l)) = Disconnected /\ snd (lrun conf0 cl0 l) = [SData; CbAppClose].
Proof.
  exists (handshake0 ++ [LPacket (mk_pk EOne [FAppClose 3] TNone false) true 100000; LDelete]).
  split; [repeat constructor; vm_compute; discriminate | split; vm_compute; reflexivity].
Qed.
Print Assumptions C54_no_close_callback_refuted.

(** FINDING: a stateless reset received after the end makes one more callback
    (packet.c 1800): the state is not tested. *)
Theorem C54_reset_after_close_refuted : exists l x,
  x = fst (lrun conf0 client_ready l) /\ li_st x = Disconnected /\ snd (lrun conf0 x [LReset; LReset]) = [CbReset; CbReset].
Proof. exists [LReset]. eexists. split; [reflexivity |]. split; vm_compute; reflexivity. Qed.
Print Assumptions C54_reset_after_close_refuted.

(** A handshake that failed, or that was closed, stays so until the connection ends:
    at a client always, at a server when no packet completes it afterwards. *)
Theorem C54_no_way_back : forall c l x, li_client x = true \/ no_revival c x l ->
  failed (li_st x) = true -> failed (li_st (fst (lrun c x l))) = true \/ down (li_st (fst (lrun c x l))) = true.
Proof. exact stays_over. Qed.
Print Assumptions C54_no_way_back.

Example C54_no_way_back_ex :
  let x := fst (lrun conf0 cl0 [at_ 1000; LPacket (mk_pk EInitial [FError 10 8] TNone false) false 51000]) in
  let l := [LPacket (mk_pk EHandshake [FOther true] TDone true) false 52000; LKeys true true; at_ 53000; at_ 54000] in
  li_st x = HandshakeFailure /\ li_st (fst (lrun conf0 x l)) = Disconnected /\
  snd (lrun conf0 x l) = [CbClose; SClose EHandshake 10 8].
Proof. repeat split; vm_compute; reflexivity. Qed.

(** FINDING: at a server it can come back to life.  The server requires client
    certificates, has sent its flight and is in server_handshake; the application calls
    picoquic_close; before the connection is polled, the packet with the client's
    Finished arrives: picoquic_incoming_client_handshake (packet.c 1738, 1765) tests
    only that the state is below ready and moves to ready.  The connection stays open
    and the request to close is lost. *)
Theorem C54_revival_refuted : exists l x,
  x = fst (lrun conf0 sv0 [initial0; LKeys false true; at_ 1001; LCall (AClose 77) 2000]) /\
  li_st x = HandshakeFailure /\ li_st (fst (lrun conf0 x l)) = Ready /\
  Forall (fun o => match o with SClose _ _ _ => False | SAppClose _ _ => False | _ => True end) (snd (lrun conf0 x l)).
Proof.
  exists [LPacket (mk_pk EHandshake [FOther true] TDone true) false 2001; LKeys true true; at_ 2002; at_ 3000].
  eexists. split; [reflexivity |]. split; [vm_compute; reflexivity |]. split; [vm_compute; reflexivity |].
  vm_compute. repeat constructor.
Qed.
Print Assumptions C54_revival_refuted.

(** An error found while the connection is in use: every packet sent from then on is a
    close packet with that error code, whatever happens later. *)
Theorem C54_error_told : forall c x e f l, running (li_st x) = true -> 0 < e -> e <= 1024 ->
  Forall (says e) (snd (lrun c x (LError e f :: l))).
Proof. exact error_told. Qed.
Print Assumptions C54_error_told.

Example C54_error_told_ex :
  snd (lrun conf0 client_ready [LError 7 8; LError 9 10; at_ 200000; LCall (AClose 5) 200001; plain 200002; at_ 260000; at_ 600000])
    = [SClose EOne 7 10; SClose EOne 7 0; CbClose].
Proof. vm_compute. reflexivity. Qed.

(** FINDING: the frame type given with the error is that of the last error, or of the
    last call of picoquic_close, even if they were ignored (quicctx.c 4720, sender.c
    4107 assign it in all cases). *)
Theorem C54_frame_type_refuted : exists l,
  Forall (fun e => match e with LError _ _ => False | _ => True end) l /\
  snd (lrun conf0 client_ready (LError 7 8 :: l)) = [SClose EOne 7 0].
Proof.
  exists [LCall (AClose 5) 200000; at_ 200001]. split; [repeat constructor |]. vm_compute. reflexivity.
Qed.
Print Assumptions C54_frame_type_refuted.

(** An error during the handshake: at most two packets are sent from then on, both
    with that error code; when the application makes no call. *)
Theorem C54_failure_told : forall c x e f l, in_handshake (li_st x) = true -> 0 < e -> e <= 1024 ->
  Forall (fun e => called e = false /\ one_close e) l -> li_client x = true \/ no_revival c x (LError e f :: l) ->
  Forall (says e) (snd (lrun c x (LError e f :: l))) /\ count is_sent (snd (lrun c x (LError e f :: l))) <= 2.
Proof. exact failure_told. Qed.
Print Assumptions C54_failure_told.

Example C54_failure_told_ex :
  let x := fst (lrun conf0 sv0 [initial0; LKeys false true; at_ 1001]) in
  let l := [at_ 2001; at_ 2002; at_ 2003] in
  in_handshake (li_st x) = true /\ Forall (fun e => called e = false /\ one_close e) l /\
  no_revival conf0 x (LError 7 6 :: l) /\
  snd (lrun conf0 x (LError 7 6 :: l)) = [SClose EInitial 7 6; CbClose; SClose EHandshake 7 6].
Proof.
  split; [vm_compute; reflexivity |]. split; [repeat constructor |].
  split; [cbn [no_revival completes]; repeat split; discriminate | vm_compute; reflexivity].
Qed.

(** FINDING: a call of picoquic_close replaces the error of a handshake that failed
    (sender.c 4099-4103): the peer is told APPLICATION_ERROR. *)
Theorem C54_error_replaced_refuted : exists l,
  let x := fst (lrun conf0 cl0 [at_ 1000]) in
  in_handshake (li_st x) = true /\ Forall one_close l /\
  snd (lrun conf0 x (LError 7 6 :: l)) = [CbClose; SClose EInitial 12 0].
Proof. exists [LCall (AClose 77) 2000; at_ 2001]. split; [vm_compute; reflexivity |]. split; [repeat constructor | vm_compute; reflexivity]. Qed.
Print Assumptions C54_error_replaced_refuted.

(** FINDING: an error found in state server_almost_ready is forgotten
    (quicctx.c 4700-4716 has no case for it).  A server that has processed the Initial
    packet of a client accepts a 0-RTT packet of the same datagram; a frame of it is
    refused with a flow control error, but the connection goes on and becomes ready. *)
Theorem C54_error_forgotten_refuted : exists l1 l2,
  let x := fst (lrun conf0 sv0 [initial0; LKeys false true]) in
  let y := fst (lrun conf0 x l1) in
  l1 = [LPacket (mk_pk EZero [FError 3 8] TNone false) false 1000] /\
  li_st y = ServerAlmostReady /\ li_frame y = 8 /\ li_err y = 0 /\
  li_st (fst (lrun conf0 y l2)) = Ready /\ snd (lrun conf0 y l2) = [SData].
Proof.
  exists [LPacket (mk_pk EZero [FError 3 8] TNone false) false 1000].
  exists [LPoll (mk_seg 1001 true true FalseStart) 100000 max64; LPacket (mk_pk EHandshake [FOther true] TNone true) false 50000].
  repeat split; vm_compute; reflexivity.
Qed.
Print Assumptions C54_error_forgotten_refuted.

(** The application closes a connection in use: every packet sent from then on is a
    close packet with the code of the application. *)
Theorem C54_close_told : forall c client t0 l1 code now l2,
  client = true \/ no_revival c (life0 client t0) l1 ->
  running (li_st (fst (lrun c (life0 client t0) l1))) = true ->
  Forall (app_says code) (snd (lrun c (fst (lrun c (life0 client t0) l1)) (LCall (AClose code) now :: l2))).
Proof. exact close_told_run. Qed.
Print Assumptions C54_close_told.

Example C54_close_told_ex :
  snd (lrun conf0 (fst (lrun conf0 cl0 ready0)) (LCall (AClose 77) 200000 :: [LError 5 6; at_ 200001; plain 240000; at_ 260000; at_ 600000]))
    = [SAppClose EOne 77; SAppClose EOne 77; CbClose].
Proof. vm_compute. reflexivity. Qed.

(** FINDING: draining does not always silence a connection.  When the application
    calls picoquic_close_immediate while frames are delivered, and the same packet
    contains a close frame, the state goes from draining to closing_received, and a
    close packet is sent, with an error code (2^64 - 1) that is no variable-length
    integer. *)
Theorem C54_draining_left_refuted : exists p,
  let x := fst (lrun conf0 client_ready [LPacket p true 200000]) in
  pk_frames p = [FCall AImmediate; FClose 0] /\ li_st x = ClosingReceived /\
  snd (lrun conf0 x [at_ 200001]) = [SClose EOne max64 0].
Proof. exists (mk_pk EOne [FCall AImmediate; FClose 0] TNone false). repeat split; vm_compute; reflexivity. Qed.
Print Assumptions C54_draining_left_refuted.

(** FINDING: draining after a close by the peer can have no duration.  It is measured
    from latest_progress_time, the time at which this end last sent data, not from the
    reception of the close (sender.c 2386): a connection that was only receiving is
    disconnected at once, and late packets find no connection. *)
Theorem C54_no_draining_refuted : exists x t,
  x = fst (lrun conf0 client_ready [LPacket (mk_pk EOne [FClose 0] TNone false) true t]) /\
  li_st (fst (lrun conf0 x [at_ t])) = Draining /\ snd (lrun conf0 x [at_ t; at_ t]) = [SClose EOne 0 0; CbClose].
Proof. eexists. exists 900000. split; [reflexivity |]. split; vm_compute; reflexivity. Qed.
Print Assumptions C54_no_draining_refuted.

(** FINDING: the idle timer replaces the error of a connection being closed
    (sender.c 3708), which the application reads in the close callback. *)
Theorem C54_idle_replaces_refuted : exists l,
  let x := fst (lrun conf0 client_ready [LError 7 8; at_ 10000000]) in
  li_st x = Closing /\ li_err x = 7 /\
  li_st (fst (lrun conf0 x l)) = Disconnected /\ li_err (fst (lrun conf0 x l)) = 1075.
Proof. exists [idle_at 10103000]. repeat split; vm_compute; reflexivity. Qed.
Print Assumptions C54_idle_replaces_refuted.
