(** Properties C13, C37, C38, C39 and C40: the sending side of streams.

    A history is any sequence of events of [sev]: start with remembered
    parameters, transport parameters and frames of the peer, calls of the
    application, fillings of packets of any size with any answers of the
    application to the polling callback.  The second component of [snd_run] is
    the list of what was accepted from the application and of the frames put in
    packets, in order. *)
From Verif Require Import Base Varint_model Stream_model Frames_model Send_model Send_spec
  Send2_proofs Send3_proofs Send4_proofs Send5_proofs Send6_proofs.

(** The end of every STREAM frame is at most the largest limit announced for the
    stream.  (For a frame of the last event of the history, this is the largest
    limit announced before it.) *)
Theorem C13_stream_limit : forall cl p evs c log l1 id off fin d l2,
  snd_run (snd0 cl p) evs = Some (c, log) -> log = l1 ++ IStream id off fin d :: l2 ->
  off + blen d <= stream_announced cl id evs /\ off = blen (sent_bytes id l1).
Proof. exact stream_limit_respected. Qed.
Print Assumptions C13_stream_limit.

(** The total number of bytes sent is at most the largest connection limit
    announced. *)
Theorem C13_connection_limit : forall cl p evs c log,
  snd_run (snd0 cl p) evs = Some (c, log) -> total_sent log <= conn_announced evs.
Proof. exact conn_limit_respected. Qed.
Print Assumptions C13_connection_limit.

(** A client with 10 bytes of connection credit and 6 per stream; two streams, one
    of them polled; then more credit. *)
Definition ex_send : list sev :=
  [STransport [(TpMaxData, 10); (TpBidiRemote, 6); (TpStreamsBidi, 5)];
   SAdd 0 [1; 2; 3; 4; 5; 6; 7; 8] true; SActive 4 true;
   SFill 100 1200 5 18446744073709551615 (fun _ => ReplyData [21; 22; 23] false false);
   SActive 4 true;
   SMaxData 20; SMaxStreamData 0 7;
   SFill 100 1200 6 18446744073709551615 (fun _ => ReplyData [24] true false);
   SMaxStreamData 0 9; SMaxStreamData 0 3;
   SFill 100 1200 7 18446744073709551615 (fun _ => ReplyNone)].

Example C13_ex : match snd_run (snd0 true 8) ex_send with
  | Some (_, log) =>
    stream_announced true 0 ex_send = 9 /\ conn_announced ex_send = 20 /\ total_sent log = 12 /\
    sent_bytes 0 log = [1; 2; 3; 4; 5; 6; 7; 8] /\ sent_bytes 4 log = [21; 22; 23; 24] /\
    In (IStream 0 0 false [1; 2; 3; 4; 5; 6]) log /\ In (IStream 0 7 true [8]) log
  | None => False end.
Proof. vm_compute. repeat split; repeat first [left; reflexivity | right]. Qed.

(** ** C39: what is sent is what was written *)

(** The data of a STREAM frame is the next bytes accepted from the application;
    the FIN flag is only set on the last ones, after it was asked for (the
    exception is a stream of the peer on which nothing may be written). *)
Theorem C39_next_bytes : forall cl p evs c log l1 id off fin d l2,
  snd_run (snd0 cl p) evs = Some (c, log) -> log = l1 ++ IStream id off fin d :: l2 ->
  exists rest, wrote_bytes id l1 = sent_bytes id l1 ++ d ++ rest /\
    (fin = true -> rest = [] /\ (In (IFin id) l1 \/ (bidi id = false /\ mine cl id = false))).
Proof. exact sent_is_written. Qed.
Print Assumptions C39_next_bytes.

(** RESET_STREAM carries the number of bytes sent, and nothing follows it. *)
Theorem C39_reset : forall cl p evs c log l1 id e f l2,
  snd_run (snd0 cl p) evs = Some (c, log) -> log = l1 ++ IReset id e f :: l2 ->
  f = blen (sent_bytes id l1) /\ (forall off fin d, ~ In (IStream id off fin d) l2) /\
  (forall e' f', ~ In (IReset id e' f') l2).
Proof. exact reset_is_final. Qed.
Print Assumptions C39_reset.

Definition ex_reset : list sev :=
  [STransport [(TpMaxData, 10); (TpBidiRemote, 6); (TpStreamsBidi, 5)];
   SAdd 0 [1; 2; 3; 4; 5; 6; 7; 8] false;
   SFill 100 1200 5 18446744073709551615 (fun _ => ReplyNone); SReset 0 7 false; SMaxStreamData 0 100;
   SFill 100 1200 5 18446744073709551615 (fun _ => ReplyNone)].
Example C39_ex :
  match snd_run (snd0 true 8) ex_reset with
  | Some (_, log) => log = [IWrote 0 [1; 2; 3; 4; 5; 6; 7; 8]; IStream 0 0 false [1; 2; 3; 4; 5; 6]] ++ IReset 0 7 6 :: []
  | None => False end.
Proof. vm_compute. reflexivity. Qed.

(** Found: a write after the end of the stream is accepted, and may be sent; the
    peer then sees two final sizes. *)
Theorem C39_after_fin_refuted : exists c l1 l2,
  snd_run (snd0 true 9) after_fin = Some (c, l1 ++ l2) /\
  In (IStream 0 0 true [1]) l1 /\ In (IStream 0 1 true [2]) l2.
Proof. exact after_fin_sent. Qed.
Print Assumptions C39_after_fin_refuted.

(** ** C38: number of streams *)

(** Every stream that this endpoint opened and on which it sent a frame is within the
    number of streams announced, or is the first of its kind.  Missing: the first
    stream, and announcements of zero streams. *)
Theorem C38_stream_count_partial : forall cl p evs c log x id,
  forallb sane_counts evs = true -> snd_run (snd0 cl p) evs = Some (c, log) ->
  In x log -> item_id x = Some id -> mine cl id = true ->
  rank id <= N.max 1 (streams_announced (negb (bidi id)) evs).
Proof. exact opened_within_limit. Qed.
Print Assumptions C38_stream_count_partial.

Definition ex_count : list sev :=
  [STransport [(TpMaxData, 10000); (TpBidiRemote, 1000); (TpStreamsBidi, 2)];
   SAdd 8 [1] false; SAdd 4 [2] false; SFill 10 1200 0 18446744073709551615 (fun _ => ReplyNone);
   SMaxStreams false 3; SFill 10 1200 0 18446744073709551615 (fun _ => ReplyNone)].
Example C38_ex : forallb sane_counts ex_count = true /\
  match snd_run (snd0 true 9) ex_count with
  | Some (_, log) =>
    log = [IWrote 8 [1]; IWrote 4 [2]; IStream 4 0 false [2]; IStream 8 0 false [1]] /\
    streams_announced false ex_count = 3 /\ rank 8 = 3
  | None => False end.
Proof. vm_compute. repeat split. Qed.

(** Found: with initial_max_streams_uni = 0 the limit wraps and a stream is opened. *)
Theorem C38_zero_refuted : exists c log,
  snd_run (snd0 true 9) zero_streams = Some (c, log) /\ streams_announced true zero_streams = 0 /\
  In (IStream 2 0 false [1]) log.
Proof. exact zero_streams_open. Qed.
Print Assumptions C38_zero_refuted.

(** Found: without initial_max_streams_bidi a client still uses stream 0. *)
Theorem C38_absent_refuted : exists c log,
  snd_run (snd0 true 9) first_stream = Some (c, log) /\ streams_announced false first_stream = 0 /\
  In (IStream 0 0 false [1]) log.
Proof. exact first_stream_open. Qed.
Print Assumptions C38_absent_refuted.

(** ** C37: filling a packet ends *)

(** From any reachable state that is [calm], and for an application that provides
    something or gives up its turn, the loop ends within [room + 2 * streams + 2]
    turns, without a null pointer nor a write outside of the packet.  Missing: the
    states excluded by [calm], in some of which the loop does not end. *)
Theorem C37_ends_partial : forall cl p evs c log fuel room now prio app,
  snd_run (snd0 cl p) evs = Some (c, log) -> calm c -> (forall k, provides (app k)) -> room <= 16384 ->
  (N.to_nat room + 2 * length (n_streams c) + 2 <= fuel)%nat ->
  exists c' b i ok, fill fuel c room now prio app = LDone c' b i ok.
Proof. exact fill_ends. Qed.
Print Assumptions C37_ends_partial.

(** A state with a stream being polled, one with queued data, one reset and one
    stopped. *)
Definition ex_calm : list sev :=
  [STransport [(TpMaxData, 1000); (TpBidiRemote, 60); (TpStreamsBidi, 5); (TpStreamsUni, 5); (TpUni, 40)];
   SAdd 0 [1; 2; 3] true; SActive 4 true; SAdd 8 [7] false; SReset 8 7 false; SAdd 12 [9] false; SStop 12 7 false].
Example C37_ex : match snd_run (snd0 true 8) ex_calm with
  | Some (c, _) => calm c /\
    match fill 100 c 60 5 18446744073709551615 (fun _ => ReplyData [1; 2; 3; 4; 5] false true) with
    | LDone _ b i true => blen b = 43 /\ length (frames_of i) = 7%nat
    | _ => False end
  | None => False end.
Proof.
  destruct (snd_run (snd0 true 8) ex_calm) as [[c log] |] eqn:E; [| vm_compute in E; discriminate].
  vm_compute in E. injection E as <- _. split; [split; [vm_compute; reflexivity | split] | vm_compute; split; reflexivity].
  - cbn [n_streams]. repeat (apply Forall_cons; [repeat (split; [vm_compute; reflexivity |]); vm_compute; intros; first [discriminate | split; [reflexivity | discriminate]] |]).
    apply Forall_nil.
  - cbn [n_out In]. intros id H _. repeat destruct H as [<- | H]; [vm_compute; discriminate .. | destruct H].
Qed.

(** Found: marking a stream active and then resetting it makes the loop endless. *)
Theorem C37_reset_active_refuted : exists c log,
  snd_run (snd0 true 9) hang_active = Some (c, log) /\
  forall fuel app, fill fuel c 1200 0 18446744073709551615 app = LMore.
Proof. exact hangs_active. Qed.
Print Assumptions C37_reset_active_refuted.

(** Found: so does asking the peer to stop sending on a stream that is also reset,
    as picoquic_discard_stream does. *)
Theorem C37_discard_refuted : exists c log,
  snd_run (snd0 true 9) hang_discard = Some (c, log) /\
  forall fuel app, fill fuel c 1200 0 18446744073709551615 app = LMore.
Proof. exact hangs_discard. Qed.
Print Assumptions C37_discard_refuted.

(** Found: so does a server whose transport parameters lower the number of streams
    that the client already used with 0-RTT. *)
Theorem C37_lower_limit_refuted : exists c log,
  snd_run (snd0 true 9) hang_lower = Some (c, log) /\
  forall fuel app, fill fuel c 1200 0 18446744073709551615 app = LMore.
Proof. exact hangs_lower. Qed.
Print Assumptions C37_lower_limit_refuted.

(** ** C40: the receiver reads the frames that were meant *)

(** The bytes put in a packet by the filling loop fit, and any receiver that ignores
    padding, reading these bytes followed by anything that fits in the rest of the
    packet, processes exactly the frames of the log, in order, then the rest. *)
Theorem C40_wire : forall S (h : handlers S) o epoch, (epoch = 1 \/ epoch = 3) ->
  (forall s, h_frame h s RPadding = (s, true)) ->
  forall c fuel room now prio app c' bytes its ok tail,
  Forall encodable (n_streams c) -> room <= 16384 ->
  fill fuel c room now prio app = LDone c' bytes its ok ->
  blen bytes <= room /\ Forall encodable (n_streams c') /\
  (bytes_ok (bytes ++ tail) -> blen bytes + blen tail <= room ->
   forall s, decode_frames h o epoch s (bytes ++ tail) =
    match process h s (frames_of its) with
    | (s', true) => decode_frames h o epoch s' tail
    | (s', false) => (s', Some false)
    end).
Proof. exact fill_wire. Qed.
Print Assumptions C40_wire.

(** The state above, with a packet of 30 bytes. *)
Example C40_ex : match snd_run (snd0 true 8) ex_calm with
  | Some (c, _) => Forall encodable (n_streams c) /\
    match fill 100 c 30 5 18446744073709551615 (fun _ => ReplyData [1; 2; 3; 4; 5] false true) with
    | LDone _ b i true =>
      b = [4; 8; 7; 0; 5; 12; 7; 11; 0; 3; 1; 2; 3] /\
      frames_of i = [RReset 8 7 0; RStopSending 12 7; RStream 0 0 true [1; 2; 3]]
    | _ => False end
  | None => False end.
Proof.
  destruct (snd_run (snd0 true 8) ex_calm) as [[c log] |] eqn:E; [| vm_compute in E; discriminate].
  vm_compute in E. injection E as <- _. split; [| vm_compute; split; reflexivity].
  cbn [n_streams]. repeat (apply Forall_cons; [repeat split; vm_compute; reflexivity |]). apply Forall_nil.
Qed.
