(** Property C52: the stream scheduler serves streams by priority, fairly within a
    level, and forgets none. *)
From Coq Require Import Sorting.Sorted.
From Verif Require Import Base Stream_model Send_model Send_spec Sched_spec
  Sched2_proofs Sched3_proofs Sched4_proofs Sched5_proofs.

(** After any history the output list is sorted by priority then stream id, without
    duplicates, and lists existing streams only. *)
Theorem C52_sorted : forall cl p evs c log, snd_run (snd0 cl p) evs = Some (c, log) ->
  StronglySorted (before c) (n_out c) /\ NoDup (n_out c) /\
  forall i, In i (n_out c) -> exists s, w_lookup c i = Some s.
Proof. exact output_sorted. Qed.
Print Assumptions C52_sorted.

(** The stream chosen can send, and comes ahead of every listed stream that can. *)
Theorem C52_choice : forall cl p evs c log c' s,
  snd_run (snd0 cl p) evs = Some (c, log) -> find_ready c = (c', Some s) ->
  In (w_id s) (n_out c) /\ w_lookup c (w_id s) = Some s /\ sendable c s /\
  forall i t, In i (n_out c) -> w_lookup c i = Some t -> sendable c t -> ahead s t.
Proof. exact choice. Qed.
Print Assumptions C52_choice.

(** None is chosen only if no listed stream can send. *)
Theorem C52_none : forall cl p evs c log c',
  snd_run (snd0 cl p) evs = Some (c, log) -> find_ready c = (c', None) ->
  forall i t, In i (n_out c) -> w_lookup c i = Some t -> ~ sendable c t.
Proof. exact no_choice. Qed.
Print Assumptions C52_none.

(** A packet that carries a frame of some stream leaves nothing to send on any listed
    stream of a more urgent level. *)
Theorem C52_packet : forall cl p evs c log fuel room now prio app c' its x i s j t,
  snd_run (snd0 cl p) evs = Some (c, log) -> snd_step c (SFill fuel room now prio app) = Some (c', its) ->
  In x its -> item_id x = Some i -> w_lookup c' i = Some s -> In j (n_out c') -> w_lookup c' j = Some t ->
  w_prio t < w_prio s -> ~ sendable c' t.
Proof. exact packet_priority. Qed.
Print Assumptions C52_packet.

(** Round robin on even levels: the stream chosen for data is the one whose data was
    last sent the longest time ago, by the history of the packets. *)
Theorem C52_round_robin : forall cl p evs c log c' s i t,
  snd_run (snd0 cl p) evs = Some (c, log) -> find_ready c = (c', Some s) ->
  In i (n_out c) -> w_lookup c i = Some t -> sendable c t -> w_prio t = w_prio s -> N.odd (w_prio s) = false ->
  ~ control s -> w_fin_sent s = false -> w_fin_sent t = false ->
  let when id := served id (snd0 cl p) evs 0 in
  when (w_id s) < when i \/ (when (w_id s) = when i /\ w_id s <= i).
Proof. exact round_robin. Qed.
Print Assumptions C52_round_robin.

(** In a connection whose events come in order, each unfinished stream that the peer
    permits is listed. *)
Theorem C52_not_forgotten : forall cl p evs c log i s,
  connection_order cl evs -> snd_run (snd0 cl p) evs = Some (c, log) ->
  w_lookup c i = Some s -> unfinished s -> permitted c i -> In i (n_out c).
Proof. exact not_forgotten. Qed.
Print Assumptions C52_not_forgotten.

(** So if the scheduler returns no stream, no unfinished permitted stream of the
    connection can send. *)
Theorem C52_sends_if_any : forall cl p evs c log c' i s,
  connection_order cl evs -> snd_run (snd0 cl p) evs = Some (c, log) ->
  find_ready c = (c', None) -> w_lookup c i = Some s -> unfinished s -> permitted c i -> ~ sendable c s.
Proof. exact sends_if_any. Qed.
Print Assumptions C52_sends_if_any.

(** A client with a session ticket writes on streams 0 and 8, the latter above the
    remembered limit; a packet is sent before the parameters of the server arrive;
    then stream 12 is opened, MAX_STREAMS comes and levels are set. *)
Definition big : N := 18446744073709551615.
Definition sched_start : sev := SStart (mk_cr 1000 1000 1000) 10000 2 1.
Definition sched_early : list sev :=
  [SAdd 0 [1; 2; 3] false; SAdd 8 [6] true; SFill 100 1200 7 big (fun _ => ReplyNone)].
Definition sched_tp : list (tp * N) :=
  [(TpMaxData, 10000); (TpBidiRemote, 1000); (TpStreamsBidi, 2); (TpStreamsUni, 1)].
Definition sched_late : list sev := [SAdd 12 [7] false; SMaxStreams false 4; SPrio 12 4; SAdd 0 [8] false].
Definition sched_evs : list sev := (sched_start :: sched_early) ++ STransport sched_tp :: sched_late.
Definition sched_fill : sev := SFill 100 1200 9 big (fun _ => ReplyNone).

Example C52_not_forgotten_ex : connection_order true sched_evs /\
  match snd_run (snd0 true 6) sched_evs with
  | Some (c, log) =>
    n_out c = [12; 0; 4; 8] /\ permitted c 8 /\ (exists s, w_lookup c 8 = Some s /\ unfinished s) /\
    (exists l, log = l ++ [IWrote 12 [7]; IWrote 0 [8]] /\ In (IStream 0 0 false [1; 2; 3]) l)
  | None => False end.
Proof.
  split.
  - exists (sched_start :: sched_early), sched_tp, sched_late, 2, 1.
    split; [reflexivity |]. split; [reflexivity |]. split; [reflexivity |]. split.
    + exists (mk_cr 1000 1000 1000), 10000, 2, 1, sched_early.
      split; [reflexivity |]. split; [repeat constructor |]. left. repeat split; vm_compute; try reflexivity; discriminate.
    + repeat constructor.
  - vm_compute. split; [reflexivity |]. split; [intros _; discriminate |]. split.
    + eexists. split; [reflexivity |]. left. split; [reflexivity |]. split; [reflexivity |]. left. right. left.
      eexists _, _, _. split; reflexivity.
    + exists [IWrote 0 [1; 2; 3]; IWrote 8 [6]; IFin 8; IStream 0 0 false [1; 2; 3]]. cbn. split; [reflexivity | auto 6].
Qed.

(** Stream 12 is the most urgent; the packet then carries 8, served never, and 0,
    served at time 7; stream 4 is empty. *)
Example C52_choice_ex : match snd_run (snd0 true 6) sched_evs with
  | Some (c, _) =>
    (exists s, snd (find_ready c) = Some s /\ w_id s = 12) /\
    match snd_step c sched_fill with
    | Some (c', its) =>
      its = [IStream 12 0 false [7]; IStream 8 0 true [6]; IStream 0 3 false [8]] /\ n_out c' = [12; 0; 4] /\
      find_ready c' = (c', None)
    | None => False end
  | None => False end.
Proof. vm_compute. split; [eexists; split; reflexivity |]. repeat split. Qed.

(** The same with less room: the packet stops before stream 0, which then waits behind
    nothing more urgent. *)
Example C52_packet_ex : match snd_run (snd0 true 6) sched_evs with
  | Some (c, _) =>
    match snd_step c (SFill 100 24 9 big (fun _ => ReplyNone)) with
    | Some (c', its) => its = [IStream 12 0 false [7]; IStream 8 0 true [6]] /\
      exists s, snd (find_ready c') = Some s /\ w_id s = 0 /\ sendable c' s
    | None => False end
  | None => False end.
Proof.
  vm_compute. split; [reflexivity |]. eexists. split; [reflexivity |]. split; [reflexivity |]. right.
  split; [right; left; eexists _, _, _; split; reflexivity |]. repeat split; discriminate.
Qed.

(** Without stream 12: streams 8 and 0 have level 6 and data, 8 was never served. *)
Definition sched_rr : list sev :=
  (sched_start :: sched_early) ++ STransport sched_tp :: [SMaxStreams false 4; SAdd 0 [8] false].
Example C52_round_robin_ex : match snd_run (snd0 true 6) sched_rr with
  | Some (c, _) =>
    n_out c = [0; 4; 8] /\ served 0 (snd0 true 6) sched_rr 0 = 7 /\ served 8 (snd0 true 6) sched_rr 0 = 0 /\
    (exists s t, snd (find_ready c) = Some s /\ w_id s = 8 /\ w_lookup c 0 = Some t /\ sendable c t /\
       w_prio s = w_prio t /\ N.odd (w_prio s) = false /\ ~ control s /\ w_fin_sent s = false /\ w_fin_sent t = false)
  | None => False end.
Proof.
  vm_compute. split; [reflexivity |]. split; [reflexivity |]. split; [reflexivity |]. eexists _, _.
  split; [reflexivity |]. split; [reflexivity |]. split; [reflexivity |]. split.
  - right. split; [right; left; eexists _, _, _; split; reflexivity |]. repeat split; discriminate.
  - repeat split. intros [[H _] | [H _]]; discriminate.
Qed.

(** When the transport parameters of the peer carry no limit on the streams of a type
    (the default is zero) the first stream of that type, opened before MAX_STREAMS
    comes, is never listed: picoquic_add_output_streams starts from the second.  Here
    a server opens stream 1, the client then allows three streams: the stream is
    permitted and could send but the scheduler finds nothing. *)
Theorem C52_first_stream_refuted : exists evs c log s,
  snd_run (snd0 false 9) evs = Some (c, log) /\ w_lookup c 1 = Some s /\
  unfinished s /\ permitted c 1 /\ sendable c s /\ ~ In 1 (n_out c) /\ find_ready c = (c, None).
Proof. exact (ex_intro _ first_forgotten first_is_forgotten). Qed.
Print Assumptions C52_first_stream_refuted.

(** The end of a stream without further data is not sent when the credit is exactly
    used up, although an empty STREAM frame with the FIN bit needs none: the stream is
    listed and permitted, only its end is to be sent, and the scheduler finds nothing. *)
Theorem C52_end_refuted : exists evs, connection_order true evs /\ exists c log s,
  snd_run (snd0 true 9) evs = Some (c, log) /\ w_lookup c 0 = Some s /\ permitted c 0 /\ In 0 (n_out c) /\
  w_queue s = [] /\ w_fin_req s = true /\ w_fin_sent s = false /\ w_rst_req s = false /\
  find_ready c = (c, None).
Proof. exact (ex_intro _ end_blocked end_is_blocked). Qed.
Print Assumptions C52_end_refuted.
