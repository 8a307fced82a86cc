(** Property C41: a request to stop sending is not forgotten. *)
From Verif Require Import Base Stream_model Send_model Send_spec Stop_spec Send7_proofs.

(** After picoquic_stop_sending on a stream whose receiving side is open, whatever the
    application, the peer and the packets do, the frame has been sent with the code of
    the application or the stream is still scheduled for it. *)
Theorem C41_scheduled : forall c id err s evs c' log,
  w_lookup c id = Some s -> w_stop_req s = false -> w_stop_sent s = false -> w_rcv_end s = false ->
  above_limit c id = false -> forallb (undisturbed id) evs = true ->
  snd_run (app_stop c id err false) evs = Some (c', log) ->
  In (IStop id err) log \/ stop_waiting c' id err.
Proof. exact stop_never_forgotten. Qed.
Print Assumptions C41_scheduled.

(** When no stream listed before it has anything to send, and no reset was asked for,
    the next packet begins with it. *)
Theorem C41_sent : forall c id err s l1 l2 fuel room now prio app c' b its ok,
  stop_waiting c id err -> w_lookup c id = Some s -> w_rcv_end s = false ->
  w_rst_req s = false -> w_rst_sent s = false -> above_limit c id = false ->
  n_out c = l1 ++ id :: l2 -> Forall (nothing_to_send c) l1 ->
  id < 1073741824 -> err < 1073741824 -> 17 < room -> w_prio s <= prio ->
  fill fuel c room now prio app = LDone c' b its ok -> exists its', its = IStop id err :: its'.
Proof. exact stop_sent_next. Qed.
Print Assumptions C41_sent.

(** A stream that has sent its FIN and left the schedule; the application then asks the
    peer to stop. *)
Definition ex_before : list sev :=
  [STransport [(TpMaxData, 100); (TpBidiRemote, 60); (TpStreamsBidi, 5)];
   SAdd 0 [1; 2; 3] true; SAdd 4 [7; 8] false; SFill 100 1200 5 18446744073709551615 (fun _ => ReplyNone)].
Definition ex_stop_after : list sev :=
  [SPrio 0 3; SMaxData 200; SFill 100 10 6 18446744073709551615 (fun _ => ReplyNone)].
Example C41_ex : match snd_run (snd0 true 8) ex_before with
  | Some (c, _) =>
    n_out c = [4] /\ above_limit c 0 = false /\ forallb (undisturbed 0) ex_stop_after = true /\
    (exists s, w_lookup c 0 = Some s /\ w_stop_req s = false /\ w_stop_sent s = false /\ w_rcv_end s = false) /\
    n_out (app_stop c 0 9 false) = [0; 4] /\
    match snd_run (app_stop c 0 9 false) ex_stop_after with
    | Some (_, log) => log = [IStop 0 9] | None => False end
  | None => False end.
Proof. vm_compute. repeat split. eexists. repeat split. Qed.
