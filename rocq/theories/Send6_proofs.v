(** Proofs about the sending side: histories after which the filling loop does
    not end, and other counter-examples. *)
From Verif Require Import Base Tac Varint_model Stream_model Send_model Send_spec Send_proofs Send2_proofs.

Lemma stuck c s room now prio app :
  find_ready c = (c, Some s) -> (w_prio s <=? prio) = true -> 17 < room ->
  (forall r, format_stream c s room now r = FOk c [] [] false) ->
  forall fuel bytes its asks, fill_loop fuel c (Some s) (Some room) bytes its asks now prio app = LMore.
Proof.
  intros Hf Hp Hr Hs. induction fuel as [| fuel IH]; intros bytes its asks; [reflexivity |].
  cbn [fill_loop]. cbv zeta. rewrite Hp. replace (0 <? room) with true by (symmetry; apply N.ltb_lt; lia).
  cbn [andb]. rewrite Hs, Hf. change (room - blen []) with (room - 0). rewrite N.sub_0_r.
  destruct (N.leb_spec room 17); [lia |]. apply IH.
Qed.

Lemma stuck_null c s prio now app :
  find_ready c = (c, Some s) -> (w_prio s <=? prio) = true -> above_limit c (w_id s) = true ->
  forall fuel bytes its asks, fill_loop fuel c (Some s) None bytes its asks now prio app = LMore.
Proof.
  intros Hf Hp Ha. induction fuel as [| fuel IH]; intros bytes its asks; [reflexivity |].
  cbn [fill_loop]. cbv zeta. rewrite Hp, Ha. cbn [andb]. rewrite Hf. apply IH.
Qed.

(** A client that got credits from its session ticket. *)
Definition ex_start : sev := SStart (mk_cr 1000 1000 1000) 10000 10 10.

(** A stream marked active is reset. *)
Definition hang_active : list sev := [ex_start; SActive 0 true; SReset 0 7 false].
(** A stream is discarded: both sides are asked to stop. *)
Definition hang_discard : list sev := [ex_start; SAdd 0 [1; 2; 3] false; SStop 0 7 false; SReset 0 7 false].
(** The peer lowers the number of streams below one already in use. *)
Definition hang_lower : list sev :=
  [ex_start; SAdd 4 [1; 2; 3] false; SFill 10 1200 0 18446744073709551615 (fun _ => ReplyNone);
   STransport [(TpMaxData, 10000); (TpStreamsBidi, 1); (TpBidiRemote, 1000)]; SAdd 4 [4] false].

Definition after (evs : list sev) : snd_cnx :=
  match snd_run (snd0 true 9) evs with Some (c, _) => c | None => snd0 true 9 end.

Definition hangs (evs : list sev) (room : N) : Prop :=
  exists c log, snd_run (snd0 true 9) evs = Some (c, log) /\
  forall fuel app, fill fuel c room 0 18446744073709551615 app = LMore.

Ltac first_turn :=
  eexists _, _; split; [vm_compute; reflexivity |]; intros fuel app; unfold fill;
  (destruct fuel as [| fuel]; [destruct (find_ready _); reflexivity |]);
  match goal with |- (let '(_, _) := ?x in _) = _ => let y := eval vm_compute in x in change x with y end;
  cbv iota beta.
Ltac one_turn :=
  cbn [fill_loop];
  match goal with |- context [format_stream ?c ?s ?room ?now ?r] =>
    let y := eval vm_compute in (format_stream c s room now r) in change (format_stream c s room now r) with y end;
  cbv iota beta zeta;
  match goal with |- context [find_ready ?c] => let y := eval vm_compute in (find_ready c) in change (find_ready c) with y end;
  cbv iota beta;
  try (match goal with |- context [?a - ?b] => let y := eval vm_compute in (a - b) in change (a - b) with y end;
       cbn [N.leb N.compare Pos.compare Pos.compare_cont]).

Lemma hangs_active : hangs hang_active 1200.
Proof. first_turn. one_turn. apply stuck; reflexivity. Qed.

Lemma hangs_discard : hangs hang_discard 1200.
Proof. first_turn. one_turn. apply stuck; reflexivity. Qed.

Lemma hangs_lower : hangs hang_lower 1200.
Proof. first_turn. one_turn. apply stuck_null; reflexivity. Qed.

(** An initial limit of zero unidirectional streams is read as no limit. *)
Definition zero_streams : list sev :=
  [STransport [(TpMaxData, 10000); (TpUni, 1000); (TpStreamsUni, 0)]; SAdd 2 [1] false;
   SFill 10 1200 0 18446744073709551615 (fun _ => ReplyNone)].
Lemma zero_streams_open : exists c log,
  snd_run (snd0 true 9) zero_streams = Some (c, log) /\ streams_announced true zero_streams = 0 /\
  In (IStream 2 0 false [1]) log.
Proof. eexists _, _. split; [vm_compute; reflexivity |]. split; [reflexivity |]. right. left. reflexivity. Qed.

(** No limit on bidirectional streams was announced: stream 0 is used. *)
Definition first_stream : list sev :=
  [STransport [(TpMaxData, 10000); (TpBidiRemote, 1000)]; SAdd 0 [1] false;
   SFill 10 1200 0 18446744073709551615 (fun _ => ReplyNone)].
Lemma first_stream_open : exists c log,
  snd_run (snd0 true 9) first_stream = Some (c, log) /\ streams_announced false first_stream = 0 /\
  In (IStream 0 0 false [1]) log.
Proof. eexists _, _. split; [vm_compute; reflexivity |]. split; [reflexivity |]. right. left. reflexivity. Qed.

(** Data is accepted after the end of the stream was sent, and leaves when the
    stream returns to the output list: two final sizes. *)
Definition after_fin : list sev :=
  [ex_start; SAdd 0 [1] true; SFill 10 1200 0 18446744073709551615 (fun _ => ReplyNone);
   SAdd 0 [2] false; SStop 0 7 false; SFill 10 1200 0 18446744073709551615 (fun _ => ReplyNone)].
Lemma after_fin_sent : exists c l1 l2,
  snd_run (snd0 true 9) after_fin = Some (c, l1 ++ l2) /\
  In (IStream 0 0 true [1]) l1 /\ In (IStream 0 1 true [2]) l2.
Proof.
  eexists _, [IWrote 0 [1]; IFin 0; IStream 0 0 true [1]], _.
  split; [vm_compute; reflexivity |]. split; cbn; auto.
Qed.
