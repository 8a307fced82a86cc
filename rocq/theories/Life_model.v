(** Model of the end of connections: closing by the application, by errors, by the
    peer, by stateless reset and by silence (definitions only). *)
From Verif Require Import Base.

(** picoquic/picoquic.h 165-186, picoquic_state_enum. *)
Inductive cstate :=
| ClientInit | ClientInitSent | ClientRenegotiate | ClientRetryReceived | ClientInitResent
| ServerInit | ServerHandshake | ClientHandshakeStart | HandshakeFailure | HandshakeFailureResend
| ClientAlmostReady | ServerFalseStart | ServerAlmostReady | ClientReadyStart | Ready
| Disconnecting | ClosingReceived | Closing | Draining | Disconnected.
(** The value of the enumeration constant. *)
Definition num (s : cstate) : N :=
  match s with
  | ClientInit => 0 | ClientInitSent => 1 | ClientRenegotiate => 2 | ClientRetryReceived => 3 | ClientInitResent => 4
  | ServerInit => 5 | ServerHandshake => 6 | ClientHandshakeStart => 7 | HandshakeFailure => 8 | HandshakeFailureResend => 9
  | ClientAlmostReady => 10 | ServerFalseStart => 11 | ServerAlmostReady => 12 | ClientReadyStart => 13 | Ready => 14
  | Disconnecting => 15 | ClosingReceived => 16 | Closing => 17 | Draining => 18 | Disconnected => 19
  end.

(** The part of picoquic_cnx_t (picoquic_internal.h 1295-1500) that closing uses,
    with one path (path[0]). *)
Record life := mk_life {
  li_client : bool;      (* client_mode *)
  li_st : cstate;        (* cnx_state *)
  li_err : N;            (* local_error *)
  li_aerr : N;           (* application_error *)
  li_frame : N;          (* offending_frame_type *)
  li_rerr : N;           (* remote_error *)
  li_k1 : bool;          (* crypto_context[1rtt].aead_decrypt != NULL *)
  li_k2 : bool;          (* crypto_context[handshake].aead_encrypt != NULL *)
  li_hs : bool;          (* a Handshake packet was received: sack_list_first != UINT64_MAX *)
  li_ack : bool;         (* ack_ctx[application].act[0].ack_needed *)
  li_progress : N;       (* latest_progress_time *)
  li_receive : N;        (* latest_receive_time *)
  li_sent : N;           (* last_close_sent *)
  li_start : N;          (* start_time *)
  li_timer : N;          (* path[0]->retransmit_timer *)
  li_smoothed : N;       (* path[0]->smoothed_rtt *)
  li_rttmin : N;         (* path[0]->rtt_min *)
  li_idle : N            (* idle_timeout *)
}.

(** Field assignments. *)
Definition set_st (x : life) (s : cstate) : life :=
  mk_life (li_client x) s (li_err x) (li_aerr x) (li_frame x) (li_rerr x) (li_k1 x) (li_k2 x) (li_hs x) (li_ack x)
    (li_progress x) (li_receive x) (li_sent x) (li_start x) (li_timer x) (li_smoothed x) (li_rttmin x) (li_idle x).
Definition set_err (x : life) (e : N) : life :=
  mk_life (li_client x) (li_st x) e (li_aerr x) (li_frame x) (li_rerr x) (li_k1 x) (li_k2 x) (li_hs x) (li_ack x)
    (li_progress x) (li_receive x) (li_sent x) (li_start x) (li_timer x) (li_smoothed x) (li_rttmin x) (li_idle x).
Definition set_aerr (x : life) (e : N) : life :=
  mk_life (li_client x) (li_st x) (li_err x) e (li_frame x) (li_rerr x) (li_k1 x) (li_k2 x) (li_hs x) (li_ack x)
    (li_progress x) (li_receive x) (li_sent x) (li_start x) (li_timer x) (li_smoothed x) (li_rttmin x) (li_idle x).
Definition set_frame (x : life) (f : N) : life :=
  mk_life (li_client x) (li_st x) (li_err x) (li_aerr x) f (li_rerr x) (li_k1 x) (li_k2 x) (li_hs x) (li_ack x)
    (li_progress x) (li_receive x) (li_sent x) (li_start x) (li_timer x) (li_smoothed x) (li_rttmin x) (li_idle x).
Definition set_rerr (x : life) (e : N) : life :=
  mk_life (li_client x) (li_st x) (li_err x) (li_aerr x) (li_frame x) e (li_k1 x) (li_k2 x) (li_hs x) (li_ack x)
    (li_progress x) (li_receive x) (li_sent x) (li_start x) (li_timer x) (li_smoothed x) (li_rttmin x) (li_idle x).
Definition set_keys (x : life) (k1 k2 : bool) : life :=
  mk_life (li_client x) (li_st x) (li_err x) (li_aerr x) (li_frame x) (li_rerr x) k1 k2 (li_hs x) (li_ack x)
    (li_progress x) (li_receive x) (li_sent x) (li_start x) (li_timer x) (li_smoothed x) (li_rttmin x) (li_idle x).
Definition set_hs (x : life) (b : bool) : life :=
  mk_life (li_client x) (li_st x) (li_err x) (li_aerr x) (li_frame x) (li_rerr x) (li_k1 x) (li_k2 x) b (li_ack x)
    (li_progress x) (li_receive x) (li_sent x) (li_start x) (li_timer x) (li_smoothed x) (li_rttmin x) (li_idle x).
Definition set_ack (x : life) (b : bool) : life :=
  mk_life (li_client x) (li_st x) (li_err x) (li_aerr x) (li_frame x) (li_rerr x) (li_k1 x) (li_k2 x) (li_hs x) b
    (li_progress x) (li_receive x) (li_sent x) (li_start x) (li_timer x) (li_smoothed x) (li_rttmin x) (li_idle x).
Definition set_progress (x : life) (t : N) : life :=
  mk_life (li_client x) (li_st x) (li_err x) (li_aerr x) (li_frame x) (li_rerr x) (li_k1 x) (li_k2 x) (li_hs x) (li_ack x)
    t (li_receive x) (li_sent x) (li_start x) (li_timer x) (li_smoothed x) (li_rttmin x) (li_idle x).
Definition set_receive (x : life) (t : N) : life :=
  mk_life (li_client x) (li_st x) (li_err x) (li_aerr x) (li_frame x) (li_rerr x) (li_k1 x) (li_k2 x) (li_hs x) (li_ack x)
    (li_progress x) t (li_sent x) (li_start x) (li_timer x) (li_smoothed x) (li_rttmin x) (li_idle x).
Definition set_sent (x : life) (t : N) : life :=
  mk_life (li_client x) (li_st x) (li_err x) (li_aerr x) (li_frame x) (li_rerr x) (li_k1 x) (li_k2 x) (li_hs x) (li_ack x)
    (li_progress x) (li_receive x) t (li_start x) (li_timer x) (li_smoothed x) (li_rttmin x) (li_idle x).
Definition set_path (x : life) (timer smoothed rttmin : N) : life :=
  mk_life (li_client x) (li_st x) (li_err x) (li_aerr x) (li_frame x) (li_rerr x) (li_k1 x) (li_k2 x) (li_hs x) (li_ack x)
    (li_progress x) (li_receive x) (li_sent x) (li_start x) timer smoothed rttmin (li_idle x).
Definition set_idle (x : life) (t : N) : life :=
  mk_life (li_client x) (li_st x) (li_err x) (li_aerr x) (li_frame x) (li_rerr x) (li_k1 x) (li_k2 x) (li_hs x) (li_ack x)
    (li_progress x) (li_receive x) (li_sent x) (li_start x) (li_timer x) (li_smoothed x) (li_rttmin x) t.

(** Calls of the application callback that matter here (picoquic.h,
    picoquic_callback_close, _application_close, _stateless_reset), and packets: the
    close packets with the number space (epoch), the error code and the frame type,
    and any other packet. *)
Inductive epoch := EInitial | EZero | EHandshake | EOne.
Inductive lout :=
| CbClose | CbAppClose | CbReset
| SData
| SClose (e : epoch) (code frame : N)
| SAppClose (e : epoch) (code : N).

(** picoquic/quicctx.c 4730-4738, picoquic_connection_disconnect. *)
Definition disconnect (x : life) : life * list lout :=
  match li_st x with Disconnected => (x, []) | _ => (set_st x Disconnected, [CbClose]) end.

(** picoquic/quicctx.c 4695-4723, picoquic_connection_error_ex.
    PICOQUIC_ERROR_CLASS is 0x400, PICOQUIC_TRANSPORT_INTERNAL_ERROR 1; the reason
    phrase is not modelled. *)
Definition connection_error (x : life) (e f : N) : life :=
  let e := if 1024 <? e then 1 else e in
  let x1 :=
    match li_st x with
    | Ready | ClientReadyStart | ServerFalseStart => set_st (set_err x e) Disconnecting
    | HandshakeFailure | HandshakeFailureResend => x
    | _ => if num (li_st x) <? 11 then set_st (set_err x e) HandshakeFailure else x
    end in
  set_frame x1 f.

(** picoquic/sender.c 4091-4111, picoquic_close.
    PICOQUIC_TRANSPORT_APPLICATION_ERROR is 0xC. *)
Definition app_close (x : life) (code : N) : life :=
  let x1 :=
    match li_st x with
    | Ready | ServerFalseStart | ClientReadyStart => set_aerr (set_st x Disconnecting) code
    | _ => if num (li_st x) <? 13 then set_err (set_aerr (set_st x HandshakeFailure) 0) 12 else x
    end in
  set_frame x1 0.

(** picoquic/sender.c 4113-4126, picoquic_close_immediate. *)
Definition close_immediate (x : life) (now : N) : life :=
  if num (li_st x) <? 18 then set_sent (set_progress (set_err (set_st x Draining) max64) now) now else x.

(** Calls by the application. *)
Inductive call := AClose (code : N) | AImmediate.
Definition app_call (x : life) (c : call) (now : N) : life :=
  match c with AClose code => app_close x code | AImmediate => close_immediate x now end.

(** Frames: CONNECTION_CLOSE, CONNECTION_CLOSE of the application, a frame that is
    refused with an error, a frame whose delivery makes the application call picoquic_close
    or picoquic_close_immediate, an acknowledgement of a 1-RTT packet,
    HANDSHAKE_DONE, any other frame (asking for an acknowledgement or not). *)
Inductive fr :=
| FClose (code : N) | FAppClose (code : N) | FError (e f : N) | FCall (c : call)
| FAck1 | FDone | FOther (eliciting : bool).

(** picoquic/sender.c 2645-2720, picoquic_ready_state_transition: the state; the
    notification of the application and the key and packet clean up are not
    modelled. *)
Definition ready_transition (x : life) : life := set_st x Ready.

(** picoquic/frames.c 4135-4157, picoquic_decode_connection_close_frame. *)
Definition recv_close (x : life) (code : N) : life * list lout :=
  let x := set_rerr x code in
  let s := if (num (li_st x) <? 13) || negb (li_k1 x) then Disconnected else ClosingReceived in
  (set_st x s, match s, li_st x with Disconnected, Disconnected => [] | Disconnected, _ => [CbClose] | _, _ => [] end).
(** picoquic/frames.c 4179-4199, picoquic_decode_application_close_frame. *)
Definition recv_app_close (x : life) : life * list lout :=
  (set_st x (if num (li_st x) <? 13 then Disconnected else ClosingReceived), [CbAppClose]).

(** One frame of picoquic_decode_frames, picoquic/frames.c 6377-6662; the last result
    says that decoding goes on.  In Initial and Handshake packets only padding,
    PING, ACK, CONNECTION_CLOSE and CRYPTO are allowed (6430-6436), otherwise the
    error is PICOQUIC_TRANSPORT_PROTOCOL_VIOLATION, 0xA; HANDSHAKE_DONE is only for
    clients and not in 0-RTT packets (6436-6451, 4881-4897); an acknowledgement of a
    1-RTT packet ends the handshake, 3641-3647. *)
Definition decode_frame (x : life) (ep : epoch) (f : fr) (now : N) : life * list lout * bool :=
  let early := match ep with EInitial | EHandshake => true | _ => false end in
  match f with
  | FClose code => (recv_close x code, true)
  | FAppClose _ => if early then (connection_error x 10 29, [], false) else (recv_app_close x, true)
  | FError e t => (connection_error x e t, [], false)
  | FCall c => if early then (connection_error x 10 8, [], false) else (app_call x c now, [], true)
  | FAck1 =>
    match ep with
    | EOne =>
      match li_st x with ClientReadyStart | ServerFalseStart => (ready_transition x, [], true) | _ => (x, [], true) end
    | EZero => (connection_error x 10 2, [], false)
    | _ => (x, [], true)
    end
  | FDone =>
    match ep with
    | EOne =>
      if li_client x then
        match li_st x with ClientReadyStart => (ready_transition x, [], true) | _ => (x, [], true) end
      else (connection_error x 10 30, [], false)
    | _ => (connection_error x 10 30, [], false)
    end
  | FOther _ => (x, [], true)
  end.

(** The loop of picoquic_decode_frames; the last result is the absence of error. *)
Fixpoint decode_list (x : life) (ep : epoch) (l : list fr) (now : N) : life * list lout * bool :=
  match l with
  | [] => (x, [], true)
  | f :: r =>
    let '(x1, o1, ok) := decode_frame x ep f now in
    if ok then let '(x2, o2, ok2) := decode_list x1 ep r now in (x2, o1 ++ o2, ok2)
    else (x1, o1, false)
  end.
(** Frames that ask for an acknowledgement. *)
Definition eliciting (f : fr) : bool := match f with FOther b => b | FAck1 => false | _ => true end.
(** The same with 6650-6655: an acknowledgement is needed in the number space of
    application packets. *)
Definition decode_frames (x : life) (ep : epoch) (l : list fr) (now : N) : life * list lout * bool :=
  let '(x1, o, ok) := decode_list x ep l now in
  let needed := ok && existsb eliciting l in
  let x2 := if needed then set_receive x1 now else x1 in
  (if needed && match ep with EZero | EOne => true | _ => false end then set_ack x2 true else x2, o, ok).

(** picoquic/frames.c 6975-6998, picoquic_decode_closing_frames: whether a close
    frame is found; [None] for a malformed frame before it ([FError]). *)
Fixpoint closing_frames (l : list fr) : option bool :=
  match l with
  | [] => Some false
  | FClose _ :: _ | FAppClose _ :: _ => Some true
  | FError _ _ :: _ => None
  | _ :: r => closing_frames r
  end.

(** Results of picoquic_tls_stream_process (tls_api.c 2425-2626) that matter: nothing,
    a failure with an error code, the end of the handshake as seen by this side
    ([TDone]: 1-RTT keys for sending are there; [TFalse]: the server that requires client
    certificates). *)
Inductive tls := TNone | TFail (e : N) | TDone | TFalse.
Definition tls_process (x : life) (t : tls) : life :=
  match t with
  | TNone => x
  | TFail e => connection_error x e 0
  | TDone =>
    match li_st x with
    | ClientHandshakeStart | ClientInit | ClientInitSent | ClientInitResent => set_st x ClientAlmostReady
    | ServerInit | ServerHandshake => set_st x ServerAlmostReady
    | _ => x
    end
  | TFalse => match li_st x with ServerInit | ServerHandshake => set_st x ServerFalseStart | _ => x end
  end.

(** A packet that was decrypted, by type: the frames, the result of TLS, and whether
    TLS is complete at the server (picoquic_is_tls_complete). *)
Record pk := mk_pk { pk_ep : epoch; pk_frames : list fr; pk_tls : tls; pk_complete : bool }.

(** picoquic/packet.c 1369-1480, picoquic_incoming_client_initial (at the server);
    connection ids match; busy servers and short connection ids are not modelled. *)
Definition client_initial (x : life) (p : pk) (now : N) : life * list lout * bool :=
  if num (li_st x) <? 12 then
    let '(x1, o, ok) := decode_frames x EInitial (pk_frames p) now in
    (if ok then tls_process x1 (pk_tls p) else x1, o, ok)
  else if num (li_st x) <? 14 then (x, [], true) else (x, [], false).
(** picoquic/packet.c 1594-1672, picoquic_incoming_server_initial (at the client). *)
Definition server_initial (x : life) (p : pk) (now : N) : life * list lout * bool :=
  let x := match li_st x with ClientInitSent | ClientInitResent => set_st x ClientHandshakeStart | _ => x end in
  if num (li_st x) <=? 7 then
    let '(x1, o, ok) := decode_frames x EInitial (pk_frames p) now in
    (if ok then tls_process x1 (pk_tls p) else x1, o, ok)
  else if num (li_st x) <? 14 then (x, [], true) else (x, [], false).
(** picoquic/packet.c 1675-1726, picoquic_incoming_server_handshake. *)
Definition server_handshake (x : life) (p : pk) (now : N) : life * list lout * bool :=
  let restricted := match li_st x with ClientHandshakeStart => false | _ => true end in
  if num (li_st x) <? 14 then
    let '(x1, o, ok) := decode_frames x EHandshake (pk_frames p) now in
    (if ok && negb restricted then tls_process x1 (pk_tls p) else x1, o, ok)
  else (x, [], false).
(** picoquic/packet.c 1731-1788, picoquic_incoming_client_handshake. *)
Definition client_handshake (x : life) (p : pk) (now : N) : life * list lout * bool :=
  if num (li_st x) <? 12 then
    let '(x1, o, ok) := decode_frames x EHandshake (pk_frames p) now in
    if ok then
      let x2 := tls_process x1 (pk_tls p) in
      (if (num (li_st x2) <? 14) && pk_complete p then ready_transition x2 else x2, o, true)
    else (x1, o, false)
  else if num (li_st x) <=? 14 then (x, [], true) else (x, [], false).
(** picoquic/packet.c 1810-1851, picoquic_incoming_0rtt; [one] is is_1rtt_received. *)
Definition incoming_0rtt (x : life) (p : pk) (one : bool) (now : N) : life * list lout * bool :=
  if match li_st x with ServerAlmostReady | ServerFalseStart => true | Ready => negb one | _ => false end then
    let '(x1, o, ok) := decode_frames x EZero (pk_frames p) now in
    (if ok then tls_process x1 (pk_tls p) else x1, o, ok)
  else (x, [], false).
(** picoquic/packet.c 1888-1992, picoquic_incoming_1rtt. *)
Definition incoming_1rtt (x : life) (p : pk) (now : N) : life * list lout * bool :=
  if (num (li_st x) <? 10) || match li_st x with Disconnected => true | _ => false end then (x, [], false)
  else if 15 <=? num (li_st x) then
    match li_st x with
    | Closing | Disconnecting =>
      match closing_frames (pk_frames p) with
      | None => (x, [], false)
      | Some true => if li_client x then (disconnect x, true) else (set_st x Draining, [], true)
      | Some false => (set_ack x true, [], true)
      end
    | _ => (x, [], false)
    end
  else
    let '(x1, o, ok) := decode_frames x EOne (pk_frames p) now in
    (if ok then tls_process x1 (pk_tls p) else x1, o, ok).

(** picoquic/packet.c 2170-2305, the dispatch and the reception time; a Handshake
    packet that is accepted enters the list of numbers received. *)
Definition incoming (x : life) (p : pk) (one : bool) (now : N) : life * list lout :=
  let '(x1, o, ok) :=
    match pk_ep p with
    | EInitial => if li_client x then server_initial x p now else client_initial x p now
    | EHandshake => if li_client x then server_handshake x p now else client_handshake x p now
    | EZero => incoming_0rtt x p one now
    | EOne => incoming_1rtt x p now
    end in
  let x2 := if ok && match li_st x1 with Disconnected => false | _ => true end then set_receive x1 now else x1 in
  (match pk_ep p with EHandshake => if ok then set_hs x2 true else x2 | _ => x2 end, o).

(** picoquic/packet.c 1791-1805, picoquic_incoming_stateless_reset.
    PICOQUIC_ERROR_STATELESS_RESET is 0x400 + 30. *)
Definition stateless_reset (x : life) : life * list lout :=
  let x1 := if num (li_st x) <=? 14 then set_rerr x 1054 else x in
  let '(x2, o) := disconnect x1 in (x2, CbReset :: o).

(** picoquic/packet.c 889-957, a valid Version Negotiation packet.
    PICOQUIC_ERROR_VERSION_NEGOTIATION is 0x400 + 55. *)
Definition version_negotiation (x : life) : life * list lout :=
  match li_st x with ClientInitSent => disconnect (set_rerr x 1079) | _ => (x, []) end.
(** picoquic/packet.c 1496-1588 (and quicctx.c 4634-4692), a valid Retry packet. *)
Definition retry (x : life) : life :=
  match li_st x with ClientInitSent | ClientInitResent => set_st x ClientRenegotiate | _ => x end.

(** Configuration: default_handshake_timeout in microseconds, and
    local_parameters.max_idle_timeout in milliseconds. *)
Record lconf := mk_lc { lc_handshake : N; lc_max_idle : N }.

(** picoquic/transport.c 848-856: the idle timeout negotiated, in microseconds. *)
Definition negotiated_idle (local remote : N) : N :=
  let t := if (local =? 0) || ((0 <? remote) && (remote <? local)) then u64 (remote * 1000) else u64 (local * 1000) in
  if t =? 0 then max64 else t.

(** picoquic/sender.c 3679-3706, the time of picoquic_check_idle_timer; [rto] is
    picoquic_current_retransmit_timer. *)
Definition idle_time (c : lconf) (x : life) (rto : N) : N :=
  if 14 <=? num (li_st x) then
    let t := if li_idle x <? u64 (3 * rto) then u64 (3 * rto) else li_idle x in
    let t := u64 (t + li_receive x) in
    if t <? li_idle x then max64 else t
  else if 0 <? lc_handshake c then u64 (li_start x + lc_handshake c)
  else if 0 <? lc_max_idle c then u64 (li_start x + u64 (lc_max_idle c * 1000))
  else u64 (li_start x + 30000000).

(** The time at which closing or draining ends, picoquic/sender.c 2386, 2406, 2461. *)
Definition exit_time (x : life) : N := u64 (li_progress x + u64 (3 * li_timer x)).

(** The close frame: picoquic/frames.c 4118-4133, 4163-4177; that it fits is not
    modelled. *)
Definition close_packet (x : life) (ep : epoch) : lout :=
  if li_err x =? 0 then SAppClose ep (li_aerr x) else SClose ep (li_err x) (li_frame x).

(** picoquic/sender.c 2302-2541, picoquic_prepare_packet_closing: the state, what is
    sent or called, and the wake time.  Not modelled: the size of the packet (see
    Amplify_model for the limit before validation). *)
Definition prepare_closing (x : life) (now wake : N) : life * list lout * N :=
  let delta := if u64 (2 * li_rttmin x) <? li_timer x then li_timer x / 2 else li_rttmin x in
  match li_st x with
  | ClosingReceived =>
    (set_st (set_sent x now) Draining, [SClose EOne (li_err x) (li_frame x)], exit_time x)
  | Closing =>
    if exit_time x <=? now then let '(x1, o) := disconnect x in (x1, o, now)
    else if u64 (li_sent x + li_smoothed x) <=? now then
      let t := u64 (now + delta) in
      let w := if exit_time x <? t then exit_time x else t in
      if li_ack x then (set_sent (set_ack x false) now, [close_packet x EOne], w) else (x, [], w)
    else (x, [], if exit_time x <? wake then exit_time x else wake)
  | Draining =>
    if exit_time x <=? now then let '(x1, o) := disconnect x in (x1, o, now)
    else (x, [], exit_time x)
  | Disconnecting =>
    (set_ack (set_sent (set_progress (set_st x Closing) now) now) false, [close_packet x EOne], u64 (now + delta))
  | HandshakeFailure =>
    let ep := if li_k2 x && li_hs x then EHandshake else EInitial in
    let '(x1, o) :=
      match ep with
      | EInitial => if li_k2 x then (set_st x HandshakeFailureResend, []) else disconnect x
      | _ => disconnect x
      end in
    (set_sent (set_progress x1 now) now, o ++ [close_packet x ep], u64 (now + delta))
  | HandshakeFailureResend =>
    let '(x1, o) := disconnect x in
    (set_sent (set_progress x1 now) now, o ++ [close_packet x EHandshake], u64 (now + delta))
  | _ => (x, [], wake)
  end.

(** What the preparation of other packets does to the state: nothing, or a step of the
    handshake when the TLS data was sent (sender.c 2081-2090, 2236-2246). *)
Inductive step_of := SameState | NextState | FalseStart.
Definition advance (x : life) (a : step_of) : life :=
  match li_st x, a with
  | _, SameState => x
  | ClientInit, _ => set_st x ClientInitSent
  | ClientRenegotiate, _ => set_st x ClientInitResent
  | ClientAlmostReady, _ => set_st x ClientReadyStart
  | (ServerInit | ServerHandshake | ServerAlmostReady), NextState => set_st x ServerHandshake
  | (ServerInit | ServerHandshake | ServerAlmostReady), FalseStart => set_st x ServerFalseStart
  | _, _ => x
  end.

(** What the preparation of a packet depends on: the time, whether there is something
    to send and whether it asks for an acknowledgement, and the step of the handshake. *)
Record seg := mk_seg { sg_now : N; sg_data : bool; sg_progress : bool; sg_step : step_of }.

(** picoquic/sender.c 3722-3795, picoquic_prepare_segment. *)
Definition prepare_segment (x : life) (g : seg) (wake : N) : life * list lout * N :=
  match li_st x with
  | HandshakeFailure | HandshakeFailureResend | Disconnecting | ClosingReceived | Closing | Draining =>
    prepare_closing x (sg_now g) wake
  | Disconnected | ClientRetryReceived => (x, [], wake)
  | _ =>
    let x1 := match li_st x with ServerFalseStart => if li_k1 x then ready_transition x else x | _ => x end in
    if sg_data g then
      (let x2 := advance x1 (sg_step g) in if sg_progress g then set_progress x2 (sg_now g) else x2, [SData], wake)
    else (x1, [], wake)
  end.

(** picoquic/sender.c 3866-4077, picoquic_prepare_packet_ex, first packet: the idle
    timer, then a segment.  [others] is the earliest of the wake times set by other
    parts.  PICOQUIC_MICROSEC_SILENCE_MAX is 120000000. *)
Definition is_packet (o : lout) : bool := match o with SData | SClose _ _ _ | SAppClose _ _ => true | _ => false end.
Definition poll (c : lconf) (x : life) (g : seg) (rto others : N) : life * list lout * N :=
  let w0 := if 240000 <? lc_max_idle c then u64 (li_receive x + u64 (lc_max_idle c * 1000))
            else u64 (li_receive x + 240000000) in
  let w := N.min w0 others in
  let t := idle_time c x rto in
  if t <=? sg_now g then
    let x1 := match li_st x with Draining => x | _ => set_err x 1075 end in
    let '(x2, o) := disconnect x1 in (x2, o, w)
  else
    let '(x1, o, w1) := prepare_segment x g (if t <? w then t else w) in
    (x1, o, if existsb is_packet o || match li_st x1 with Disconnected => true | _ => false end then sg_now g else w1).

(** Events.  [LMore] is a further segment of the same call of
    picoquic_prepare_packet_ex; [LKeys] a change of keys, [LPath] of the estimates, which
    happens only while frames are processed; [LDelete] is picoquic_delete_cnx
    (quicctx.c 4776-4795). *)
Inductive lev :=
| LCall (c : call) (now : N)
| LError (e f : N)
| LPacket (p : pk) (one : bool) (now : N)
| LReset | LVersion | LRetry
| LKeys (k1 k2 : bool)
| LPath (timer smoothed rttmin idle : N)
| LPoll (g : seg) (rto others : N)
| LMore (g : seg)
| LDelete.

(** One event: the new state, calls and packets, and the wake time of a poll. *)
Definition lstep (c : lconf) (x : life) (e : lev) : life * list lout * option N :=
  match e with
  | LCall a now => (app_call x a now, [], None)
  | LError e f => (connection_error x e f, [], None)
  | LPacket p one now => (incoming x p one now, None)
  | LReset => (stateless_reset x, None)
  | LVersion => (version_negotiation x, None)
  | LRetry => (retry x, [], None)
  | LKeys k1 k2 => (set_keys x k1 k2, [], None)
  | LPath t s m i => (if num (li_st x) <? 15 then set_idle (set_path x t s m) i else x, [], None)
  | LPoll g rto others => let '(x1, o, w) := poll c x g rto others in (x1, o, Some w)
  | LMore g => let '(x1, o, _) := prepare_segment x g 0 in (x1, o, None)
  | LDelete => (disconnect x, None)
  end.

Fixpoint lrun (c : lconf) (x : life) (l : list lev) : life * list lout :=
  match l with
  | [] => (x, [])
  | e :: r => let '(x1, o, _) := lstep c x e in let '(x2, o2) := lrun c x1 r in (x2, o ++ o2)
  end.

(** A new connection, quicctx.c 4009-4051. *)
Definition life0 (client : bool) (now : N) : life :=
  mk_life client (if client then ClientInit else ServerInit) 0 0 0 0 false false false false now now 0 now 250000 250000 0 0.
