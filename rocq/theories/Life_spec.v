(** What is expected of the end of connections (specification only; it does not use
    the functions of the model, only its states, events and observations). *)
From Verif Require Import Base Life_model.

(** The connection is being closed or is closed. *)
Definition down (s : cstate) : bool :=
  match s with Disconnecting | ClosingReceived | Closing | Draining | Disconnected => true | _ => false end.

(** The order of these states: RFC 9000 section 10.2, closing, then draining, then
    nothing; a state is never left for an earlier one. *)
Definition later (s s' : cstate) : bool :=
  match s, s' with
  | Disconnecting, (Disconnecting | Closing | Draining | Disconnected) => true
  | ClosingReceived, (ClosingReceived | Draining | Disconnected) => true
  | Closing, (Closing | Draining | Disconnected) => true
  | Draining, (Draining | Disconnected) => true
  | Disconnected, Disconnected => true
  | _, _ => false
  end.

(** Counting observations and frames. *)
Definition count {A} (f : A -> bool) (l : list A) : N := N.of_nat (length (filter f l)).
Definition is_cb_close (o : lout) : bool := match o with CbClose => true | _ => false end.
Definition is_cb_app (o : lout) : bool := match o with CbAppClose => true | _ => false end.
Definition is_sent (o : lout) : bool :=
  match o with SData => true | SClose _ _ _ => true | SAppClose _ _ => true | _ => false end.
Definition is_close_frame (f : fr) : bool := match f with FClose _ => true | FAppClose _ => true | _ => false end.

(** Each packet received has at most one close frame. *)
Definition one_close (e : lev) : Prop :=
  match e with LPacket p _ _ => count is_close_frame (pk_frames p) <= 1 | _ => True end.
Definition is_one_rtt (e : lev) : bool :=
  match e with LPacket p _ _ => match pk_ep p with EOne => true | _ => false end | _ => false end.

(** The packet tells the reason: an error, or the code given by the application when
    there is no error. *)
Definition tells (err aerr : N) (o : lout) : Prop :=
  match o with
  | SClose _ code _ => code = err /\ err <> 0
  | SAppClose _ code => code = aerr /\ err = 0
  | SData => False
  | _ => True
  end.

(** The time of an event, when it has one. *)
Definition at_time (P : N -> Prop) (e : lev) : Prop :=
  match e with
  | LCall _ now => P now
  | LPacket _ _ now => P now
  | LPoll g _ _ => P (sg_now g)
  | LMore g => P (sg_now g)
  | _ => True
  end.
(** A call of picoquic_close_immediate. *)
Definition immediate (e : lev) : bool := match e with LCall AImmediate _ => true | _ => false end.
(** Events that end the connection without waiting: a call of
    picoquic_close_immediate, a stateless reset, deletion, a close frame of the peer. *)
Definition abrupt (e : lev) : bool :=
  match e with
  | LCall AImmediate _ => true
  | LReset => true
  | LDelete => true
  | LPacket p _ _ => existsb is_close_frame (pk_frames p)
  | _ => false
  end.
(** A retransmission timer that is not absurd: less than 2^60 microseconds. *)
Definition sane_rto (e : lev) : Prop := match e with LPoll _ rto _ => rto < 1152921504606846976 | _ => True end.

(** A call by the application. *)
Definition called (e : lev) : bool := match e with LCall _ _ => true | _ => false end.
(** The states of a handshake that has not failed, and in which errors are heard. *)
Definition in_handshake (s : cstate) : bool :=
  match s with
  | ClientInit | ClientInitSent | ClientRenegotiate | ClientRetryReceived | ClientInitResent
  | ServerInit | ServerHandshake | ClientHandshakeStart | ClientAlmostReady => true
  | _ => false
  end.
Definition failed (s : cstate) : bool := match s with HandshakeFailure | HandshakeFailureResend => true | _ => false end.
(** The states in which application data is exchanged. *)
Definition running (s : cstate) : bool :=
  match s with Ready | ClientReadyStart | ServerFalseStart => true | _ => false end.

(** The idle timeout agreed: RFC 9000 section 10.1, the smaller of the two values, 0
    meaning none; in microseconds from milliseconds. *)
Definition agreed (local remote : N) : option N :=
  if local =? 0 then (if remote =? 0 then None else Some (1000 * remote))
  else if remote =? 0 then Some (1000 * local) else Some (1000 * N.min local remote).

(** No packet completes the handshake of a server after it has failed, nor fails and
    completes it at the same time. *)
Definition completes (e : lev) : bool := match e with LPacket p _ _ => pk_complete p | _ => false end.
Definition tls_fails (e : lev) : bool :=
  match e with LPacket p _ _ => match pk_tls p with TFail _ => true | _ => false end | _ => false end.
Fixpoint no_revival (c : lconf) (x : life) (l : list lev) : Prop :=
  match l with
  | [] => True
  | e :: r =>
    (completes e = true -> failed (li_st x) = false /\ tls_fails e = false) /\
    no_revival c (fst (fst (lstep c x e))) r
  end.

(** What the close packets of a run say: an error, or the code of the application. *)
Definition says (e : N) (o : lout) : Prop :=
  match o with SClose _ code _ => code = e | SAppClose _ _ => False | SData => False | _ => True end.
Definition app_says (a : N) (o : lout) : Prop :=
  match o with SAppClose _ code => code = a | SClose _ _ _ => False | SData => False | _ => True end.
(** Times below 2^62, and whether a packet is sent. *)
Definition small (t : N) : Prop := t < 4611686018427387904.
Definition sends (o : list lout) : bool := existsb is_sent o.
