(** Specification of the sending side, in terms of the history of events and of
    what is observed: what the peer announced, what the application handed over
    and what was put in packets. *)
From Verif Require Import Base Varint_model Frames_model Send_model.

(** The bytes of stream [id] put in packets, in order. *)
Fixpoint sent_bytes (id : N) (l : list item) : list N :=
  match l with
  | [] => []
  | IStream i _ _ d :: r => if i =? id then d ++ sent_bytes id r else sent_bytes id r
  | _ :: r => sent_bytes id r
  end.

(** The bytes of stream [id] handed over by the application, in order. *)
Fixpoint wrote_bytes (id : N) (l : list item) : list N :=
  match l with
  | [] => []
  | IWrote i d :: r => if i =? id then d ++ wrote_bytes id r else wrote_bytes id r
  | _ :: r => wrote_bytes id r
  end.

(** The number of stream bytes put in packets, over all streams. *)
Fixpoint total_sent (l : list item) : N :=
  match l with
  | [] => 0
  | IStream _ _ _ d :: r => blen d + total_sent r
  | _ :: r => total_sent r
  end.

(** The largest connection limit announced: initial_max_data, remembered or
    received, and MAX_DATA. *)
Definition tp_conn (p : tp * N) : N := match p with (TpMaxData, v) => v | _ => 0 end.
Definition conn_limit (e : sev) : N :=
  match e with
  | SStart _ m _ _ => m
  | STransport l => fold_right (fun p m => N.max (tp_conn p) m) 0 l
  | SMaxData v => v
  | _ => 0
  end.
Definition conn_announced (l : list sev) : N := fold_right (fun e m => N.max (conn_limit e) m) 0 l.

(** The kinds of stream, as seen by an endpoint: it opened the stream
    ([mine]) when the low bit of the id says so; bit 1 is unidirectional. *)
Definition mine (client : bool) (id : N) : bool := Bool.eqb (N.even id) client.
Definition bidi (id : N) : bool := negb (N.testbit id 1).

(** The initial credit of stream [id] among the three values of the peer. *)
Definition initial_credit (client : bool) (id bl br u : N) : N :=
  if mine client id then (if bidi id then br else u) else (if bidi id then bl else 0).

(** The largest limit announced for stream [id]. *)
Definition tp_stream (client : bool) (id : N) (p : tp * N) : N :=
  match p with
  | (TpBidiLocal, v) => initial_credit client id v 0 0
  | (TpBidiRemote, v) => initial_credit client id 0 v 0
  | (TpUni, v) => initial_credit client id 0 0 v
  | _ => 0
  end.
Definition stream_limit (client : bool) (id : N) (e : sev) : N :=
  match e with
  | SStart cr _ _ _ => initial_credit client id (cr_bl cr) (cr_br cr) (cr_u cr)
  | STransport l => fold_right (fun p m => N.max (tp_stream client id p) m) 0 l
  | SMaxStreamData i v => if i =? id then v else 0
  | _ => 0
  end.
Definition stream_announced (client : bool) (id : N) (l : list sev) : N :=
  fold_right (fun e m => N.max (stream_limit client id e) m) 0 l.

(** The largest number of streams announced, bidirectional or not. *)
Definition tp_streams (uni : bool) (p : tp * N) : N :=
  match p with
  | (TpStreamsBidi, v) => if uni then 0 else v
  | (TpStreamsUni, v) => if uni then v else 0
  | _ => 0
  end.
Definition streams_limit (uni : bool) (e : sev) : N :=
  match e with
  | SStart _ _ sb su => if uni then su else sb
  | STransport l => fold_right (fun p m => N.max (tp_streams uni p) m) 0 l
  | SMaxStreams u r => if Bool.eqb u uni then r else 0
  | _ => 0
  end.
Definition streams_announced (uni : bool) (l : list sev) : N :=
  fold_right (fun e m => N.max (streams_limit uni e) m) 0 l.

(** Number of streams of a kind needed for stream [id] to exist. *)
Definition rank (id : N) : N := id / 4 + 1.

(** A count of streams that the code handles as the peer meant it. *)
Definition sane_count (v : N) : bool := (0 <? v) && (v <? 1152921504606846976) && negb (v =? 4294967295).
Definition sane_tp (p : tp * N) : bool :=
  match p with
  | (TpStreamsBidi, v) => sane_count v
  | (TpStreamsUni, v) => sane_count v
  | _ => true
  end.
Definition sane_counts (e : sev) : bool :=
  match e with
  | SStart _ _ sb su => sane_count sb && sane_count su
  | STransport l => forallb sane_tp l
  | SMaxStreams _ r => sane_count r
  | _ => true
  end.

(** The frames of a packet as the peer sees them, and what a receiver must do
    with them: process each in order, stop at the first one refused. *)
Fixpoint frames_of (l : list item) : list rframe :=
  match l with
  | [] => []
  | IStream id off fin d :: r => RStream id off fin d :: frames_of r
  | IReset id err final :: r => RReset id err final :: frames_of r
  | IStop id err :: r => RStopSending id err :: frames_of r
  | IWrote _ _ :: r => frames_of r
  | IFin _ :: r => frames_of r
  end.

Fixpoint process {S} (h : handlers S) (s : S) (fs : list rframe) : S * bool :=
  match fs with
  | [] => (s, true)
  | f :: r => match h_frame h s f with (s', true) => process h s' r | (s', false) => (s', false) end
  end.

(** Values that fit in the fields of frames: the limits are those of RFC 9000,
    the ids and codes are chosen by the application. *)
Definition encodable (s : wstream) : Prop :=
  w_id s < two62 /\ w_err s < two62 /\ w_stop_err s < two62 /\ w_max s < two62 /\ w_sent s < two62.

(** The stream named by a frame. *)
Definition item_id (x : item) : option N :=
  match x with
  | IStream id _ _ _ => Some id
  | IReset id _ _ => Some id
  | IStop id _ => Some id
  | _ => None
  end.

(** What the filling loop needs to end: values below 2^30, streams within the
    peer's limits, and an application that neither polls nor stops a stream for
    which it asked a reset. *)
Definition quiet (s : wstream) : Prop :=
  w_id s < 1073741824 /\ w_err s < 1073741824 /\ w_stop_err s < 1073741824 /\
  w_max s < two62 /\ w_sent s < two62 /\
  (w_rst_req s = true -> w_active s = false /\ (w_stop_req s = true -> w_stop_sent s = true)).
Definition calm (c : snd_cnx) : Prop :=
  n_max c < two62 /\ Forall quiet (n_streams c) /\
  forall id, In id (n_out c) -> mine (n_client c) id = true ->
    id <= if bidi id then n_max_bidi c else n_max_uni c.

(** An application that, when it is polled, provides data or the end of the
    stream, or gives up its turn. *)
Definition provides (r : reply) : Prop := r <> ReplyData [] false true.
