(** Specification: which stream is served, in what order, and that none is
    forgotten.  Written on the fields of the streams only. *)
From Verif Require Import Base Stream_model Send_model Send_spec.

(** A control frame (RESET_STREAM or STOP_SENDING) waits. *)
Definition control (s : wstream) : Prop :=
  (w_rst_req s = true /\ w_rst_sent s = false) \/ (w_stop_req s = true /\ w_stop_sent s = false).

(** Data or the end of the stream waits: the application is to be asked, bytes
    are queued, or the end was requested and not sent. *)
Definition queued (s : wstream) : Prop := exists d o r, w_queue s = (d, o) :: r /\ o < blen d.
Definition data (s : wstream) : Prop :=
  w_active s = true \/ queued s \/ (w_fin_req s = true /\ w_fin_sent s = false).

(** The peer lets this endpoint use the stream: it is the peer's, or below the
    limit on stream ids. *)
Definition permitted (c : snd_cnx) (id : N) : Prop :=
  mine (n_client c) id = true -> id <= (if bidi id then n_max_bidi c else n_max_uni c).

(** Something can be sent on the stream now. *)
Definition sendable (c : snd_cnx) (s : wstream) : Prop :=
  control s \/
  (data s /\ n_data_sent c < n_max c /\ w_sent s < w_max s /\ (w_sent s = 0 -> permitted c (w_id s))).

(** The order of the output list: by priority, then by stream id. *)
Definition before (c : snd_cnx) (i j : N) : Prop :=
  exists s t, w_lookup c i = Some s /\ w_lookup c j = Some t /\
    (w_prio s < w_prio t \/ (w_prio s = w_prio t /\ i < j)).

(** [s] may be served ahead of [t]: a more urgent level; or the same level and,
    when the level is odd, a lower stream id; when the level is even, control
    frames first (by id), then the stream served the longest time ago. *)
Definition ahead (s t : wstream) : Prop :=
  w_prio s < w_prio t \/
  (w_prio s = w_prio t /\
   (N.odd (w_prio s) = true -> w_id s <= w_id t) /\
   (N.odd (w_prio s) = false ->
      (control s /\ (control t -> w_id s <= w_id t)) \/
      (~ control s /\ ~ control t /\
       (w_last s < w_last t \/ (w_last s = w_last t /\ w_id s <= w_id t))))).

(** Time of the last packet that carried data of stream [id], 0 if none. *)
Definition carries (id : N) (its : list item) : bool :=
  existsb (fun x => match x with IStream i _ _ d => (i =? id) && (0 <? blen d) | _ => false end) its.
Definition served_by (id : N) (e : sev) (its : list item) (t : N) : N :=
  match e with SFill _ _ now _ _ => if carries id its then now else t | _ => t end.
Fixpoint served (id : N) (c : snd_cnx) (evs : list sev) (t : N) : N :=
  match evs with
  | [] => t
  | e :: r =>
    match snd_step c e with
    | Some (c1, its) => served id c1 r (served_by id e its t)
    | None => t
    end
  end.

(** The stream still has something to say: unsent data or end on a stream that
    was neither ended nor reset, a reset not yet sent on a stream not ended, or
    a STOP_SENDING not yet sent. *)
Definition unfinished (s : wstream) : Prop :=
  (w_fin_sent s = false /\ w_rst_sent s = false /\ (data s \/ w_rst_req s = true)) \/
  (w_stop_req s = true /\ w_stop_sent s = false).

(** Histories in the order of a connection.  A server starts with the transport
    parameters of the client.  A client first starts, possibly with the limits
    of a session ticket; until the parameters of the server arrive no stream is
    deleted, no MAX_STREAMS arrives, and either the new limits on streams are
    not below the remembered ones or nothing is sent.  The parameters carry both
    limits, once, and come once. *)
Definition early (e : sev) : bool :=
  match e with SStart _ _ _ _ | STransport _ | SDelete _ | SMaxStreams _ _ => false | _ => true end.
Definition late (e : sev) : bool :=
  match e with SStart _ _ _ _ | STransport _ => false | _ => true end.
Definition not_fill (e : sev) : bool := match e with SFill _ _ _ _ _ => false | _ => true end.
Definition values (k : tp) (l : list (tp * N)) : list N :=
  map snd (filter (fun p => match k, fst p with
    | TpStreamsBidi, TpStreamsBidi => true | TpStreamsUni, TpStreamsUni => true | _, _ => false end) l).
Definition opening (cl : bool) (pre : list sev) (vb vu : N) : Prop :=
  if cl then
    exists cr m sb su rest, pre = SStart cr m sb su :: rest /\ Forall (fun e => early e = true) rest /\
      ((sane_count sb = true /\ sane_count su = true /\ sane_count vb = true /\ sane_count vu = true /\
        sb <= vb /\ su <= vu) \/ Forall (fun e => not_fill e = true) rest)
  else pre = [].
Definition connection_order (cl : bool) (evs : list sev) : Prop :=
  exists pre l post vb vu, evs = pre ++ STransport l :: post /\
    values TpStreamsBidi l = [vb] /\ values TpStreamsUni l = [vu] /\
    opening cl pre vb vu /\ Forall (fun e => late e = true) post.
