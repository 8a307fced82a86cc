(** Vocabulary of the properties of the repetition of lost STREAM frames. *)
From Verif Require Import Base Varint_model Sack_model Sack_spec Frames_model Send_model Send_spec Repeat_model.

(** The bytes [b], put in a packet with [room] bytes left, are read by every
    receiver that ignores padding as the frames [fs], whatever follows. *)
Definition readable (room : N) (b : list N) (fs : list rframe) : Prop :=
  blen b <= room /\
  forall S (h : handlers S) o epoch, (epoch = 1 \/ epoch = 3) ->
  (forall s, h_frame h s RPadding = (s, true)) ->
  forall tail s, bytes_ok (b ++ tail) -> blen b + blen tail <= room ->
  decode_frames h o epoch s (b ++ tail) =
    match process h s fs with
    | (s', true) => decode_frames h o epoch s' tail
    | (s', false) => (s', Some false)
    end.

(** STREAM frames of one stream, each starting where the previous one ends. *)
Fixpoint tiles (id off : N) (its : list item) : Prop :=
  match its with
  | [] => True
  | IStream id' off' _ d :: r => id' = id /\ off' = off /\ tiles id (off + blen d) r
  | _ :: _ => False
  end.

(** Their contents. *)
Fixpoint joined (its : list item) : list N :=
  match its with
  | IStream _ _ _ d :: r => d ++ joined r
  | _ => []
  end.

(** The FIN flag is [fin] on the last frame, and false on the others. *)
Fixpoint fin_last (fin : bool) (its : list item) : Prop :=
  match its with
  | [] => True
  | IStream _ _ f _ :: r => match r with [] => f = fin | _ :: _ => f = false /\ fin_last fin r end
  | _ :: _ => False
  end.

(** No FIN flag. *)
Definition no_fin (its : list item) : Prop := forall id off f d, In (IStream id off f d) its -> f = false.

(** Nothing of the bytes [lo, hi) of the stream, and of the FIN if [fin], has to be
    sent again: the stream is gone, was reset, or the peer acknowledged them (the
    FIN counts as the byte number [hi]). *)
Definition not_needed (streams : list rstream) (id lo hi : N) (fin : bool) : Prop :=
  (forall s, In s streams -> rs_id s <> id) \/
  exists s, In s streams /\ rs_id s = id /\
    (rs_reset_sent s = true \/
     forall i, lo <= i -> (i < hi \/ (fin = true /\ i = hi)) ->
       exists a b, In (a, b) (ranges (rs_sack s)) /\ a <= i <= b).

(** Successive attempts to copy the frame under the cursor, in packets with various
    room and with a stream table that changes; it stops when the frame is done. *)
Fixpoint attempts (p : lost) (steps : list (list rstream * N)) : option (list (N * list N * list item) * lost) :=
  match steps with
  | [] => Some ([], p)
  | (streams, room) :: r =>
    match copy_frame streams p room with
    | COk b i p' =>
      if lp_frame p' =? lp_frame p then
        match attempts p' r with
        | Some (outs, p'') => Some ((room, b, i) :: outs, p'')
        | None => None
        end
      else Some ([(room, b, i)], p')
    | _ => None
    end
  end.

(** The log of a sequence of attempts. *)
Definition log_of (outs : list (N * list N * list item)) : list item := concat (map snd outs).

(** The STREAM frames of a payload, in order: stream, offset, FIN, data. *)
Definition sfr : Type := N * N * bool * list N.
Inductive payload_streams : list N -> list sfr -> Prop :=
| ps_nil : payload_streams [] []
| ps_stream b l id off fin d rest fs :
    is_stream_type b = true -> parse_stream b l = Some ((id, off, fin, d), rest) ->
    payload_streams rest fs -> payload_streams (b :: l) ((id, off, fin, d) :: fs)
| ps_other b l rest fs :
    is_stream_type b = false -> fst (skip_frame (b :: l)) = Ok rest ->
    payload_streams rest fs -> payload_streams (b :: l) fs.

(** Byte [i] of stream [id] is in the frame, with value [v]; the same for the log. *)
Definition frame_byte (f : sfr) (id i v : N) : Prop :=
  let '(id', off, _, d) := f in id' = id /\ off <= i < off + blen d /\ nth (N.to_nat (i - off)) d 0 = v.
Definition log_byte (its : list item) (id i v : N) : Prop :=
  exists off fin d, In (IStream id off fin d) its /\ frame_byte (id, off, fin, d) id i v.

(** The FIN of stream [id], at offset [e]; the same for the log. *)
Definition frame_end (f : sfr) (id e : N) : Prop :=
  let '(id', off, fin, d) := f in id' = id /\ fin = true /\ off + blen d = e.
Definition log_end (its : list item) (id e : N) : Prop :=
  exists off d, In (IStream id off true d) its /\ off + blen d = e.

(** What a lost packet still has to repeat: the frame under the cursor, without the
    bytes before the index, and the following ones. *)
Inductive waiting : lost -> list sfr -> Prop :=
| w_stream bytes frame index prio b l id off fin d rest fs sent :
    skipn (N.to_nat frame) bytes = b :: l -> is_stream_type b = true ->
    parse_stream b l = Some ((id, off, fin, d), rest) -> payload_streams rest fs ->
    sent = index - (frame + (blen (b :: l) - blen rest - blen d)) -> (sent = 0 \/ sent < blen d) ->
    waiting (mk_lost bytes frame index prio) ((id, off + sent, fin, skipn (N.to_nat sent) d) :: fs).

(** Offsets that fit in the fields of a frame. *)
Definition sfr_ok (f : sfr) : Prop := let '(_, off, _, d) := f in off + blen d < two62.

(** A queue of lost packets, with what each of them still has to repeat. *)
Definition queue_waits (q : list lost) (fss : list (list sfr)) : Prop :=
  Forall2 (fun p fs => bytes_ok (lp_bytes p) /\ lp_prio p <= max64 /\ waiting p fs /\ Forall sfr_ok fs) q fss.

(** A byte, or a FIN, is waiting in the queue. *)
Definition pending_byte (fss : list (list sfr)) (id i v : N) : Prop :=
  exists f, In f (concat fss) /\ frame_byte f id i v.
Definition pending_end (fss : list (list sfr)) (id e : N) : Prop :=
  exists f, In f (concat fss) /\ frame_end f id e.

(** Amount of work waiting: bytes and frames. *)
Definition weight (fss : list (list sfr)) : N :=
  fold_right (fun (f : sfr) n => let '(_, _, _, d) := f in blen d + 1 + n) 0 (concat fss).

(** Priorities are 64-bit numbers. *)
Definition prio_ok (streams : list rstream) : Prop := Forall (fun s => rs_prio s <= max64) streams.

(** Nothing is invented and nothing is forgotten: what is written or still waits was
    waiting; what was waiting is written, still waits, or is not needed.  The FIN of
    a frame without data is excepted (see [C19_fin_lost_refuted]). *)
Definition conserves (streams : list rstream) (before : list (list sfr)) (its : list item) (after : list (list sfr)) : Prop :=
  (forall id i v, log_byte its id i v \/ pending_byte after id i v -> pending_byte before id i v) /\
  (forall id e, log_end its id e \/ pending_end after id e -> pending_end before id e) /\
  (forall id i v, pending_byte before id i v ->
     log_byte its id i v \/ pending_byte after id i v \/ not_needed streams id i (i + 1) false) /\
  (forall id e, pending_end before id e ->
     log_end its id e \/ pending_end after id e \/ not_needed streams id e e true \/ In (id, e, true, []) (concat before)).

(** The frame [f] is a piece of the frame [g]; it has the FIN only if it reaches the
    end of [g] and [g] has it. *)
Definition piece_of (g f : sfr) : Prop :=
  let '(id0, off0, fin0, d0) := g in
  let '(id, off, fin, d) := f in
  id = id0 /\ exists a b, d0 = a ++ d ++ b /\ off = off0 + blen a /\ (fin = true -> fin0 = true /\ b = []).

(** What is written is made of STREAM frames, and these and those that still wait
    are pieces of frames that were waiting. *)
Definition cut (before : list (list sfr)) (its : list item) (after : list (list sfr)) : Prop :=
  (forall x, In x its -> exists id off fin d g, x = IStream id off fin d /\ In g (concat before) /\ piece_of g (id, off, fin, d)) /\
  (forall f, In f (concat after) -> exists g, In g (concat before) /\ piece_of g f).

(** Successive calls of picoquic_copy_stream_frames_for_retransmit, with stream
    tables that change; the result is the whole log and the queue. *)
Fixpoint calls (q : list lost) (steps : list (list rstream * N * nat)) : option (list item * list lost) :=
  match steps with
  | [] => Some ([], q)
  | (streams, room, pos) :: r =>
    match copy_frames streams q room pos with
    | Some (_, its, q', true) =>
      match calls q' r with Some (its', q'') => Some (its ++ its', q'') | None => None end
    | _ => None
    end
  end.
