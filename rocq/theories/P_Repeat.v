(** Property C19: repetition of the STREAM frames of lost packets. *)
From Verif Require Import Base Varint_model Sack_model Sack_spec Frames_model Send_model Send_spec
  Repeat_model Repeat_spec Repeat4_proofs Repeat5_proofs.

(** One frame, copied in packets of any sizes while the stream table changes: every
    output is one readable piece or nothing; the pieces are contiguous from the
    start of the frame.  Either the frame is unfinished: the pieces are a prefix of
    the frame, without FIN; or it is finished: the pieces are the whole frame, with
    the FIN flag of the frame on the last one and on no other; or the rest of the
    frame is not needed.  For a frame that only carries a FIN, this requires 18
    bytes of room. *)
Theorem C19_pieces : forall p id off fin d fs steps,
  waiting p ((id, off, fin, d) :: fs) -> bytes_ok (lp_bytes p) -> off + blen d < two62 ->
  (d = [] -> fin = true) -> (d <> [] \/ Forall (fun '(_, room) => 18 <= room) steps) ->
  exists outs p', attempts p steps = Some (outs, p') /\
    Forall (fun '(room, b, i) => readable room b (frames_of i)) outs /\
    tiles id off (log_of outs) /\
    ((lp_frame p' = lp_frame p /\ exists d2, d = joined (log_of outs) ++ d2 /\ (fin = true \/ d2 <> []) /\ no_fin (log_of outs)) \/
     (lp_frame p' <> lp_frame p /\ log_of outs <> [] /\ joined (log_of outs) = d /\ fin_last fin (log_of outs)) \/
     (lp_frame p' <> lp_frame p /\ exists streams room d2, In (streams, room) steps /\ d = joined (log_of outs) ++ d2 /\
        no_fin (log_of outs) /\
        not_needed streams id (off + blen (joined (log_of outs))) (off + blen d) fin)).
Proof. exact pieces. Qed.
Print Assumptions C19_pieces.

(** 1500 bytes of stream 4 at offset 70000 with FIN, copied in packets with 600, 30,
    700 and 900 bytes of room: three pieces. *)
Definition ex_long : list N := repeat 5 1499 ++ [6].
Definition ex_long_packet : list N := [15; 4; 128; 1; 17; 112; 69; 220] ++ ex_long.
Example C19_pieces_ex :
  waiting (mk_lost ex_long_packet 0 0 9) [(4, 70000, true, ex_long)] /\
  match attempts (mk_lost ex_long_packet 0 0 9)
     [(ex_streams, 600); (ex_streams, 30); (ex_streams, 700); (ex_streams, 900)] with
  | Some (outs, p') =>
      map (fun '(_, b, _) => blen b) outs = [600; 0; 700; 220] /\
      map (fun i => match i with IStream id off fin d => (id, off, fin, blen d) | _ => (0, 0, false, 0) end) (log_of outs) =
        [(4, 70000, false, 594); (4, 70594, false, 694); (4, 71288, true, 212)]
  | None => False
  end.
Proof.
  split; [| vm_compute; repeat split].
  apply (w_stream ex_long_packet 0 0 9 15 (tl ex_long_packet) 4 70000 true ex_long [] [] 0); try (vm_compute; reflexivity).
  - constructor.
  - left. reflexivity.
Qed.

(** One call on the whole queue of lost packets: it succeeds, what it writes is
    readable, the queue stays well formed, nothing is invented or forgotten, and only
    STREAM frames that are pieces of those that waited are written. *)
Theorem C19_queue : forall streams q fss room pos, prio_ok streams -> queue_waits q fss ->
  exists b its q' fss', copy_frames streams q room pos = Some (b, its, q', true) /\
    queue_waits q' fss' /\ readable room b (frames_of its) /\ bytes_ok b /\ conserves streams fss its fss' /\
    cut fss its fss' /\ weight fss' <= weight fss /\ (q <> [] -> 17 + 512 <= room -> weight fss' < weight fss).
Proof. exact copy_frames_spec. Qed.
Print Assumptions C19_queue.

(** Putting the payload of a lost packet in the queue adds exactly its STREAM
    frames. *)
Theorem C19_enqueue : forall streams payload fs q fss pos, prio_ok streams -> queue_waits q fss -> bytes_ok payload ->
  payload_streams payload fs -> Forall sfr_ok fs ->
  exists q' fss', queue_lost streams payload pos q = Some q' /\ queue_waits q' fss' /\
    (forall f, In f (concat (fs :: fss)) <-> In f (concat fss')).
Proof. exact queue_lost_spec. Qed.
Print Assumptions C19_enqueue.

(** Any number of calls: what is written was waiting; every waiting byte is written,
    still waits, or was found not needed.  With at least 529 bytes of room per call
    the queue is empty after finitely many calls. *)
Theorem C19_drains : forall steps q fss, queue_waits q fss ->
  Forall (fun '(streams, _, _) => prio_ok streams) steps ->
  exists its q' fss', calls q steps = Some (its, q') /\ queue_waits q' fss' /\
    (forall id i v, log_byte its id i v -> pending_byte fss id i v) /\
    (forall id e, log_end its id e -> pending_end fss id e) /\
    (forall id i v, pending_byte fss id i v -> log_byte its id i v \/ pending_byte fss' id i v \/
       exists streams room pos, In (streams, room, pos) steps /\ not_needed streams id i (i + 1) false) /\
    (Forall (fun '(_, room, _) => 17 + 512 <= room) steps -> weight fss <= N.of_nat (length steps) -> q' = []).
Proof. exact calls_spec. Qed.
Print Assumptions C19_drains.

(** Two lost packets, with other frames around the STREAM frames; both frames are
    copied in one packet of 200 bytes; in a packet of 50 bytes nothing is. *)
Example C19_queue_ex :
  queue_waits ex_queue [[(0, 0, false, ex_data)]; [(4, 1000, true, [])]] /\ prio_ok ex_streams /\
  match copy_frames ex_streams ex_queue 200 0 with
  | Some (b, its, q', ok) => its = [IStream 0 0 false ex_data; IStream 4 1000 true []] /\ q' = [] /\ ok = true
  | None => False
  end /\
  match copy_frames ex_streams ex_queue 50 0 with
  | Some (b, its, q', ok) => its = [] /\ q' = ex_queue /\ ok = true
  | None => False
  end.
Proof.
  split; [exact ex_waits |]. split; [repeat (constructor; [discriminate |]); constructor |]. vm_compute. repeat split.
Qed.

(** The FIN of a frame without data is an exception: when the packet has no room
    for it, the frame is dropped from the queue, though it is still needed, and the
    FIN is never sent again. *)
Theorem C19_fin_lost_refuted : exists streams q fss room b its,
  prio_ok streams /\ queue_waits q fss /\ pending_end fss 4 1000 /\ ~ not_needed streams 4 1000 1000 true /\
  copy_frames streams q room 0 = Some (b, its, [], true) /\ ~ log_end its 4 1000.
Proof. exact fin_lost. Qed.
Print Assumptions C19_fin_lost_refuted.
