(** Properties C06 and C07: construction and processing of ACK frames. *)
From Verif Require Import Base Sack_model Sack_spec Ack_model Ack_spec Ack2_proofs.

(** A non-empty ACK frame built after any history of receptions, ACK
    transmissions and acknowledged ACKs is a well formed frame, names only
    recorded packet numbers, its largest number is the largest recorded, and it
    fits in the room. *)
Theorem C06_ack_frame_sound : forall ops r needed ecn mp delay room bytes s2 more,
  Forall op62 ops -> delay < 2 ^ 62 -> (forall p, mp = Some p -> p < 2 ^ 62) ->
  (forall e0 e1 ce, ecn = Some (e0, e1, ce) -> e0 < 2 ^ 62 /\ e1 < 2 ^ 62 /\ ce < 2 ^ 62) ->
  (mp = None \/ ecn = None) ->
  format_ack_frame (sack_run 0 ops) r needed ecn mp delay room = (bytes, s2, more) -> bytes <> [] ->
  exists ty largest first blocks ecns rs,
    ack_frame ty mp largest delay first blocks ecns bytes /\
    rfc_ranges largest first blocks = Some rs /\
    (forall q, in_ranges rs q -> recorded ops q) /\
    in_ranges rs largest /\ (forall q, recorded ops q -> q <= largest) /\
    blen bytes <= room /\
    (mp = None -> (ty = 2 /\ ecns = []) \/ (ty = 3 /\ length ecns = 3%nat)) /\
    (mp <> None -> ty = 354585600 /\ ecns = []).
Proof. exact ack_frame_of_history. Qed.
Print Assumptions C06_ack_frame_sound.

Example C06_ack_frame_sound_ex :
  let ops := [OpUpdate 3 5 1; OpUpdate 9 9 2; OpSent false 1; OpUpdate 20 21 3] in
  Forall op62 ops /\
  fst (fst (format_ack_frame (sack_run 0 ops) false true (Some (7, 0, 1)) None 12 40))
  = [3; 21; 12; 2; 1; 9; 0; 2; 2; 7; 0; 1].
Proof. split; [repeat constructor; vm_compute; congruence|reflexivity]. Qed.

(** When an ACK is needed, at most 33 ranges are stored, none of which was sent
    more than 4 times, and there is room, the frame names all the ranges. *)
Theorem C06_all_ranges_named : forall ops (r : bool) ecn mp delay room,
  Forall op62 ops -> delay < 2 ^ 62 -> (forall p, mp = Some p -> p < 2 ^ 62) ->
  (forall e0 e1 ce, ecn = Some (e0, e1, ce) -> e0 < 2 ^ 62 /\ e1 < 2 ^ 62 /\ ce < 2 ^ 62) ->
  (mp = None \/ ecn = None) ->
  let s := sack_run 0 ops in
  sl_items s <> [] -> (length (sl_items s) <= 33)%nat ->
  (forall it, In it (sl_items s) -> (if r then nb1 else nb0) it <= 4) -> 600 <= room ->
  exists bytes s2 ty largest first blocks ecns,
    format_ack_frame s r true ecn mp delay room = (bytes, s2, false) /\
    ack_frame ty mp largest delay first blocks ecns bytes /\
    rfc_ranges largest first blocks = Some (rev (ranges s)) /\
    ecns = match ecn with Some (e0, e1, ce) => [e0; e1; ce] | None => [] end /\
    ty = match mp, ecn with None, None => 2 | None, Some _ => 3 | Some _, _ => 354585600 end.
Proof. exact ack_all_ranges. Qed.
Print Assumptions C06_all_ranges_named.

Example C06_all_ranges_named_ex :
  let ops := [OpUpdate 3 5 1; OpUpdate 9 9 2; OpSent false 1; OpUpdate 20 21 3] in
  let s := sack_run 0 ops in
  Forall op62 ops /\ ranges s = [(3, 5); (9, 9); (20, 21)] /\ map nb0 (sl_items s) = [0; 1; 0].
Proof. split; [repeat constructor; vm_compute; congruence|split; reflexivity]. Qed.

(** Building a frame is itself a sequence of range transmissions, so the
    histories above are closed under the sending of ACKs. *)
Theorem C06_sending_is_history : forall s r needed ecn mp delay room bytes s2 more,
  format_ack_frame s r needed ecn mp delay room = (bytes, s2, more) ->
  exists sents, Forall (fun o => match o with OpSent _ _ => True | _ => False end) sents /\
    s2 = fold_left sack_step sents s.
Proof. exact format_ack_frame_history. Qed.
Print Assumptions C06_sending_is_history.

Example C06_sending_is_history_ex :
  map nb0 (sl_items (snd (fst (format_ack_frame (sack_run 0 [OpUpdate 3 5 1; OpUpdate 9 9 2])
    false true None None 0 40)))) = [1; 1].
Proof. reflexivity. Qed.

(** A peer that processes our ACK releases only packets that we received. *)
Theorem C06_peer_releases_received : forall ops r needed ecn delay room bytes s2 more queue ha sent e rest,
  Forall op62 ops -> delay < 2 ^ 62 ->
  (forall e0 e1 ce, ecn = Some (e0, e1, ce) -> e0 < 2 ^ 62 /\ e1 < 2 ^ 62 /\ ce < 2 ^ 62) ->
  format_ack_frame (sack_run 0 ops) r needed ecn None delay room = (bytes, s2, more) -> bytes <> [] ->
  bytes_ok rest ->
  forall q, In q (ao_acked (decode_ack_frame queue ha sent (N.eqb (hd 0 bytes) 3) e (bytes ++ rest))) -> recorded ops q.
Proof. exact ack_peer_release. Qed.
Print Assumptions C06_peer_releases_received.

Example C06_peer_releases_received_ex :
  ao_acked (decode_ack_frame [mk_sent 4 false; mk_sent 8 false; mk_sent 9 false] max64 30 true 3
    [3; 21; 12; 2; 1; 9; 0; 2; 2; 7; 0; 1]) = [9; 4].
Proof. reflexivity. Qed.

(** False with multipath and ECN: when the counters do not fit, only the first
    of the four bytes of the frame type is replaced, and the result is an ACK
    frame for packet 34, which was never received. *)
Theorem C06_path_ack_ecn_refuted : exists ops bytes s2 more frame rest,
  Forall op62 ops /\
  format_ack_frame (sack_run 0 ops) false true (Some (100, 0, 0)) (Some 1) 0 10 = (bytes, s2, more) /\
  bytes = frame ++ rest /\
  ack_frame 2 None 34 201392384 0 [] [] frame /\
  ~ recorded ops 34 /\
  ao_acked (decode_ack_frame [mk_sent 34 false] 20 40 false 0 bytes) = [34].
Proof. exact path_ack_ecn_invents. Qed.
Print Assumptions C06_path_ack_ecn_refuted.

(** A well formed ACK that raises the highest acknowledged number is accepted
    and releases exactly the packets of the queue that it names. *)
Theorem C07_releases_exactly : forall queue ha sent (is_ecn : bool) e bytes rest ty largest delay first blocks ecn rs,
  ascending queue -> is_new ha largest -> largest < sent -> bytes_ok rest ->
  ack_frame ty None largest delay first blocks ecn bytes ->
  length ecn = (if is_ecn then 3%nat else 0%nat) ->
  rfc_ranges largest first blocks = Some rs ->
  (forall p, In p queue -> in_ranges rs (p_seq p) -> p_trap p = false) ->
  let out := decode_ack_frame queue ha sent is_ecn e (bytes ++ rest) in
  ao_rest out = Some rest /\
  ao_queue out = filter (fun p => negb (in_rangesb rs (p_seq p))) queue /\
  (forall q, In q (ao_acked out) <-> in_ranges rs q /\ In q (map p_seq queue)).
Proof. exact ack_frame_releases. Qed.
Print Assumptions C07_releases_exactly.

Example C07_releases_exactly_ex :
  let out := decode_ack_frame [mk_sent 4 false; mk_sent 8 false; mk_sent 9 true; mk_sent 25 false]
     2 30 false 3 [2; 21; 12; 2; 1; 10; 0; 2; 1; 77] in
  rfc_ranges 21 1 [(10, 0); (2, 1)] = Some [(20, 21); (8, 8); (3, 4)] /\
  ao_rest out = Some [77] /\ ao_queue out = [mk_sent 9 true; mk_sent 25 false] /\ ao_acked out = [8; 4].
Proof. vm_compute. auto. Qed.

(** Every well formed frame, new or not, releases only packets that it names,
    and never adds to the queue. *)
Theorem C07_releases_only_named : forall queue ha sent is_ecn e bytes rest ty largest delay first blocks ecn rs,
  bytes_ok rest ->
  ack_frame ty None largest delay first blocks ecn bytes ->
  rfc_ranges largest first blocks = Some rs ->
  let out := decode_ack_frame queue ha sent is_ecn e (bytes ++ rest) in
  (forall p, In p queue -> In p (ao_queue out) \/ in_ranges rs (p_seq p)) /\
  (forall p, In p (ao_queue out) -> In p queue) /\
  (forall q, In q (ao_acked out) -> in_ranges rs q).
Proof. exact ack_releases_only_named. Qed.
Print Assumptions C07_releases_only_named.

Example C07_releases_only_named_ex :
  ao_queue (decode_ack_frame [mk_sent 4 false; mk_sent 8 false] 21 30 false 3
     [2; 21; 12; 2; 1; 10; 0; 2; 1; 77]) = [mk_sent 8 false].
Proof. reflexivity. Qed.

(** Whatever bytes are received, acceptance means that they start with a well
    formed frame whose ranges are above zero and were all sent. *)
Theorem C07_accepted_is_well_formed : forall queue ha sent (is_ecn : bool) e l rest, bytes_ok l ->
  ao_rest (decode_ack_frame queue ha sent is_ecn e l) = Some rest ->
  exists ty largest delay first blocks ecn rs bytes,
    l = bytes ++ rest /\ ack_frame ty None largest delay first blocks ecn bytes /\
    rfc_ranges largest first blocks = Some rs /\ largest < sent /\
    length ecn = (if is_ecn then 3%nat else 0%nat).
Proof. exact ack_accepted_wf. Qed.
Print Assumptions C07_accepted_is_well_formed.

Example C07_accepted_is_well_formed_ex :
  ao_rest (decode_ack_frame [] 2 30 false 3 [2; 21; 12; 2; 1; 10; 0; 2; 1; 77]) = Some [77] /\
  ao_rest (decode_ack_frame [] 2 30 false 3 [2; 21; 12; 2; 1; 10; 0; 9; 1; 77]) = None /\
  ao_rest (decode_ack_frame [] 2 30 false 3 [2; 21; 12; 0; 22]) = None.
Proof. vm_compute. auto. Qed.

(** A frame that names a number never sent changes nothing and is an error. *)
Theorem C07_unsent_rejected : forall queue ha sent is_ecn e bytes rest ty largest delay first blocks ecn,
  ack_frame ty None largest delay first blocks ecn bytes -> bytes_ok rest -> sent <= largest ->
  decode_ack_frame queue ha sent is_ecn e (bytes ++ rest) = mk_ao queue [] None.
Proof. exact ack_unsent_rejected. Qed.
Print Assumptions C07_unsent_rejected.

Example C07_unsent_rejected_ex :
  decode_ack_frame [mk_sent 4 false] 2 21 false 3 [2; 21; 12; 2; 1; 10; 0; 2; 1; 77] = mk_ao [mk_sent 4 false] [] None.
Proof. reflexivity. Qed.

(** A frame that names a number skipped on purpose is an error. *)
Theorem C07_trap_rejected : forall queue ha sent (is_ecn : bool) e bytes rest ty largest delay first blocks ecn rs,
  ascending queue -> is_new ha largest -> bytes_ok rest ->
  ack_frame ty None largest delay first blocks ecn bytes ->
  rfc_ranges largest first blocks = Some rs ->
  (exists p, In p queue /\ in_ranges rs (p_seq p) /\ p_trap p = true) ->
  ao_rest (decode_ack_frame queue ha sent is_ecn e (bytes ++ rest)) = None.
Proof. exact ack_trap_rejected. Qed.
Print Assumptions C07_trap_rejected.

Example C07_trap_rejected_ex :
  ao_rest (decode_ack_frame [mk_sent 4 false; mk_sent 8 true; mk_sent 10 false] 2 30 false 3
    [2; 21; 12; 2; 1; 10; 0; 2; 1; 77]) = None.
Proof. reflexivity. Qed.

(** False for a frame that does not raise the highest acknowledged number: it
    is accepted but leaves a named packet in the queue. *)
Theorem C07_old_ack_refuted : exists queue bytes q,
  ascending queue /\ In q queue /\
  ack_frame 2 None 10 0 1 [] [] bytes /\ in_ranges [(9, 10)] (p_seq q) /\
  rfc_ranges 10 1 [] = Some [(9, 10)] /\
  ao_rest (decode_ack_frame queue 10 20 false 3 bytes) = Some [] /\
  In q (ao_queue (decode_ack_frame queue 10 20 false 3 bytes)).
Proof. exact old_ack_leaves_packets. Qed.
Print Assumptions C07_old_ack_refuted.
