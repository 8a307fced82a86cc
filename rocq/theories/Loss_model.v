(** Model of the detection of lost packets, picoquic/loss_recovery.c (definitions
    only), for the application data of a connection in state ready.  A number space
    belongs to one path: the only path of the connection, or with the multipath
    extension each path of the connection (picoquic/sender.c 939-944). *)
From Verif Require Import Base Rtt_model Ack_model.

(** A packet waiting for acknowledgement, fields of picoquic_packet_t
    (picoquic/picoquic_internal.h 386-430).  A trap is a number skipped on purpose;
    it is the only packet whose send_path is NULL (picoquic/sender.c 1083-1092).
    [pk_elicit] is the result of picoquic_is_packet_ack_eliciting
    (loss_recovery.c 934-968), that depends on the content of the packet only. *)
Record packet := mk_packet {
  pk_seq : N;            (* sequence_number *)
  pk_time : N;           (* send_time *)
  pk_trap : bool;        (* is_ack_trap *)
  pk_zero : bool;        (* ptype == picoquic_packet_0rtt_protected *)
  pk_elicit : bool
}.

(** picoquic/picoquic_internal.h, the fields of picoquic_path_t that are used. *)
Record path := mk_path {
  pa_rtt : rtt;          (* smoothed_rtt, retransmit_timer, rtt_min, ... *)
  pa_nb : N;             (* nb_retransmit *)
  pa_demoted : bool;     (* path_is_demoted *)
  pa_pto : bool          (* is_pto_required *)
}.

(** picoquic/picoquic_internal.h, fields of picoquic_packet_context_t; the list of
    packets between pending_first and pending_last is a list in this order. *)
Record space := mk_space {
  sp_path : path;
  sp_pending : list packet;
  sp_high : N;           (* highest_acknowledged *)
  sp_high_time : N;      (* highest_acknowledged_time *)
  sp_latest : N;         (* latest_time_acknowledged *)
  sp_next : N            (* send_sequence *)
}.

(** The fields of the connection that are read. *)
Record config := mk_config {
  cf_delay : N;          (* remote_parameters.max_ack_delay *)
  cf_idle : N;           (* idle_timeout *)
  cf_max_idle : N;       (* local_parameters.max_idle_timeout *)
  cf_zero : bool         (* zero_rtt_data_accepted *)
}.

(** 2^63: a uint64_t from there on is negative when converted to int64_t. *)
Definition two63 : N := 9223372036854775808.

(** Subtraction of uint64_t. *)
Definition minus64 (a b : N) : N := u64 (a + two64 - b).

(** picoquic/quicctx.c 2693-2708, picoquic_init_packet_ctx, with the number of the
    first packet and the start time of the connection. *)
Definition space_start (pa : path) (first start : N) : space :=
  mk_space pa [] (minus64 first 1) start start first.

(** picoquic/timing.c 42-88, picoquic_current_retransmit_timer in state ready; the
    shift that may be undefined is done during the handshake only. *)
Definition path_timer (cf : config) (pa : path) : N :=
  match current_timer (pa_rtt pa) (pa_nb pa) (cf_idle cf) false (cf_max_idle cf) with
  | Some t => t
  | None => 0
  end.

(** picoquic/loss_recovery.c 572-576, rack_delay; PICOQUIC_RACK_DELAY is 10000
    (picoquic_internal.h 65). *)
Definition rack_delay (r : rtt) : N :=
  if 5000 <? N.shiftr (rt_smoothed r) 2 then 5000 else N.shiftr (rt_smoothed r) 2.

(** picoquic/loss_recovery.c 536-645, picoquic_is_packet_probably_lost in state
    ready for a packet whose send_path is not NULL: whether it is lost, whether the
    timer is expired, and the time from which it is one of both.  [last] is the
    send_time of pending_last; it exists since the packet is pending (597-599). *)
Definition probably_lost (cf : config) (sp : space) (last : N) (p : packet) (now : N) : bool * bool * N :=
  let pa := sp_path sp in
  let d := minus64 (sp_high sp) (pk_seq p) in
  let passed := (0 <? d) && (d <? two63) in
  if pk_zero p && negb (cf_zero cf) then (true, false, now)
  else if passed && (3 <=? d) then (true, false, now)
  else
    let rto := u64 (pk_time p + rt_timer (pa_rtt pa)) in
    let rack := u64 (minus64 (u64 (sp_high_time sp + rack_delay (pa_rtt pa)))
                             (minus64 (sp_latest sp) (pk_time p)) + cf_delay cf) in
    let early := if passed then (if rack <? rto then rack else rto) else max64 in
    if passed && (early <=? now) then (true, false, early)
    else
      let timer := path_timer cf pa in
      let at_timer := u64 (last + timer) in
      if at_timer <=? now then
        (pa_demoted pa, negb (pa_demoted pa), N.min at_timer early)
      else if pa_nb pa =? 0 then
        let alt := u64 (pk_time p + u64 (2 * timer)) in
        if alt <? last then
          ((alt <=? now) && negb (pk_elicit p), (alt <=? now) && pk_elicit p, N.min alt early)
        else (false, false, N.min at_timer early)
      else (false, false, N.min at_timer early).

(** Why a packet left the list of pending packets without being acknowledged:
    declared lost; repeated after a timeout; without any frame to acknowledge after
    a timeout; or a trap. *)
Inductive why := WLost | WTimer | WNoAck | WTrap.

(** Why the loop of picoquic_retransmit_needed_loop stopped: no packet left; the
    packet is neither lost nor expired; a repetition after a timeout was requested
    and not yet done; a lost packet was copied; a repetition after a timeout, and
    whether something was copied. *)
Inductive stop := SEnd | SQuiet | SPending | SCopied | STimeout (copied : bool).

(** The result of the loop: the packets that stay, those that leave, the path, the
    wake time and the reason of the end. *)
Record result := mk_result {
  r_kept : list packet; r_gone : list (packet * why);
  r_path : path; r_wake : N; r_stop : stop }.

(** A packet stays and the loop continues. *)
Definition r_keep (p : packet) (r : result) : result :=
  mk_result (p :: r_kept r) (r_gone r) (r_path r) (r_wake r) (r_stop r).
(** A packet leaves and the loop continues. *)
Definition r_drop (p : packet) (w : why) (r : result) : result :=
  mk_result (r_kept r) ((p, w) :: r_gone r) (r_path r) (r_wake r) (r_stop r).

(** pending_last of a list that is not empty (picoquic/quicctx.c 1566-1570), its
    send_time. *)
Definition last_time (l : list packet) (p : packet) : N := pk_time (last l p).

(** picoquic/loss_recovery.c 203-225 and 297-534, picoquic_retransmit_needed_loop and
    picoquic_retransmit_needed_packet in state ready, from a pending packet on.
    [same] tells that the packet in preparation is sent on the path of the number
    space (path_x == old_path).  [rep] is, for each packet number, the result of the
    copy for repetition (picoquic_process_lost_packet, 785-875): packet_is_pure_ack,
    and whether length is not 0.  Repetition of Initial packets
    (initial_repeat_needed) does not occur; path MTU, statistics, congestion control
    and the abandon of a path after 10 repetitions are not modelled, nor the loss of
    the other packets of the path after a timeout with the multipath extension
    (452-454). *)
Fixpoint needed_loop (cf : config) (sp : space) (same : bool) (rep : N -> bool * bool)
    (now wake : N) (l : list packet) : result :=
  match l with
  | [] => mk_result [] [] (sp_path sp) wake SEnd
  | p :: l' =>
    let next := needed_loop cf sp same rep now wake l' in
    let '(pure, copied) := rep (pk_seq p) in
    if pk_trap p then r_drop p WTrap next
    else
      let '(lost, expired, time) := probably_lost cf sp (last_time l' p) p now in
      if lost then
        if pure || negb copied then r_drop p WLost next
        else mk_result l' [(p, WLost)] (sp_path sp) wake SCopied
      else if negb expired then
        if pk_zero p then r_keep p next
        else mk_result l [] (sp_path sp) (N.min time wake) SQuiet
      else if negb (pk_elicit p) then r_drop p WNoAck next
      else if pa_pto (sp_path sp) && same then mk_result l [] (sp_path sp) wake SPending
      else if pure then r_drop p WTimer next
      else
        mk_result l' [(p, WTimer)]
          (mk_path (pa_rtt (sp_path sp)) (u64 (pa_nb (sp_path sp) + 1)) (pa_demoted (sp_path sp))
             (pa_pto (sp_path sp) || same)) wake (STimeout copied)
  end.

(** Replacement of the list of pending packets. *)
Definition set_pending (sp : space) (pa : path) (l : list packet) : space :=
  mk_space pa l (sp_high sp) (sp_high_time sp) (sp_latest sp) (sp_next sp).

(** picoquic/loss_recovery.c 647-663, picoquic_set_wake_up_from_packet_retransmit.
    No result for a trap: the send_path that is NULL is dereferenced (559-561). *)
Definition set_wake (cf : config) (sp : space) (l : list packet) (now wake : N) : option N :=
  match l with
  | [] => Some wake
  | p :: l' =>
    if pk_trap p then None
    else
      let '(lost, expired, time) := probably_lost cf sp (last_time l' p) p now in
      if lost || expired then Some now else Some (N.min time wake)
  end.

(** Whether the loop returns a length that is not 0. *)
Definition copied_something (s : stop) : bool :=
  match s with SCopied | STimeout true => true | _ => false end.

(** picoquic/loss_recovery.c 173-200, picoquic_retransmit_needed with the multipath
    extension: the number spaces of all the paths in order; [x] is the index of the
    path of the packet in preparation. *)
Fixpoint needed_paths (cf : config) (x i : nat) (rep : nat -> N -> bool * bool) (now wake : N) (found : bool)
    (sps : list space) : option (list space * N) :=
  match sps with
  | [] => Some ([], wake)
  | sp :: rest =>
    if found then
      match set_wake cf sp (sp_pending sp) now wake with
      | None => None
      | Some wake' =>
        match needed_paths cf x (S i) rep now wake' true rest with
        | Some (sps', w) => Some (sp :: sps', w)
        | None => None
        end
      end
    else
      let r := needed_loop cf sp (Nat.eqb x i) (rep i) now wake (sp_pending sp) in
      match needed_paths cf x (S i) rep now (r_wake r) (copied_something (r_stop r)) rest with
      | Some (sps', w) => Some (set_pending sp (r_path r) (r_kept r) :: sps', w)
      | None => None
      end
  end.

(** picoquic/loss_recovery.c 1029-1073, picoquic_queue_retransmit_on_ack: the packets
    that leave and those that stay. *)
Fixpoint on_ack (cf : config) (sp : space) (now : N) (l : list packet) : list (packet * why) * list packet :=
  match l with
  | [] => ([], [])
  | p :: l' =>
    let '(gone, kept) := on_ack cf sp now l' in
    if pk_trap p then ((p, WTrap) :: gone, kept)
    else
      let '(lost, _, _) := probably_lost cf sp (last_time l' p) p now in
      if lost then ((p, WLost) :: gone, kept) else ([], l)
  end.

(** The packets as seen by the processing of ACK frames (Ack_model). *)
Definition as_sent (p : packet) : sent_packet := mk_sent (pk_seq p) (pk_trap p).

(** The packet found by picoquic_find_acked_packet (picoquic/frames.c 2976-2995) for a
    number that was not acknowledged before: the first one from this number on, or
    the last one. *)
Fixpoint top_packet (largest : N) (l : list packet) : option packet :=
  match l with
  | [] => None
  | p :: l' =>
    if largest <=? pk_seq p then Some p
    else match l' with [] => Some p | _ => top_packet largest l' end
  end.

(** What an event does: a packet is sent, a number is skipped, an ACK frame with its
    largest number is accepted, a packet is acknowledged, or leaves otherwise. *)
Inductive action :=
| ASent (p : packet)
| AHole (p : packet)
| AAck (largest now : N)
| ARelease (n : N)
| AGone (p : packet) (w : why).

(** The outcome of an event: the new state and the actions, or the end of the
    connection by an error. *)
Inductive outcome := OGo (sp : space) (acts : list action) | OClose.

(** picoquic/frames.c 3661-3812, the processing of an ACK frame with the ranges
    [ranges] (low, high), highest first, followed by process_decoded_packet_data
    (frames.c 2919-2974).  The reading of the frame and the search of the packets are
    those of Ack_model.  [ce] tells that the frame raises the count of congestion
    marks (3802-3809); the congestion control is then called with the path of the
    packet found, and all of them dereference this path (e.g. picoquic/newreno.c
    221-223): no result when it is NULL.  [r] are the round trip times after
    picoquic_update_path_rtt (Rtt_model).  The detection of spurious losses is not
    modelled. *)
Definition receive_ack (cf : config) (sp : space) (ranges : list (N * N)) (ce : bool) (r : rtt) (now : N)
  : option outcome :=
  match ranges with
  | [] => Some OClose
  | (_, largest) :: _ =>
    if sp_next sp <=? largest then Some OClose
    else
      let l := sp_pending sp in
      let '(ds, newer, is_new) := find_acked_packet (map as_sent l) (sp_high sp) largest in
      let top := if is_new then top_packet largest l else None in
      let high := if is_new then largest else sp_high sp in
      let high_time := if is_new then now else sp_high_time sp in
      let latest := match top with
                    | Some t => if sp_latest sp <? pk_time t then pk_time t else sp_latest sp
                    | None => sp_latest sp end in
      let '(_, acked, err) := process_ranges ds newer ranges in
      if err then Some OClose
      else if ce && match top with Some t => pk_trap t | None => false end then None
      else
        let left := filter (fun p => negb (existsb (N.eqb (pk_seq p)) acked)) l in
        let pa := sp_path sp in
        match acked with
        | [] => Some (OGo (mk_space pa left high high_time latest (sp_next sp)) [AAck largest now])
        | _ =>
          let nb := if existsb (N.leb high) acked then 0 else pa_nb pa in
          let sp1 := mk_space (mk_path r nb (pa_demoted pa) (pa_pto pa)) left high high_time latest (sp_next sp) in
          let '(gone, kept) := on_ack cf sp1 now left in
          Some (OGo (set_pending sp1 (sp_path sp1) kept)
                 (AAck largest now :: map ARelease acked ++ map (fun g => AGone (fst g) (snd g)) gone))
        end
  end.

(** The events of a number space. *)
Inductive event :=
| ESend (zero elicit pure : bool) (now : N)   (* pure: is_pure_ack of the packet *)
| EHole (now : N)
| EAck (ranges : list (N * N)) (ce : bool) (r : rtt) (now : N)
| EPoll (same : bool) (rep : N -> bool * bool) (wake now : N)
| EDemote (now : N).

(** The time of an event. *)
Definition event_time (e : event) : N :=
  match e with
  | ESend _ _ _ now | EHole now | EAck _ _ _ now | EPoll _ _ _ now | EDemote now => now
  end.

(** One event.  ESend: picoquic/sender.c 934-963, picoquic_queue_for_retransmit, for
    the packet numbered send_sequence, and 3579 for is_pto_required.  EHole:
    picoquic/sender.c 1071-1103, when it is time for a hole; the choice of the time is
    not modelled.  EPoll: the call of picoquic_retransmit_needed without the multipath
    extension (loss_recovery.c 195-198).  EDemote: picoquic/quicctx.c 1901.  The abandoned
    path itself is deleted with its number space (quicctx.c 1737-1798). *)
Definition step (cf : config) (sp : space) (e : event) : option outcome :=
  let pa := sp_path sp in
  match e with
  | ESend zero elicit pure now =>
    let p := mk_packet (sp_next sp) now false zero elicit in
    Some (OGo (mk_space (mk_path (pa_rtt pa) (pa_nb pa) (pa_demoted pa) (pa_pto pa && pure))
                 (sp_pending sp ++ [p]) (sp_high sp) (sp_high_time sp) (sp_latest sp) (u64 (sp_next sp + 1)))
              [ASent p])
  | EHole now =>
    let p := mk_packet (sp_next sp) now true false false in
    match rev (sp_pending sp) with
    | q :: _ =>
      if pk_trap q then Some (OGo sp [])
      else Some (OGo (mk_space pa (sp_pending sp ++ [p]) (sp_high sp) (sp_high_time sp) (sp_latest sp)
                        (u64 (sp_next sp + 1))) [AHole p])
    | [] => Some (OGo sp [])
    end
  | EAck ranges ce r now => receive_ack cf sp ranges ce r now
  | EPoll same rep wake now =>
    let r := needed_loop cf sp same rep now wake (sp_pending sp) in
    Some (OGo (set_pending sp (r_path r) (r_kept r)) (map (fun g => AGone (fst g) (snd g)) (r_gone r)))
  | EDemote _ =>
    Some (OGo (mk_space (mk_path (pa_rtt pa) (pa_nb pa) true (pa_pto pa)) (sp_pending sp)
                 (sp_high sp) (sp_high_time sp) (sp_latest sp) (sp_next sp)) [])
  end.

(** A run: the state and the history of the actions, or no state after an error.  No
    result when a step has none. *)
Fixpoint run (cf : config) (sp : space) (hist : list action) (es : list event) : option (option space * list action) :=
  match es with
  | [] => Some (Some sp, hist)
  | e :: es' =>
    match step cf sp e with
    | None => None
    | Some OClose => Some (None, hist)
    | Some (OGo sp' acts) => run cf sp' (hist ++ acts) es'
    end
  end.
