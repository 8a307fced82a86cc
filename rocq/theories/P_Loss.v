(** C50: the detection of lost packets (loss_recovery.c): packets are declared lost
    for a reason, none is forgotten, and the wake time is exact. *)
From Verif Require Import Base Rtt_model Ack_model Ack_spec Loss_model Loss_spec Loss5_proofs Loss6_proofs Loss7_proofs.

(** A packet sent with the keys of the connection is declared lost only if a later
    packet was acknowledged and this one is at least 3 numbers earlier, or in flight for longer than the
    retransmission delay, or for longer than the later one took with the allowances;
    or if its path was abandoned and the timer expired; or if it holds nothing to
    acknowledge and twice the timer expired. *)
Theorem C50_lost_for_a_reason : forall cf pa first start es e sp hist sp' acts p,
  possible cf pa first start (es ++ [e]) ->
  run cf (space_start pa first start) [] es = Some (Some sp, hist) ->
  step cf sp e = Some (OGo sp' acts) -> In (AGone p WLost) acts -> pk_zero p = false ->
  overtaken_by cf (pa_rtt (sp_path sp')) (hist ++ acts) p (event_time e) \/
  exists pb, (pb = sp_path sp \/ pb = sp_path sp') /\
    (pa_demoted pb = true /\ pk_time p + path_timer cf pb <= event_time e \/
     pk_elicit p = false /\ pk_time p + 2 * path_timer cf pb <= event_time e).
Proof. exact lost_reason. Qed.
Print Assumptions C50_lost_for_a_reason.

(** Four packets are sent and the last one is acknowledged: the first is lost; the
    second is lost later. *)
Example C50_lost_for_a_reason_ex :
  match run cf1 start1 [] [send 0; send 10; send 20; send 30; EAck [(3, 3)] false rtt1 100000; EPoll true rep1 max64 130030] with
  | Some (Some sp, hist) =>
      hist = [ASent (mk_packet 0 0 false false true); ASent (mk_packet 1 10 false false true);
        ASent (mk_packet 2 20 false false true); ASent (mk_packet 3 30 false false true);
        AAck 3 100000; ARelease 3; AGone (mk_packet 0 0 false false true) WLost;
        AGone (mk_packet 1 10 false false true) WLost] /\
      map pk_seq (sp_pending sp) = [2]
  | _ => False
  end.
Proof. vm_compute. split; reflexivity. Qed.

(** A packet leaves after a timeout only when the timer expired since it was sent. *)
Theorem C50_timeout_for_a_reason : forall cf pa first start es e sp hist sp' acts p w,
  possible cf pa first start (es ++ [e]) ->
  run cf (space_start pa first start) [] es = Some (Some sp, hist) ->
  step cf sp e = Some (OGo sp' acts) -> In (AGone p w) acts -> w = WTimer \/ w = WNoAck ->
  pk_zero p && negb (cf_zero cf) = false ->
  pk_time p + path_timer cf (sp_path sp) <= event_time e /\ (w = WTimer <-> pk_elicit p = true).
Proof. exact timer_reason. Qed.
Print Assumptions C50_timeout_for_a_reason.

Example C50_timeout_for_a_reason_ex :
  match run cf1 start1 [] [send 0; send 10; EPoll true rep1 max64 150010] with
  | Some (Some sp, hist) =>
      hist = [ASent (mk_packet 0 0 false false true); ASent (mk_packet 1 10 false false true);
              AGone (mk_packet 0 0 false false true) WTimer] /\
      map pk_seq (sp_pending sp) = [1] /\ path_timer cf1 path1 = 150000 /\ path_timer cf1 (sp_path sp) = 300000
  | _ => False
  end.
Proof. vm_compute. repeat split. Qed.

(** When the poll ends without a packet to repeat, no packet that stays is due. *)
Theorem C50_nothing_left : forall cf pa first start es sp hist same rep wake now,
  possible cf pa first start (es ++ [EPoll same rep wake now]) ->
  run cf (space_start pa first start) [] es = Some (Some sp, hist) ->
  let r := needed_loop cf sp same rep now wake (sp_pending sp) in
  r_stop r = SEnd \/ r_stop r = SQuiet ->
  forall p, In p (r_kept r) -> regular_packet p -> ~ due cf (set_pending sp (r_path r) (r_kept r)) p now.
Proof. exact poll_complete. Qed.
Print Assumptions C50_nothing_left.

Example C50_nothing_left_ex :
  match run cf1 start1 [] [send 0; send 10; send 20; EAck [(2, 2)] false rtt1 100000] with
  | Some (Some sp, hist) =>
      let r := needed_loop cf1 sp true (fun _ => (true, false)) 129985 max64 (sp_pending sp) in
      r_stop r = SQuiet /\ map pk_seq (r_kept r) = [1] /\ map (fun g => pk_seq (fst g)) (r_gone r) = [0]
  | _ => False
  end.
Proof. vm_compute. repeat split. Qed.

(** The wake time set by such a poll is the first time at which a packet is due, or
    the earlier one that was set before. *)
Theorem C50_wake_time_exact : forall cf pa first start es sp hist same rep wake now,
  possible cf pa first start (es ++ [EPoll same rep wake now]) ->
  run cf (space_start pa first start) [] es = Some (Some sp, hist) ->
  let r := needed_loop cf sp same rep now wake (sp_pending sp) in
  r_stop r = SQuiet ->
  exists t, now < t /\ r_wake r = N.min t wake /\
  forall u, now <= u ->
    (t <= u <-> exists p, In p (r_kept r) /\ regular_packet p /\ due cf (set_pending sp (r_path r) (r_kept r)) p u).
Proof. exact poll_wake. Qed.
Print Assumptions C50_wake_time_exact.

Example C50_wake_time_exact_ex :
  match run cf1 start1 [] [send 0; send 10; send 20; EAck [(2, 2)] false rtt1 100000] with
  | Some (Some sp, hist) =>
      r_wake (needed_loop cf1 sp true rep1 100000 max64 (sp_pending sp)) = 129980 /\
      r_stop (needed_loop cf1 sp true rep1 100000 max64 (sp_pending sp)) = SQuiet /\
      r_stop (needed_loop cf1 sp true rep1 129980 max64 (sp_pending sp)) = SCopied
  | _ => False
  end.
Proof. vm_compute. repeat split. Qed.

(** When a packet is due, the poll makes at least one packet leave; the exception is a
    repetition after a timeout that was requested for this path and not yet sent. *)
Theorem C50_progress : forall cf pa first start es sp hist same rep wake now,
  possible cf pa first start (es ++ [EPoll same rep wake now]) ->
  run cf (space_start pa first start) [] es = Some (Some sp, hist) ->
  forall p, In p (sp_pending sp) -> regular_packet p -> due cf sp p now ->
  pa_pto (sp_path sp) && same = false ->
  r_gone (needed_loop cf sp same rep now wake (sp_pending sp)) <> [].
Proof. exact poll_progress. Qed.
Print Assumptions C50_progress.

Example C50_progress_ex :
  match run cf1 start1 [] [send 0; send 10; EPoll true rep1 max64 150010] with
  | Some (Some sp, hist) =>
      pa_pto (sp_path sp) = true /\
      r_gone (needed_loop cf1 sp true rep1 310000 max64 (sp_pending sp)) = [] /\
      r_stop (needed_loop cf1 sp true rep1 310000 max64 (sp_pending sp)) = SPending /\
      r_gone (needed_loop cf1 sp false rep1 310000 max64 (sp_pending sp)) = [(mk_packet 1 10 false false true, WTimer)]
  | _ => False
  end.
Proof. vm_compute. repeat split. Qed.

(** Every number given out is exactly one of: acknowledged, gone, pending; and once. *)
Theorem C50_one_fate : forall cf pa first start es sp hist m,
  possible cf pa first start es -> run cf (space_start pa first start) [] es = Some (Some sp, hist) ->
  numbered hist m = (released hist m + gone hist m + pending sp m)%nat /\ (numbered hist m <= 1)%nat /\
  ((0 < numbered hist m)%nat <-> first <= m < sp_next sp).
Proof. exact one_fate. Qed.
Print Assumptions C50_one_fate.

Example C50_one_fate_ex :
  match run cf1 start1 [] [send 0; send 10; send 20; send 30; EAck [(3, 3)] false rtt1 100000] with
  | Some (Some sp, hist) =>
      map (fun m => (released hist m, gone hist m, pending sp m)) [0; 1; 3; 4] =
      [(0, 1, 0); (0, 0, 1); (1, 0, 0); (0, 0, 0)]%nat
  | _ => False
  end.
Proof. vm_compute. reflexivity. Qed.

(** An ACK frame with a new largest number that names a skipped number still in the
    list is an error. *)
Theorem C50_skipped_number : forall cf pa first start es sp hist low largest rs ce r now p,
  possible cf pa first start es -> run cf (space_start pa first start) [] es = Some (Some sp, hist) ->
  ranges_below two62 ((low, largest) :: rs) -> sp_high sp = max64 \/ sp_high sp < largest ->
  In p (sp_pending sp) -> pk_trap p = true -> in_ranges ((low, largest) :: rs) (pk_seq p) ->
  step cf sp (EAck ((low, largest) :: rs) ce r now) = Some OClose.
Proof. exact trap_closes. Qed.
Print Assumptions C50_skipped_number.

Example C50_skipped_number_ex :
  match run cf1 start1 [] [send 0; EHole 1; send 2] with
  | Some (Some sp, hist) =>
      map pk_trap (sp_pending sp) = [false; true; false] /\
      step cf1 sp (EAck [(0, 2)] true rtt1 100000) = Some OClose
  | _ => False
  end.
Proof. vm_compute. split; reflexivity. Qed.

(** Without skipped numbers, no event uses a path that is NULL. *)
Theorem C50_safe_without_holes : forall cf pa first start es,
  possible cf pa first start es -> Forall no_hole es -> run cf (space_start pa first start) [] es <> None.
Proof. exact never_stuck. Qed.
Print Assumptions C50_safe_without_holes.

Example C50_safe_without_holes_ex :
  run cf1 start1 [] [send 0; send 10; EPoll true rep1 max64 400000; send 400000; EAck [(0, 1)] true rtt1 410000] <> None.
Proof. vm_compute. discriminate. Qed.

(** The same for the number spaces of several paths. *)
Theorem C50_safe_paths : forall cf x rep now sps i wake found,
  Forall (fun sp => Forall (fun p => pk_trap p = false) (sp_pending sp)) sps ->
  needed_paths cf x i rep now wake found sps <> None.
Proof. exact paths_safe. Qed.
Print Assumptions C50_safe_paths.

Example C50_safe_paths_ex :
  match run cf1 start1 [] first_events, run cf1 start1 [] [send 0; send 1] with
  | Some (Some sp1, _), Some (Some sp2, _) =>
      match needed_paths cf1 0 0 (fun _ => rep1) 151100 max64 false [sp1; sp2] with
      | Some (sps, w) => map (fun sp => map pk_seq (sp_pending sp)) sps = [[]; [0; 1]] /\ w = 151100
      | None => False
      end
  | _, _ => False
  end.
Proof. vm_compute. split; reflexivity. Qed.

(** A skipped number is not always defended: the ACK of the packet before it makes the
    trap leave (picoquic_queue_retransmit_on_ack), and from then on an ACK frame that
    names the skipped number is accepted. *)
Theorem C50_skipped_number_refuted : exists cf pa first start es ranges r now sp hist sp' acts p,
  possible cf pa first start (es ++ [EAck ranges false r now]) /\
  run cf (space_start pa first start) [] es = Some (Some sp, hist) /\
  In (AHole p) hist /\ in_ranges ranges (pk_seq p) /\
  step cf sp (EAck ranges false r now) = Some (OGo sp' acts).
Proof. exact hole_accepted. Qed.
Print Assumptions C50_skipped_number_refuted.

(** An ACK frame that raises the count of congestion marks makes the congestion
    control dereference NULL when the packet found for the largest number is a trap: the
    peer acknowledges with ECN counts a packet that was just repeated after a timeout,
    while the next number was skipped (frames.c 3802-3809). *)
Theorem C50_ecn_null_refuted : exists cf pa first start es ranges r now sp hist,
  possible cf pa first start (es ++ [EAck ranges true r now]) /\
  run cf (space_start pa first start) [] es = Some (Some sp, hist) /\
  step cf sp (EAck ranges true r now) = None.
Proof. exact ecn_null. Qed.
Print Assumptions C50_ecn_null_refuted.

(** With several paths, the poll dereferences NULL when a packet of one path is
    repeated while the list of a later path starts with a trap
    (picoquic_set_wake_up_from_packet_retransmit does not test it, loss_recovery.c
    559-561 and 647-663). *)
Theorem C50_multipath_null_refuted : exists cf pa first start es1 es2 sp1 sp2 hist1 hist2 x rep now1 now2 wake1 wake2 sps w,
  possible cf pa first start es1 /\ possible cf pa first start es2 /\
  clock start es1 <= now1 /\ clock start es2 <= now1 /\ now1 <= now2 /\ small now2 /\
  run cf (space_start pa first start) [] es1 = Some (Some sp1, hist1) /\
  run cf (space_start pa first start) [] es2 = Some (Some sp2, hist2) /\
  needed_paths cf x 0 rep now1 wake1 false [sp1; sp2] = Some (sps, w) /\
  needed_paths cf x 0 rep now2 wake2 false sps = None.
Proof. exact multipath_null. Qed.
Print Assumptions C50_multipath_null_refuted.

(** When only packets of 0-RTT are pending, the poll sets no wake time, although a later
    poll would repeat one. *)
Theorem C50_zero_rtt_wake_refuted : exists cf pa first start es sp hist same rep now later,
  possible cf pa first start (es ++ [EPoll same rep max64 now]) /\ small later /\ now <= later /\
  run cf (space_start pa first start) [] es = Some (Some sp, hist) /\
  let r := needed_loop cf sp same rep now max64 (sp_pending sp) in
  r_stop r = SEnd /\ r_wake r = max64 /\ r_gone r = [] /\
  r_gone (needed_loop cf sp same rep later max64 (sp_pending sp)) <> [].
Proof. exact zero_no_wake. Qed.
Print Assumptions C50_zero_rtt_wake_refuted.
