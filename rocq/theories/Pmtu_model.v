(** Model of path MTU discovery: the size of probes, when they are sent, and how
    acknowledgements and losses change the packet size of a path (definitions
    only).

    Simplifications.  One path in the states where probes are sent (ready,
    client_ready_start, server_false_start); the losses are processed in state
    ready.  Whether a packet may be sent at all (pacing, congestion window, other
    data) is the choice of the environment.  The content of packets is not
    modelled, only their sizes, checksum included.  Sizes are unbounded numbers
    except where a wrap is written. *)
From Verif Require Import Base.

(** picoquic/picoquic.h 199-204, picoquic_pmtud_policy_enum. *)
Inductive policy := PolBasic | PolRequired | PolDelayed | PolBlocked.
(** picoquic_pmtu_discovery_status_enum. *)
Inductive need := NotNeeded | Optional | Required.

(** What does not change: remote_parameters.max_packet_size (transport.c 512,
    624-635), quic->mtu_max (picoquic_internal.h 628, quicctx.c 4449-4453) and
    pmtud_policy. *)
Record mconf := mk_mc { g_remote : N; g_max : N; g_policy : policy }.

(** A packet on its way: length + checksum_overhead, and is_mtu_probe
    (picoquic_internal.h 409-416). *)
Record mpkt := mk_mp { k_size : N; k_probe : bool }.

(** The path: address family of first_tuple->peer_addr, send_mtu,
    send_mtu_max_tried, mtu_probe_sent, nb_mtu_losses (picoquic_internal.h 1213),
    the packets in the retransmit queue and those declared lost but kept to
    detect spurious losses (sender.c 965-1035). *)
Record mpath := mk_pa { p_v6 : bool; p_mtu : N; p_tried : N; p_probing : bool; p_losses : N;
                        p_flight : list mpkt; p_lost : list mpkt }.

(** PICOQUIC_MAX_PACKET_SIZE, the size of packet->bytes, picoquic_internal.h 428. *)
Definition packet_room : N := 1536.
(** PICOQUIC_MTU_OVERHEAD, picoquic.h 775. *)
Definition overhead (v6 : bool) : N := if v6 then 48 else 28.
(** PICOQUIC_INITIAL_MTU_IPV4 and _IPV6, picoquic_internal.h. *)
Definition initial_mtu (v6 : bool) : N := if v6 then 1232 else 1252.
(** Subtraction on uint32_t. *)
Definition sub32 (a b : N) : N := (a + 4294967296 - b) mod 4294967296.

(** picoquic/sender.c 1467-1507, picoquic_next_mtu_probe_length. *)
Definition next_probe (g : mconf) (x : mpath) : N :=
  if p_tried x =? 0 then
    if 0 <? g_remote g then
      let l := sub32 (g_max g) (overhead (p_v6 x)) in
      let p := if (0 <? g_max g) && (l <? g_remote g) then l
               else if packet_room <? g_remote g then packet_room
               else g_remote g in
      if p <? p_mtu x then p_mtu x else p
    else if 0 <? g_max g then sub32 (g_max g) (overhead (p_v6 x))
    else 1440
  else if 1500 <? p_tried x then 1500
  else if 1400 <? p_tried x then 1400
  else (p_mtu x + p_tried x) / 2.

(** picoquic/sender.c 1509-1548, picoquic_is_mtu_probe_needed; [queued] is
    nb_bytes_queued. *)
Definition probe_needed (g : mconf) (x : mpath) (queued : N) : need :=
  if p_probing x then NotNeeded
  else match g_policy g with
  | PolBlocked => NotNeeded
  | _ =>
    if (p_tried x =? 0) || (1400 <? p_tried x) then
      let n := next_probe g x in
      if p_mtu x <? n then
        match g_policy g with
        | PolRequired => Required
        | _ =>
          let delta := u64 ((queued / p_mtu x - queued / n) * 60) in
          if n <? delta then Required
          else match g_policy g with PolBasic => Optional | _ => NotNeeded end
        end
      else NotNeeded
    else NotNeeded
  end.

(** picoquic/sender.c 1550-1570, picoquic_prepare_mtu_probe: the size of the
    probe, checksum included.  [None] when the memset at 1566 has a negative
    length or leaves packet->bytes. *)
Definition prepare_probe (g : mconf) (x : mpath) (header chk room : N) : option N :=
  let n := next_probe g x in
  let p := if room <? n then room else n in
  if p <? chk + header + 1 then None
  else if packet_room <? p - chk then None
  else Some p.

(** picoquic/quicctx.c 2669-2678, picoquic_reset_path_mtu. *)
Definition reset_mtu (x : mpath) (v6 : bool) : mpath :=
  mk_pa v6 (initial_mtu v6) 0 false (p_losses x) (p_flight x) (p_lost x).

(** Field updates. *)
Definition set_queues (x : mpath) (f l : list mpkt) : mpath :=
  mk_pa (p_v6 x) (p_mtu x) (p_tried x) (p_probing x) (p_losses x) f l.

(** picoquic/loss_recovery.c 876-897, picoquic_check_path_mtu_on_losses, in state
    ready.  PICOQUIC_MTU_LOSS_THRESHOLD is 10. *)
Definition check_losses (x : mpath) (k : mpkt) (timer : bool) : mpath :=
  if (k_size k =? p_mtu x) || timer then
    let x1 := mk_pa (p_v6 x) (p_mtu x) (p_tried x) (p_probing x) (p_losses x + 1) (p_flight x) (p_lost x) in
    if (10 <? p_losses x1) || timer then reset_mtu x1 (p_v6 x) else x1
  else x.

(** The first element at position [i] and the others. *)
Fixpoint pick (i : nat) (l : list mpkt) : option (mpkt * list mpkt) :=
  match l with
  | [] => None
  | k :: r =>
    match i with
    | O => Some (k, r)
    | S i' => match pick i' r with Some (y, r') => Some (y, k :: r') | None => None end
    end
  end.

(** picoquic/loss_recovery.c 785-875, picoquic_process_lost_packet, and 693-704 of
    picoquic_copy_before_retransmit: a lost probe sets the size tried.  The packet
    goes to the queue of packets declared lost (a probe always, since
    do_not_detect_spurious is 0; for other packets [keep] says so).  The copies
    forced by the loss of a path (force_queue 1, multipath) are not modelled. *)
Definition lose (x : mpath) (k : mpkt) (f : list mpkt) (timer keep : bool) : mpath :=
  let x1 := check_losses x k timer in
  let x2 := if k_probe k
            then mk_pa (p_v6 x1) (p_mtu x1) (k_size k) false (p_losses x1) (p_flight x1) (p_lost x1)
            else x1 in
  set_queues x2 f (if keep || k_probe k then k :: p_lost x else p_lost x).

(** picoquic/frames.c 3625-3633, acknowledgement of a packet in the retransmit
    queue. *)
Definition acked (x : mpath) (k : mpkt) (f : list mpkt) : mpath :=
  let x1 := if k_size k =? p_mtu x
            then mk_pa (p_v6 x) (p_mtu x) (p_tried x) (p_probing x) 0 (p_flight x) (p_lost x)
            else if p_mtu x <? k_size k
            then mk_pa (p_v6 x) (k_size k) (p_tried x) false (p_losses x) (p_flight x) (p_lost x)
            else x in
  set_queues x1 f (p_lost x).

(** picoquic/frames.c 2536-2542, acknowledgement of a packet declared lost. *)
Definition spurious (x : mpath) (k : mpkt) (l : list mpkt) : mpath :=
  let x1 := if p_mtu x <? k_size k
            then mk_pa (p_v6 x) (k_size k) (if p_tried x <? k_size k then k_size k else p_tried x)
                   false (p_losses x) (p_flight x) (p_lost x)
            else x in
  set_queues x1 (p_flight x) l.

(** Events: a packet with data or other frames, no larger than send_mtu and the
    buffer (sender.c 3251); an opportunity to send a probe (sender.c 3541-3555:
    nothing else to send, or the probe is required; the buffer is larger than
    send_mtu); acknowledgement; loss; spurious loss; deletion of an old packet
    declared lost; verification of a new address (frames.c 4763-4769). *)
Inductive mev :=
| MData (size room : N)
| MProbe (header chk room queued : N)
| MAck (i : nat)
| MLose (i : nat) (timer keep : bool)
| MSpurious (i : nat)
| MForget (i : nat)
| MAddress (v6 : bool).

(** What is seen: the packet sent, and the packet acknowledged. *)
Inductive mobs := ONone | OSent (k : mpkt) | OAcked (k : mpkt) | OLost (k : mpkt).

(** One event; [None] for undefined behaviour.  An event that cannot happen (no
    such packet, data that does not fit) changes nothing. *)
Definition mstep (g : mconf) (x : mpath) (e : mev) : option (mpath * mobs) :=
  match e with
  | MData size room =>
    if (size <=? p_mtu x) && (size <=? room) then
      Some (set_queues x (mk_mp size false :: p_flight x) (p_lost x), OSent (mk_mp size false))
    else Some (x, ONone)
  | MProbe header chk room queued =>
    if p_mtu x <? room then
      match probe_needed g x queued with
      | NotNeeded => Some (x, ONone)
      | _ =>
        match prepare_probe g x header chk room with
        | Some p =>
          Some (mk_pa (p_v6 x) (p_mtu x) (p_tried x) true (p_losses x) (mk_mp p true :: p_flight x) (p_lost x),
                OSent (mk_mp p true))
        | None => None
        end
      end
    else Some (x, ONone)
  | MAck i =>
    match pick i (p_flight x) with
    | Some (k, f) => Some (acked x k f, OAcked k)
    | None => Some (x, ONone)
    end
  | MLose i timer keep =>
    match pick i (p_flight x) with
    | Some (k, f) => Some (lose x k f timer keep, OLost k)
    | None => Some (x, ONone)
    end
  | MSpurious i =>
    match pick i (p_lost x) with
    | Some (k, l) => Some (spurious x k l, OAcked k)
    | None => Some (x, ONone)
    end
  | MForget i =>
    match pick i (p_lost x) with
    | Some (_, l) => Some (set_queues x (p_flight x) l, ONone)
    | None => Some (x, ONone)
    end
  | MAddress v6 => Some (reset_mtu x v6, ONone)
  end.

Fixpoint mrun (g : mconf) (x : mpath) (l : list mev) : option (mpath * list mobs) :=
  match l with
  | [] => Some (x, [])
  | e :: r =>
    match mstep g x e with
    | None => None
    | Some (x1, o) =>
      match mrun g x1 r with
      | None => None
      | Some (x2, os) => Some (x2, o :: os)
      end
    end
  end.

(** A new path, quicctx.c 1679. *)
Definition path0 (v6 : bool) : mpath := mk_pa v6 (initial_mtu v6) 0 false 0 [] [].
