(** Model of the limit on the bytes that a server sends to an address that is not
    validated (definitions only): picoquic/packet.c 1369-1480, 1731-1788, 1810-1851,
    2048-2396, picoquic/sender.c 2152-2300, 2302-2545, 2920-3237, 3722-3795, 3866-4080.

    Simplifications.  Only the sizes of packets are modelled: what the formatting
    functions write is an input of the model (a [wish]), cut at the limit that they are
    given (bytes_max; for frames this is C33, for headers C32).  The outcome of TLS and of
    the frames of a packet is an input too ([r_out]).  The key for reading 1-RTT packets is
    installed by the message Finished of the client, which comes in a Handshake packet.
    Packets to other addresses than that of the first packet (sender.c 3968-3971) belong
    to C30; Retry, version negotiation and stateless resets, which concern no connection,
    to C22 and C44. *)
From Verif Require Import Base.

(** picoquic/picoquic.h 165-184: the states of a server: server_init and server_handshake;
    server_false_start; server_almost_ready; ready; handshake_failure;
    handshake_failure_resend; disconnecting; closing_received; closing; draining;
    disconnected. *)
Inductive phase :=
| Ph_init | Ph_false | Ph_almost | Ph_ready | Ph_fail | Ph_resend
| Ph_disc | Ph_closing_rcvd | Ph_closing | Ph_draining | Ph_gone.

(** picoquic/picoquic_internal.h 1301, 1462-1463, 1395-1412: whether the connection ids
    of the server are empty (quic->local_cnxid_length = 0); quic->random_initial > 1;
    send_mtu of the path; cnx_state; initial_validated; initial_data_received;
    initial_data_sent; crypto_context[2].aead_encrypt <> NULL; whether a Handshake packet
    was received (sack_list of the handshake context not empty);
    crypto_context[3].aead_decrypt <> NULL; ack_ctx[application].act[0].ack_needed. *)
Record amp := mk_amp {
  a_empty : bool; a_random : bool; a_mtu : N; a_phase : phase; a_valid : bool;
  a_recv : N; a_sent : N; a_hs : bool; a_hs_rcvd : bool; a_key1 : bool; a_ack : bool }.

(** Assignments of single fields. *)
Definition set_phase (a : amp) (p : phase) : amp :=
  mk_amp (a_empty a) (a_random a) (a_mtu a) p (a_valid a) (a_recv a) (a_sent a) (a_hs a) (a_hs_rcvd a) (a_key1 a) (a_ack a).
Definition set_valid (a : amp) (v : bool) : amp :=
  mk_amp (a_empty a) (a_random a) (a_mtu a) (a_phase a) v (a_recv a) (a_sent a) (a_hs a) (a_hs_rcvd a) (a_key1 a) (a_ack a).
Definition set_recv (a : amp) (n : N) : amp :=
  mk_amp (a_empty a) (a_random a) (a_mtu a) (a_phase a) (a_valid a) n (a_sent a) (a_hs a) (a_hs_rcvd a) (a_key1 a) (a_ack a).
Definition set_sent (a : amp) (n : N) : amp :=
  mk_amp (a_empty a) (a_random a) (a_mtu a) (a_phase a) (a_valid a) (a_recv a) n (a_hs a) (a_hs_rcvd a) (a_key1 a) (a_ack a).
Definition set_hs (a : amp) (h r k : bool) : amp :=
  mk_amp (a_empty a) (a_random a) (a_mtu a) (a_phase a) (a_valid a) (a_recv a) (a_sent a) h r k (a_ack a).
Definition set_ack (a : amp) (b : bool) : amp :=
  mk_amp (a_empty a) (a_random a) (a_mtu a) (a_phase a) (a_valid a) (a_recv a) (a_sent a) (a_hs a) (a_hs_rcvd a) (a_key1 a) b.

(** picoquic/quicctx.c 3845-4080 and packet.c 184-190: a connection just created for the
    first Initial packet of a client; [token] if it carried a valid token. *)
Definition amp_init (empty random : bool) (mtu : N) (token : bool) : amp :=
  mk_amp empty random mtu Ph_init token 0 0 false false false false.

(** ** Incoming packets *)

(** Types of packets (picoquic_internal.h 265-274). *)
Inductive rkind := K_initial | K_zero | K_handshake | K_one.

(** Destination connection id of a packet: the one the client chose (initial_cnxid), the
    one of the server (p_local_cnxid), another one. *)
Inductive rdcid := D_initial | D_local | D_other.

(** What TLS and the frames of a packet lead to: nothing; an error of the peer
    (picoquic_connection_error); the peer closes the connection; TLS has the Handshake
    keys; TLS has all keys for sending (server_almost_ready, tls_api.c 2568-2570 and
    2601-2604); the Finished of the client was processed; a 1-RTT packet is acknowledged
    (frames.c 3640-3647). *)
Inductive outcome := O_none | O_error | O_close | O_keys | O_almost | O_finished | O_acked.

(** A packet of a datagram: type, destination, whether its protection could be removed
    and its header is right (source connection id, reserved bits, number not received
    before), whether the rest of the datagram is dropped if not (packet.c 2313-2345),
    whether it acknowledges a packet of the initial context not acknowledged before, and
    the outcome. *)
Record rseg := mk_rseg {
  r_kind : rkind; r_dcid : rdcid; r_ok : bool; r_stop : bool; r_acks : bool; r_out : outcome }.

(** picoquic/picoquic_internal.h 42. *)
Definition enforced_mtu : N := 1200.

(** picoquic/quicctx.c 4695-4727 (picoquic_connection_error_ex), the state.  In the state
    server_almost_ready, which is larger than server_false_start, nothing changes. *)
Definition conn_error (a : amp) : amp :=
  match a_phase a with
  | Ph_ready | Ph_false => set_phase a Ph_disc
  | Ph_init => set_phase a Ph_fail
  | _ => a
  end.

(** picoquic/frames.c 4149 and 4192: the state after a frame CONNECTION_CLOSE or
    APPLICATION_CLOSE. *)
Definition peer_close (a : amp) : amp :=
  match a_phase a with
  | Ph_init | Ph_fail | Ph_resend | Ph_false | Ph_almost => set_phase a Ph_gone
  | _ => if a_key1 a then set_phase a Ph_closing_rcvd else set_phase a Ph_gone
  end.

(** The outcome of the frames and of TLS on a connection, in a packet of type initial
    (tls_api.c 2425-2626): the keys for sending may appear, not the key for reading
    1-RTT packets. *)
Definition initial_outcome (a : amp) (o : outcome) : amp :=
  match o with
  | O_error => conn_error a
  | O_close => peer_close a
  | O_keys => set_hs a true (a_hs_rcvd a) (a_key1 a)
  | O_almost => let a := set_hs a true (a_hs_rcvd a) (a_key1 a) in
                match a_phase a with Ph_init => set_phase a Ph_almost | _ => a end
  | _ => a
  end.

(** picoquic/packet.c 1369-1480 (picoquic_incoming_client_initial).  The boolean: the
    processing of the datagram goes on.  SERVER_BUSY and a connection id
    that is too short (1398-1409) are covered by [O_error]. *)
Definition client_initial (a : amp) (s : rseg) : amp * bool :=
  let a := match r_dcid s with
           | D_local => if a_empty a then a else set_valid a true
           | _ => a
           end in
  match a_phase a with
  | Ph_init | Ph_fail | Ph_resend | Ph_false =>
    let b := initial_outcome a (r_out s) in
    (if r_acks s && a_random a then set_valid b true else b, true)
  | Ph_almost => (a, true)
  | _ => (a, false)
  end.

(** picoquic/packet.c 1810-1851 (picoquic_incoming_0rtt). *)
Definition client_zero (a : amp) (s : rseg) : amp * bool :=
  match r_dcid s with
  | D_other => (a, false)
  | _ =>
    match a_phase a with
    | Ph_almost | Ph_false =>
      match r_out s with
      | O_error => (conn_error a, false)
      | O_close => (peer_close a, true)
      | _ => (set_ack a true, true)
      end
    | _ => (a, false)
    end
  end.

(** picoquic/packet.c 1731-1788 (picoquic_incoming_client_handshake). *)
Definition client_handshake (a : amp) (s : rseg) : amp * bool :=
  let a := set_valid a true in
  match a_phase a with
  | Ph_init | Ph_fail | Ph_resend | Ph_false =>
    let a := set_hs a (a_hs a) true (a_key1 a) in
    match r_out s with
    | O_error => (conn_error a, true)
    | O_close => (peer_close a, true)
    | O_finished => (set_phase (set_hs a (a_hs a) true true) Ph_ready, true)
    | _ => (a, true)
    end
  | Ph_almost | Ph_ready => (set_hs a (a_hs a) true (a_key1 a), true)
  | _ => (a, false)
  end.

(** picoquic/packet.c 1888-1992 (picoquic_incoming_1rtt), the states only. *)
Definition client_one (a : amp) (s : rseg) : amp * bool :=
  match a_phase a with
  | Ph_gone | Ph_init | Ph_fail | Ph_resend => (a, false)
  | Ph_disc | Ph_closing =>
    match r_out s with
    | O_close => (set_phase a Ph_draining, true)
    | _ => (set_ack a true, true)
    end
  | Ph_closing_rcvd | Ph_draining => (a, true)
  | Ph_false | Ph_almost | Ph_ready =>
    match r_out s with
    | O_error => (conn_error a, true)
    | O_close => (peer_close a, true)
    | O_acked => (match a_phase a with Ph_false => set_phase a Ph_ready | _ => a end, true)
    | _ => (set_ack a true, true)
    end
  end.

(** picoquic/packet.c 2080-2106: previous_dest_id, [None] if it is the null connection
    id. *)
Definition dest_of (a : amp) (d : rdcid) : option rdcid :=
  match d with
  | D_local => if a_empty a then None else Some d
  | _ => Some d
  end.

(** Comparison of destinations (util.c 353-365). *)
Definition same_dcid (d e : rdcid) : bool :=
  match d, e with
  | D_initial, D_initial | D_local, D_local | D_other, D_other => true
  | _, _ => false
  end.

(** picoquic/packet.c 2205-2212 and 2253-2259: the whole datagram counts if the packet is
    the first of the datagram. *)
Definition count_recv (a : amp) (first : bool) (len : N) : amp :=
  if first then set_recv a (u64 (a_recv a + len)) else a.

(** picoquic/packet.c 2048-2354 (picoquic_incoming_segment) and 760-876
    (picoquic_parse_header_and_decrypt), for a packet of this connection in a datagram of
    [len] bytes, [prev] being the previous destination.  The boolean: the processing of
    the datagram goes on. *)
Definition rx_segment (a : amp) (len : N) (prev : option rdcid) (s : rseg) : amp * option rdcid * bool :=
  let first := match prev with None => true | Some _ => false end in
  let other := match prev with None => false | Some d => negb (same_dcid d (r_dcid s)) end in
  let next := match prev with None => dest_of a (r_dcid s) | Some d => Some d end in
  if negb (r_ok s) then (a, next, negb (r_stop s))
  else if other then (a, next, false)
  else match r_kind s with
  | K_initial =>
    if len <? enforced_mtu then (a, next, false) else
    match r_dcid s with
    | D_other => (a, next, false)
    | _ => let '(b, c) := client_initial (count_recv a first len) s in (b, next, c)
    end
  | K_zero => let '(b, c) := client_zero (count_recv a first len) s in (b, next, c)
  | K_handshake => let '(b, c) := client_handshake a s in (b, next, c)
  | K_one => if a_key1 a then let '(b, c) := client_one a s in (b, next, c) else (a, next, true)
  end.

(** picoquic/packet.c 2356-2396 (picoquic_incoming_packet_ex). *)
Fixpoint rx_segments (a : amp) (len : N) (prev : option rdcid) (l : list rseg) : amp :=
  match l with
  | nil => a
  | s :: r => let '(b, next, go) := rx_segment a len prev s in
              if go then rx_segments b len next r else b
  end.

(** A datagram (packet.c 2367: no destination is known at first). *)
Definition rx_datagram (a : amp) (len : N) (l : list rseg) : amp := rx_segments a len None l.

(** ** Outgoing packets *)

(** What the formatting functions would put in a packet: the number of bytes with the
    protection, whether it is a 1-RTT packet, whether it is an MTU probe (sender.c
    3142-3156); and what happens to the connection while it is prepared: nothing, the last
    handshake data is sent and the state becomes server_false_start (sender.c 2231-2248),
    the application or a callback makes an error after that. *)
Inductive turn := T_none | T_false_start | T_error.
Record wish := mk_wish { w_len : N; w_one : bool; w_probe : bool; w_turn : turn }.

(** picoquic/sender.c 2191-2196 and 2941-2945: the check against amplification. *)
Definition over_limit (a : amp) (lim : N) : bool :=
  negb (a_valid a) && (u64 (3 * a_recv a) <? u64 (a_sent a + lim)).

(** picoquic/sender.c 2293-2296 and 3225-3227. *)
Definition count_sent (a : amp) (n : N) : amp :=
  if a_valid a then a else set_sent a (u64 (a_sent a + n)).

(** picoquic/sender.c 2152-2300 (picoquic_prepare_packet_server_init), sizes and state. *)
Definition prepare_server_init (a : amp) (avail : N) (w : wish) : amp * N :=
  let lim := N.min avail (a_mtu a) in
  if over_limit a lim then (a, 0) else
  let n := N.min (w_len w) lim in
  let b := match w_turn w with
           | T_none => a
           | T_false_start => set_phase a Ph_false
           | T_error => conn_error (set_phase a Ph_false)
           end in
  (count_sent b n, n).

(** picoquic/sender.c 2920-3237 (picoquic_prepare_packet_almost_ready) at a server, sizes
    and state; the probe (1558-1578) fills what is available, not what was checked. *)
Definition prepare_almost_ready (a : amp) (avail : N) (w : wish) : amp * N :=
  let lim := N.min avail (a_mtu a) in
  if over_limit a lim then (a, 0) else
  match w_turn w with
  | T_error => (conn_error a, 0)
  | _ => let n := if w_probe w && (a_mtu a <? avail) then N.min (w_len w) avail else N.min (w_len w) lim in
         (count_sent a n, n)
  end.

(** picoquic/sender.c 3240-3677 (picoquic_prepare_packet_ready), sizes only. *)
Definition prepare_ready (a : amp) (avail : N) (w : wish) : amp * N :=
  (a, if w_probe w then N.min (w_len w) avail else N.min (w_len w) (N.min avail (a_mtu a))).

(** picoquic/sender.c 2302-2545 (picoquic_prepare_packet_closing), sizes and state.  The
    times of the state closing are left out: the application context may send as soon as
    ack_needed is set. *)
Definition prepare_closing (a : amp) (avail : N) (w : wish) : amp * N :=
  let n := N.min (w_len w) (N.min avail (a_mtu a)) in
  match a_phase a with
  | Ph_fail =>
    if a_hs a && a_hs_rcvd a then (set_phase a Ph_gone, n)
    else if a_hs a then (set_phase a Ph_resend, n) else (set_phase a Ph_gone, n)
  | Ph_resend => (set_phase a Ph_gone, n)
  | Ph_disc => (set_ack (set_phase a Ph_closing) false, n)
  | Ph_closing_rcvd => (set_phase a Ph_draining, n)
  | Ph_closing => if a_ack a then (set_ack a false, n) else (a, 0)
  | _ => (a, 0)
  end.

(** picoquic/sender.c 3722-3795 (picoquic_prepare_segment). *)
Definition prepare_segment (a : amp) (avail : N) (w : wish) : amp * N :=
  match a_phase a with
  | Ph_init | Ph_almost => prepare_server_init a avail w
  | Ph_false => if a_key1 a then prepare_ready (set_phase a Ph_ready) avail w else prepare_almost_ready a avail w
  | Ph_ready => prepare_ready a avail w
  | Ph_gone => (a, 0)
  | _ => prepare_closing a avail w
  end.

(** picoquic/picoquic_internal.h 41. *)
Definition min_segment : N := 256.

(** picoquic/sender.c 3934-4016: the segments of one datagram; [psize] is packet_size,
    [pmax] packet_max, [dont] dont_coalesce_init.  One wish is used for each call of
    picoquic_prepare_segment; when there are no more, nothing is sent.  Returns
    packet_size and the wishes that are left. *)
Fixpoint fill (a : amp) (dont : bool) (psize pmax : N) (ws : list wish) : amp * N * list wish :=
  if negb (psize =? 0) && (a_mtu a <? psize + min_segment) then (a, psize, ws) else
  match ws with
  | nil => (a, psize, nil)
  | w :: r =>
    let '(b, n) := prepare_segment a (if psize =? 0 then pmax else a_mtu a - psize) w in
    if (n =? 0) || w_one w || dont then (b, psize + n, r) else fill b dont (psize + n) pmax r
  end.

(** picoquic/sender.c 4040-4075: whether another datagram is made after one of [psize]
    bytes, and the new value of send_msg_size; [msg] is send_msg_size, [max]
    send_buffer_max, [total] *send_length. *)
Definition next_datagram (msg : option N) (max total psize : N) : option N :=
  match msg with
  | None => None
  | Some m =>
    if m <? psize then Some psize
    else if negb (psize =? m) then None
    else if max <? total + m then None
    else Some m
  end.

(** picoquic/sender.c 3923-3933: the buffer of the next datagram. *)
Definition packet_max (msg : option N) (max total : N) : N :=
  match msg with
  | Some m => if (0 <? m) && (0 <? total) && (m <? max - total) then m else max - total
  | None => max - total
  end.

(** picoquic/sender.c 3920-4078: the datagrams made by one call.  [None]: out of fuel. *)
Fixpoint send_loop (fuel : nat) (a : amp) (dont : bool) (msg : option N) (max total : N) (ws : list wish)
  : option (amp * list N) :=
  match fuel with
  | O => None
  | S f =>
    let '(b, psize, r) := fill a dont 0 (packet_max msg max total) ws in
    let out := if psize =? 0 then nil else psize :: nil in
    match next_datagram msg max (total + psize) psize with
    | None => Some (b, out)
    | Some m =>
      match send_loop f b dont (Some m) max (total + psize) r with
      | None => None
      | Some (c, o) => Some (c, out ++ o)
      end
    end
  end.

(** picoquic/sender.c 3866-4080 (picoquic_prepare_packet_ex): [max] the size of the
    buffer; [batch] whether the caller gives a send_msg_size. *)
Definition prepare_packet (a : amp) (dont batch : bool) (max : N) (ws : list wish) : option (amp * list N) :=
  if max <? enforced_mtu then Some (a, nil)
  else send_loop (S (length ws)) a dont (if batch then Some (a_mtu a) else None) max 0 ws.

(** ** Executions *)

(** Events: a datagram of the connection arrives; the connection is polled; the
    application closes the connection (sender.c 4091-4111), drops it (4113-4126); the
    timer of the handshake or of idleness expires (3679-3720). *)
Inductive event :=
| E_datagram (len : N) (l : list rseg)
| E_poll (dont batch : bool) (max : N) (ws : list wish)
| E_close
| E_drop
| E_timeout.

(** picoquic/sender.c 4091-4111 (picoquic_close). *)
Definition app_close (a : amp) : amp :=
  match a_phase a with
  | Ph_ready | Ph_false => set_phase a Ph_disc
  | Ph_init | Ph_almost | Ph_fail | Ph_resend => set_phase a Ph_fail
  | _ => a
  end.

(** picoquic/sender.c 4113-4126 (picoquic_close_immediate). *)
Definition app_drop (a : amp) : amp :=
  match a_phase a with
  | Ph_draining | Ph_gone => a
  | _ => set_phase a Ph_draining
  end.

(** One event, with the datagrams sent. *)
Definition step (a : amp) (e : event) : option (amp * list N) :=
  match e with
  | E_datagram len l => Some (rx_datagram a len l, nil)
  | E_poll dont batch max ws => prepare_packet a dont batch max ws
  | E_close => Some (app_close a, nil)
  | E_drop => Some (app_drop a, nil)
  | E_timeout => Some (set_phase a Ph_gone, nil)
  end.

(** A sequence of events: the state at the end, the datagrams sent in order. *)
Fixpoint run (a : amp) (es : list event) : option (amp * list N) :=
  match es with
  | nil => Some (a, nil)
  | e :: r =>
    match step a e with
    | None => None
    | Some (b, o) => match run b r with None => None | Some (c, p) => Some (c, o ++ p) end
    end
  end.
