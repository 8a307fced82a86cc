(** C49: before the address of a client is validated, a server sends it at most three
    times the bytes it received. *)
From Verif Require Import Base Amplify_model Amplify_spec Amplify_proofs Amplify2_proofs.

(** The loops that prepare the datagrams end. *)
Theorem C49_defined : forall es a, 0 < a_mtu a -> run a es <> None.
Proof. exact run_defined. Qed.
Print Assumptions C49_defined.

(** The limit, for every sequence of datagrams, of polls and of actions of the
    application in which no packet shows that the client receives at its address: as long
    as the handshake lasts, all the datagrams sent are together at most three times as
    long as all the datagrams received.  Partial: the MTU probes are assumed to be no
    longer than the MTU, the connection ids of the server not to be empty or the packets
    not to be coalesced, and the handshake not to have failed (see C49_closing_partial and
    the counterexamples below). *)
Theorem C49_limit_partial : forall empty random mtu es a o,
  mtu < big -> bytes (received es) < big ->
  no_address empty random es -> empty = false \/ single es -> probes_below mtu es ->
  run (amp_init empty random mtu false) es = Some (a, o) -> in_handshake (a_phase a) = true ->
  bytes o <= 3 * bytes (received es).
Proof. exact limit. Qed.
Print Assumptions C49_limit_partial.

(** In every other case the excess is bounded: by the excess of one probe over the MTU,
    two packets that close the connection, and one more each time the application closes
    it again. *)
Theorem C49_closing_partial : forall empty random mtu most es a o,
  mtu <= most -> most < big -> bytes (received es) < big ->
  no_address empty random es -> empty = false \/ single es -> probes_below most es ->
  run (amp_init empty random mtu false) es = Some (a, o) ->
  bytes o <= 3 * bytes (received es) + (most - mtu) + mtu * (2 + closes es).
Proof. exact limit_closing. Qed.
Print Assumptions C49_closing_partial.

Example C49_limit_ex :
  let es := hello :: E_poll false true 65536 (repeat want 10) :: hello :: E_poll false true 65536 (repeat want 10) :: nil in
  match run (amp_init false true 1252 false) es with
  | Some (a, o) => o = (1252 :: 1252 :: 1252 :: 1252 :: 1252 :: nil) /\ in_handshake (a_phase a) = true
  | None => False
  end /\ no_address false true es /\ probes_below 1252 es.
Proof.
  cbn zeta. split; [vm_compute; split; reflexivity|]. split.
  - intros len l s [X|[X|[X|[X|X]]]] Hs; try discriminate; try contradiction; injection X as <- <-;
      destruct Hs as [<-|[]]; reflexivity.
  - intros dont batch max ws w [X|[X|[X|[X|X]]]] Hw; try discriminate; try contradiction;
      injection X as <- <- <- <-; repeat (destruct Hw as [<-|Hw]; [discriminate|]); contradiction.
Qed.

(** The limit does not block the server too early: with something to send, it sends if and
    only if a full packet keeps within three times the bytes of the datagrams that begin
    with a packet of the handshake it could read. *)
Theorem C49_exact : forall random mtu es a o dont batch max w ws b p,
  0 < mtu -> mtu < big -> bytes (received es) < big -> no_address false random es -> probes_below mtu es ->
  run (amp_init false random mtu false) es = Some (a, o) -> in_handshake (a_phase a) = true ->
  1200 <= max -> 0 < w_len w -> w_turn w = T_none ->
  prepare_packet a dont batch max (w :: ws) = Some (b, p) ->
  p <> nil <-> bytes o + N.min max mtu <= 3 * total_counts es.
Proof. exact exact_limit. Qed.
Print Assumptions C49_exact.

Example C49_exact_ex :
  match run (amp_init false true 1200 false) (hello :: E_poll true false 1536 (want :: nil) :: E_poll true false 1536 (want :: nil) :: nil) with
  | Some (a, o) =>
    bytes o = 2400 /\
    match prepare_packet a true false 1536 (want :: nil) with
    | Some (b, p) => p = (1200 :: nil) /\ prepare_packet b true false 1536 (want :: nil) = Some (b, nil)
    | None => False
    end
  | None => False
  end.
Proof. vm_compute. repeat split; reflexivity. Qed.

(** Once a Handshake packet was received the limit is lifted for good. *)
Theorem C49_released : forall random token mtu es len s r fs a o dont batch max w ws b p,
  0 < mtu -> bytes (received (es ++ E_datagram len (s :: r) :: fs)) < two64 ->
  r_ok s = true -> r_kind s = K_handshake ->
  run (amp_init false random mtu token) (es ++ E_datagram len (s :: r) :: fs) = Some (a, o) ->
  in_handshake (a_phase a) = true ->
  1200 <= max -> 0 < w_len w -> w_turn w = T_none ->
  prepare_packet a dont batch max (w :: ws) = Some (b, p) -> p <> nil.
Proof. exact released. Qed.
Print Assumptions C49_released.

Example C49_released_ex :
  let acks := E_datagram 60 (mk_rseg K_handshake D_local true false true O_none :: nil) in
  match run (amp_init false true 1200 false) (hello :: E_poll true true 65536 (want :: want :: want_last 1200 :: nil) :: acks :: nil) with
  | Some (a, o) =>
    bytes o = 3600 /\ a_phase a = Ph_false /\
    match prepare_packet a true true 65536 (repeat want 20) with Some (_, p) => bytes p = 24000 | None => False end
  | None => False
  end.
Proof. vm_compute. repeat split; reflexivity. Qed.

(** A server whose connection ids are empty (packet.c 2080-2085: the first packet of a
    datagram is recognized by the previous destination being the null connection id):
    each Initial packet of a datagram counts the whole datagram, so that a client, or
    somebody who forges its address, gets more than nine times what was sent, and much
    more with more packets. *)
Theorem C49_empty_refuted : exists random mtu es a o,
  mtu = 1252 /\ no_address true random es /\ probes_below mtu es /\
  run (amp_init true random mtu false) es = Some (a, o) /\ in_handshake (a_phase a) = true /\
  9 * bytes (received es) < bytes o.
Proof. exact empty_refuted. Qed.
Print Assumptions C49_empty_refuted.

(** An MTU probe sent before the handshake ends is longer than what sender.c 2941-2945
    checked, and goes beyond the limit. *)
Theorem C49_probe_refuted : exists random mtu es a o,
  mtu = 1252 /\ no_address false random es /\ probes_below 1440 es /\
  run (amp_init false random mtu false) es = Some (a, o) /\ in_handshake (a_phase a) = true /\
  3 * bytes (received es) < bytes o.
Proof. exact probe_refuted. Qed.
Print Assumptions C49_probe_refuted.

(** The packets that close a connection whose handshake failed are neither checked against
    the limit nor counted (sender.c 2302-2545). *)
Theorem C49_close_refuted : exists random mtu es a o,
  mtu = 1200 /\ no_address false random es /\ probes_below mtu es /\ closes es = 1 /\
  run (amp_init false random mtu false) es = Some (a, o) /\ 3 * bytes (received es) < bytes o.
Proof. exact close_refuted. Qed.
Print Assumptions C49_close_refuted.
