(** Specification of the limit on amplification: RFC 9000, section 8.1.  Bytes received
    and sent are counted from the events and from the datagrams alone. *)
From Verif Require Import Base Amplify_model.

(** Sum of sizes. *)
Definition bytes (l : list N) : N := fold_right N.add 0 l.

(** The datagrams received. *)
Fixpoint received (es : list event) : list N :=
  match es with
  | nil => nil
  | E_datagram len _ :: r => len :: received r
  | _ :: r => received r
  end.

(** A packet shows that the client receives at its address: it could be read and is a
    Handshake packet, or an Initial packet sent to the connection id that the server
    chose, or an acknowledgement of a packet with a random number. *)
Definition shows_address (empty random : bool) (s : rseg) : bool :=
  r_ok s &&
  match r_kind s with
  | K_handshake => true
  | K_initial =>
    match r_dcid s with D_local => negb empty | _ => false end || (r_acks s && random)
  | _ => false
  end.

(** No packet of the events does. *)
Definition no_address (empty random : bool) (es : list event) : Prop :=
  forall len l s, In (E_datagram len l) es -> In s l -> shows_address empty random s = false.

(** The datagrams that count for the server: the first packet could be read and is a
    0-RTT packet, or an Initial packet for this connection in a datagram of at least 1200
    bytes. *)
Definition counts (e : event) : N :=
  match e with
  | E_datagram len (s :: _) =>
    if r_ok s then
      match r_kind s, r_dcid s with
      | K_zero, _ => len
      | K_initial, D_initial | K_initial, D_local => if 1200 <=? len then len else 0
      | _, _ => 0
      end
    else 0
  | _ => 0
  end.

(** Their bytes. *)
Definition total_counts (es : list event) : N := fold_right (fun e n => counts e + n) 0 es.

(** The connection is still in its handshake. *)
Definition in_handshake (p : phase) : bool :=
  match p with Ph_init | Ph_almost | Ph_false => true | _ => false end.

(** The probes in the events are at most [n] bytes long. *)
Definition probes_below (n : N) (es : list event) : Prop :=
  forall dont batch max ws w, In (E_poll dont batch max ws) es -> In w ws -> w_probe w = true -> w_len w <= n.

(** Number of times the application closes the connection. *)
Definition closes (es : list event) : N :=
  N.of_nat (length (filter (fun e => match e with E_close => true | _ => false end) es)).

(** Every datagram holds one packet. *)
Definition single (es : list event) : Prop :=
  forall len l, In (E_datagram len l) es -> (length l <= 1)%nat.
