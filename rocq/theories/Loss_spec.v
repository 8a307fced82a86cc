(** Specification vocabulary for the detection of lost packets: no modular
    arithmetic, and the history of what was sent and acknowledged. *)
From Verif Require Import Base Rtt_model Ack_model Ack_spec Loss_model.

(** Delays and times are far from the limits of 64 bits (2^60 microseconds are more
    than 36000 years). *)
Definition small (n : N) : Prop := n < 2 ^ 60.

Definition rtt_small (r : rtt) : Prop := small (rt_timer r) /\ small (rt_smoothed r).

Definition config_small (cf : config) : Prop := small (cf_delay cf).

(** The ranges of an ACK frame: not empty, highest first (Ack_spec.rfc_ranges), and
    numbers are below 2^62. *)
Fixpoint ranges_below (top : N) (rs : list (N * N)) : Prop :=
  match rs with
  | [] => True
  | (low, high) :: rs' => low <= high /\ high < top /\ ranges_below low rs'
  end.

Definition event_ok (e : event) : Prop :=
  small (event_time e) /\
  match e with
  | EAck rs _ r _ => ranges_below two62 rs /\ rtt_small r
  | _ => True
  end.

(** The clock does not go back; [t] is the time of the last event. *)
Fixpoint in_time (t : N) (es : list event) : Prop :=
  match es with
  | [] => True
  | e :: es' => t <= event_time e /\ in_time (event_time e) es'
  end.

(** The time after some events. *)
Definition clock (t : N) (es : list event) : N := fold_left (fun _ e => event_time e) es t.

(** A run that is possible: from the first packet number [first] at time [start], with
    less than 2^60 packets. *)
Definition possible (cf : config) (pa : path) (first start : N) (es : list event) : Prop :=
  config_small cf /\ rtt_small (pa_rtt pa) /\ small first /\ small start /\
  small (N.of_nat (length es)) /\ Forall event_ok es /\ in_time start es.

(** The allowance for packets that arrive out of order: a quarter of the round trip
    time, at most 5 milliseconds. *)
Definition allowance (r : rtt) : N := N.min (rt_smoothed r / 4) 5000.

(** A higher number was acknowledged. *)
Definition overtaken (sp : space) (p : packet) : Prop :=
  sp_high sp < two62 /\ pk_seq p < sp_high sp.

(** Lost since a number at least 3 above was acknowledged. *)
Definition lost_number (sp : space) (p : packet) : Prop :=
  overtaken sp p /\ pk_seq p + 3 <= sp_high sp.

(** Lost since it is in flight for longer than the packet last acknowledged took, with
    the allowance and the delay of acknowledgements; or for longer than the
    retransmission delay. *)
Definition lost_time (cf : config) (sp : space) (p : packet) (now : N) : Prop :=
  overtaken sp p /\
  (pk_time p + rt_timer (pa_rtt (sp_path sp)) <= now \/
   pk_time p + (sp_high_time sp - sp_latest sp) + allowance (pa_rtt (sp_path sp)) + cf_delay cf <= now).

(** The retransmission timer: from the last packet sent; or twice as long from this
    packet when other packets were sent for all this time and there was no
    repetition. *)
Definition timed_out (cf : config) (sp : space) (last : N) (p : packet) (now : N) : Prop :=
  last + path_timer cf (sp_path sp) <= now \/
  (pa_nb (sp_path sp) = 0 /\ pk_time p + 2 * path_timer cf (sp_path sp) < last /\
   pk_time p + 2 * path_timer cf (sp_path sp) <= now).

(** Something is to be done for the packet. *)
Definition due (cf : config) (sp : space) (p : packet) (now : N) : Prop :=
  lost_number sp p \/ lost_time cf sp p now \/
  timed_out cf sp (last_time (sp_pending sp) p) p now.

(** A packet sent with the keys of the connection. *)
Definition regular_packet (p : packet) : Prop := pk_trap p = false /\ pk_zero p = false.

(** The reason for which a packet is declared lost at time [now], from the history:
    a later packet [q] was acknowledged, at time [t]; and it is at least 3 numbers
    later, or the packet is in flight for longer. *)
Definition overtaken_by (cf : config) (r : rtt) (hist : list action) (p : packet) (now : N) : Prop :=
  exists q t, In (ASent q) hist /\ In (AAck (pk_seq q) t) hist /\
    pk_seq p < pk_seq q /\ pk_time p <= pk_time q /\ pk_time q <= t /\ t <= now /\
    (pk_seq p + 3 <= pk_seq q \/
     pk_time p + rt_timer r <= now \/
     pk_time p + (t - pk_time q) + allowance r + cf_delay cf <= now).

(** The packets pending, acknowledged and gone are told apart by their numbers. *)
Definition released (hist : list action) (n : N) : nat :=
  length (filter (fun a => match a with ARelease m => m =? n | _ => false end) hist).
Definition gone (hist : list action) (n : N) : nat :=
  length (filter (fun a => match a with AGone p _ => pk_seq p =? n | _ => false end) hist).
Definition pending (sp : space) (n : N) : nat :=
  length (filter (fun p => pk_seq p =? n) (sp_pending sp)).
Definition numbered (hist : list action) (n : N) : nat :=
  length (filter (fun a => match a with ASent p | AHole p => pk_seq p =? n | _ => false end) hist).

(** No number is skipped. *)
Definition no_hole (e : event) : Prop := match e with EHole _ => False | _ => True end.
