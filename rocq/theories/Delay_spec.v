(** Specification vocabulary for the times at which acknowledgements are sent. *)
From Verif Require Import Base Sack_model Ack_model Ack_spec Delay_model.

(** The bytes are an ACK frame (RFC 9000 section 19.3) that names the packet
    number [q]. *)
Definition names (bytes : list N) (q : N) : Prop :=
  exists ty largest delay first blocks ecn rs,
    ack_frame ty None largest delay first blocks ecn bytes /\
    ((ty = 2 /\ ecn = []) \/ (ty = 3 /\ length ecn = 3%nat)) /\
    rfc_ranges largest first blocks = Some rs /\ in_ranges rs q.

(** The bytes are an ACK frame with the range [a, b]. *)
Definition has_range (bytes : list N) (a b : N) : Prop :=
  exists ty largest delay first blocks ecn rs,
    ack_frame ty None largest delay first blocks ecn bytes /\
    ((ty = 2 /\ ecn = []) \/ (ty = 3 /\ length ecn = 3%nat)) /\
    rfc_ranges largest first blocks = Some rs /\ In (a, b) rs.

(** What can be observed from outside: a packet was accepted (its number, its
    frames, the time), or an ACK frame was written (the bytes, whether it was
    cut short for lack of room, the number of ranges that were stored, the
    time). *)
Inductive obs :=
| ORecv (pn : N) (fs : list pframe) (t : N)
| OFrame (bytes : list N) (short : bool) (stored : nat) (t : N).

Definition otime (o : obs) : N := match o with ORecv _ _ t => t | OFrame _ _ _ t => t end.

(** Time does not go back. *)
Definition recent (h : list obs) (now : N) : Prop := forall o, In o h -> otime o <= now.

(** A frame named the number. *)
Definition named (h : list obs) (q : N) : Prop :=
  exists b m n t, In (OFrame b m n t) h /\ names b q.

(** A packet that asks for an acknowledgement was received at time [t] and no
    ACK frame named it yet. *)
Definition waiting (h : list obs) (q t : N) : Prop :=
  (exists fs, In (ORecv q fs t) h /\ existsb elicits fs = true) /\ ~ named h q.

(** No ACK frame was cut short, and at most 33 ranges were stored when it was
    written. *)
Definition calm (h : list obs) : Prop :=
  forall b m n t, In (OFrame b m n t) h -> m = false /\ (n <= 33)%nat.

Definition ecn_ok (ecn : option (N * N * N)) : Prop :=
  forall e0 e1 ce, ecn = Some (e0, e1, ce) -> e0 < 2 ^ 62 /\ e1 < 2 ^ 62 /\ ce < 2 ^ 62.

(** The fields of ACK_FREQUENCY frames are varints. *)
Definition frame_ok (f : pframe) : Prop :=
  match f with FFrequency a b c d => a < 2 ^ 62 /\ b < 2 ^ 62 /\ c < 2 ^ 62 /\ d < 2 ^ 62 | _ => True end.

(** A packet with that number was accepted. *)
Definition received (h : list obs) (q : N) : Prop := exists fs t, In (ORecv q fs t) h.

(** The executions: packets, polls, acknowledged ACKs and new estimates in any
    order.  Packet numbers are below 2^62, times below 2^62. *)
Inductive reach (s0 : dly) : list obs -> dly -> Prop :=
| reach_start : reach s0 [] s0
| reach_packet : forall h s pn fs now s2, reach s0 h s ->
    pn < 2 ^ 62 -> Forall frame_ok fs -> now < 2 ^ 62 -> recent h now ->
    receive s pn fs now = Some (s2, true) ->
    reach s0 (h ++ [ORecv pn fs now]) s2
| reach_quiet : forall h s c ecn now wake s2 m w, reach s0 h s ->
    ecn_ok ecn -> now < 2 ^ 62 -> recent h now ->
    poll s c ecn now wake = (s2, [], m, w) -> reach s0 h s2
| reach_frame : forall h s c ecn now wake s2 bytes m w, reach s0 h s ->
    ecn_ok ecn -> now < 2 ^ 62 -> recent h now ->
    poll s c ecn now wake = (s2, bytes, m, w) -> bytes <> [] ->
    reach s0 (h ++ [OFrame bytes m (length (sl_items (d_sl s))) now]) s2
| reach_acked : forall h s a b bytes m n t, reach s0 h s ->
    In (OFrame bytes m n t) h -> has_range bytes a b ->
    reach s0 h (ack_of_ack s a b)
| reach_tune : forall h s v s2, reach s0 h s -> v_neg v = d_neg s ->
    tune s v = Some s2 -> reach s0 h s2.

(** The connection starts, with or without the ACK_FREQUENCY extension. *)
Definition start (nb : N) (neg : bool) (s : dly) : Prop :=
  exists min exp max, s = dly_init nb neg min exp max.

(** The ACK_FREQUENCY frames received, in order. *)
Fixpoint requests (fs : list pframe) : list (N * (N * N * bool)) :=
  match fs with
  | [] => []
  | FFrequency q p m r :: fs' => (q, (p, m, r =? 0)) :: requests fs'
  | _ :: fs' => requests fs'
  end.

Definition all_requests (h : list obs) : list (N * (N * N * bool)) :=
  flat_map (fun o => match o with ORecv _ fs _ => requests fs | _ => [] end) h.

(** The first request among those with the highest sequence number. *)
Fixpoint newest (best : option (N * (N * N * bool))) (l : list (N * (N * N * bool))) : option (N * (N * N * bool)) :=
  match l with
  | [] => best
  | r :: l' =>
    newest (match best with
            | Some b => if fst b <? fst r then Some r else best
            | None => Some r
            end) l'
  end.
