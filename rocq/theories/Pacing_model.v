(** Model of pacing, picoquic/pacing.c (definitions only).

    The floating point computations (pacing.c 142-143 and the second branch of
    187-233) are not modelled: the packet time and the quantum time in nanoseconds
    are arguments of [update_parameters].  int64_t values are integers; each arithmetic
    operation on them goes through uint64_t and back as in C. *)
From Verif Require Import Base.

(** picoquic/picoquic_internal.h 1009-1020, picoquic_pacing_t, without the reporting
    fields. *)
Record pacing := mk_pacing {
  pc_eval : N;         (* evaluation_time, microseconds *)
  pc_bucket : Z;       (* bucket_nanosec *)
  pc_max : Z;          (* bucket_max *)
  pc_packet : Z;       (* packet_time_nanosec *)
  pc_pause : bool      (* bandwidth_pause *)
}.

(** Conversion of uint64_t to int64_t (two's complement). *)
Definition s64 (x : Z) : Z :=
  let y := (x mod 18446744073709551616)%Z in
  if (y <? 9223372036854775808)%Z then y else (y - 18446744073709551616)%Z.

(** picoquic/pacing.c 28-35, picoquic_pacing_init. *)
Definition pacing_init (now : N) : pacing := mk_pacing now 16 16 1 false.

(** Assignments of the bucket and its time. *)
Definition pc_set (p : pacing) (t : N) (b : Z) : pacing := mk_pacing t b (pc_max p) (pc_packet p) (pc_pause p).

(** picoquic/pacing.c 39-52, picoquic_update_pacing_bucket. *)
Definition update_bucket (p : pacing) (now : N) : pacing :=
  let b := if (pc_bucket p <? - pc_packet p)%Z then (- pc_packet p)%Z else pc_bucket p in
  if pc_eval p <? now then
    let b2 := s64 (b + Z.of_N ((now - pc_eval p) * 1000)) in
    pc_set p now (if (pc_max p <? b2)%Z then pc_max p else b2)
  else pc_set p (pc_eval p) b.

(** picoquic/pacing.c 57-60, picoquic_is_pacing_blocked. *)
Definition is_pacing_blocked (p : pacing) : bool := (pc_bucket p <? pc_packet p)%Z.

(** picoquic/pacing.c 69-105, picoquic_is_authorized_by_pacing: the new state, the
    new value of next_time and the answer. *)
Definition is_authorized (p : pacing) (now next_time : N) (train : bool) : pacing * N * bool :=
  let p1 := update_bucket p now in
  if (pc_bucket p1 <? pc_packet p1)%Z then
    let required :=
      if train || pc_pause p1 then
        let r := if (s64 (10 * pc_packet p1) <? pc_max p1)%Z then s64 (10 * pc_packet p1) else pc_max p1 in
        s64 (r - pc_bucket p1)
      else s64 (pc_packet p1 - pc_bucket p1) in
    let next := Z.to_N ((Z.of_N now + 1 + Z.quot required 1000) mod 18446744073709551616) in
    if next <? next_time
    then (mk_pacing (pc_eval p1) (pc_bucket p1) (pc_max p1) (pc_packet p1) false, next, false)
    else (p1, next_time, false)
  else (p1, next_time, true).

(** picoquic/pacing.c 238-245, picoquic_update_pacing_data_after_send; no result
    when send_mtu is 0 (division by zero). *)
Definition after_send (p : pacing) (len mtu now : N) : option pacing :=
  if mtu =? 0 then None
  else
    let p1 := update_bucket p now in
    let cost := ((pc_packet p1 mod 18446744073709551616 * Z.of_N len + (Z.of_N mtu - 1))
                 mod 18446744073709551616 / Z.of_N mtu)%Z in
    Some (pc_set p1 (pc_eval p1) (s64 (pc_bucket p1 - cost))).

(** picoquic/pacing.c 187-203, the branch of picoquic_update_pacing_window taken for
    small windows ([cwin < 8 * send_mtu]) or a round trip of at most one
    microsecond. *)
Definition small_window (p : pacing) (smoothed_rtt : N) : pacing :=
  let m := s64 (Z.of_N (smoothed_rtt * 1000)) in
  mk_pacing (pc_eval p) (if (m <? pc_bucket p)%Z then m else pc_bucket p) m 1 (pc_pause p).

(** picoquic/pacing.c 139-180, picoquic_update_pacing_parameters, without the
    reporting; [pt] and [qt] are the values of [packet_time * 1e9] and
    [quantum_time * 1e9] converted to uint64_t. *)
Definition update_parameters (p : pacing) (pt qt smoothed_rtt : N) : pacing :=
  let rtt_nanosec := u64 (smoothed_rtt * 1000) in
  let packet0 := s64 (Z.of_N pt) in
  let packet := if (packet0 <=? 0)%Z then 1%Z
                else if rtt_nanosec <? Z.to_N packet0 then s64 (Z.of_N rtt_nanosec)
                else packet0 in
  let max0 := s64 (Z.of_N qt) in
  let max := if (max0 <=? 0)%Z then s64 (16 * packet) else max0 in
  mk_pacing (pc_eval p) (if (max <? pc_bucket p)%Z then max else pc_bucket p) max packet (pc_pause p).

(** What happens between two changes of parameters: a question (picoquic/sender.c
    3029, 3360; picoquic/paths.c 417), a packet sent whatever the answer
    (picoquic/sender.c 963: probes, acknowledgements), and a packet sent only if it is
    authorised. *)
Inductive pop :=
| PAsk (now next_time : N) (train : bool)
| PForced (now len : N)
| PPaced (now next_time : N) (train : bool) (len : N).

(** Time of an operation. *)
Definition p_time (o : pop) : N :=
  match o with PAsk t _ _ => t | PForced t _ => t | PPaced t _ _ _ => t end.

(** One operation; the second component are the packets sent by authorisation (time
    and length). *)
Definition pstep (mtu : N) (p : pacing) (o : pop) : option (pacing * list (N * N)) :=
  match o with
  | PAsk t n tr => Some (fst (fst (is_authorized p t n tr)), [])
  | PForced t len => match after_send p len mtu t with Some p' => Some (p', []) | None => None end
  | PPaced t n tr len =>
    let '(p1, _, ok) := is_authorized p t n tr in
    if ok then match after_send p1 len mtu t with Some p' => Some (p', [(t, len)]) | None => None end
    else Some (p1, [])
  end.

(** A history. *)
Fixpoint prun (mtu : N) (p : pacing) (ops : list pop) : option (pacing * list (N * N)) :=
  match ops with
  | [] => Some (p, [])
  | o :: t =>
    match pstep mtu p o with
    | None => None
    | Some (p1, g1) =>
      match prun mtu p1 t with
      | None => None
      | Some (p2, g2) => Some (p2, g1 ++ g2)
      end
    end
  end.

(** Histories with changes of parameters: an operation, the small window branch of
    picoquic_update_pacing_window (picoquic/pacing.c 194-203), or new parameters
    (its other branch, and picoquic_update_pacing_rate, pacing.c 258-263). *)
Inductive pevent :=
| POp (o : pop)
| PSmall (smoothed_rtt : N)
| PParams (pt qt smoothed_rtt : N).

(** One event. *)
Definition pestep (mtu : N) (p : pacing) (e : pevent) : option (pacing * list (N * N)) :=
  match e with
  | POp o => pstep mtu p o
  | PSmall rtt => Some (small_window p rtt, [])
  | PParams pt qt rtt => Some (update_parameters p pt qt rtt, [])
  end.

(** A history with changes. *)
Fixpoint perun (mtu : N) (p : pacing) (es : list pevent) : option (pacing * list (N * N)) :=
  match es with
  | [] => Some (p, [])
  | e :: t =>
    match pestep mtu p e with
    | None => None
    | Some (p1, g1) =>
      match perun mtu p1 t with
      | None => None
      | Some (p2, g2) => Some (p2, g1 ++ g2)
      end
    end
  end.
