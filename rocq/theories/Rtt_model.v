(** Model of the estimation of round trip times and of the retransmission delay,
    picoquic/timing.c (definitions only). *)
From Verif Require Import Base.

(** picoquic/picoquic_internal.h, the fields of picoquic_path_t used by
    picoquic_update_path_rtt; the one way delays are not modelled. *)
Record rtt := mk_rtt {
  rt_init : bool;        (* rtt_is_initialized *)
  rt_sample : N;         (* rtt_sample *)
  rt_smoothed : N;       (* smoothed_rtt *)
  rt_variant : N;        (* rtt_variant *)
  rt_timer : N;          (* retransmit_timer *)
  rt_min : N;            (* rtt_min *)
  rt_max : N;            (* rtt_max *)
  rt_nb : N;             (* nb_rtt_estimate_in_period *)
  rt_sum : N;            (* sum_rtt_estimate_in_period *)
  rt_pmin : N;           (* min_rtt_estimate_in_period *)
  rt_pmax : N;           (* max_rtt_estimate_in_period *)
  rt_prev_packet : N;    (* rtt_packet_previous_period *)
  rt_prev_time : N       (* rtt_time_previous_period *)
}.

(** picoquic/quicctx.c 1665-1668, the values set by picoquic_create_path; the path
    is zeroed before (quicctx.c 1651). *)
Definition rtt_start : rtt := mk_rtt false 0 250000 0 250000 0 0 0 0 0 0 0 0.

(** The arguments of a call of picoquic_update_path_rtt for a path that exists,
    with the fields of the connection that it reads. *)
Record measure := mk_measure {
  ms_epoch : Z;          (* epoch, negative for a measurement from a path response *)
  ms_send : N;           (* send_time *)
  ms_now : N;            (* current_time *)
  ms_delay : N;          (* ack_delay *)
  ms_multipath : bool;   (* cnx->is_multipath_enabled *)
  ms_ready : bool;       (* cnx->cnx_state >= picoquic_state_ready *)
  ms_path_acked : N;     (* old_path->pkt_ctx.highest_acknowledged *)
  ms_app_acked : N;      (* cnx->pkt_ctx[application].highest_acknowledged *)
  ms_local_delay : N;    (* cnx->local_parameters.max_ack_delay *)
  ms_remote_delay : N    (* cnx->remote_parameters.max_ack_delay *)
}.

(** picoquic/timing.c 185-191, the packet context: none, or its highest
    acknowledged number.  The epochs 0rtt and 1rtt are 1 and 3
    (picoquic_internal.h 254-260). *)
Definition rtt_context (m : measure) : option N :=
  if ms_multipath m then Some (ms_path_acked m)
  else if ((ms_epoch m =? 3) || (ms_epoch m =? 1))%Z then Some (ms_app_acked m)
  else None.

(** picoquic/timing.c 193-206, the sample. *)
Definition rtt_estimate (p : rtt) (m : measure) : N :=
  if ms_send m <? ms_now m then
    let e := ms_now m - ms_send m in
    if rt_init p && (0 <? ms_delay m) && ms_ready m then
      let d := if ms_local_delay m <? ms_delay m then ms_local_delay m else ms_delay m in
      if u64 (rt_min p + d) <? e then e - d else e
    else e
  else 0.

(** picoquic/timing.c 207-235, the accumulation of a sample. *)
Definition rtt_accumulate (p : rtt) (e : N) : rtt :=
  let nb := u64 (rt_nb p + 1) in
  mk_rtt (rt_init p) e (rt_smoothed p) (rt_variant p)
    (if rt_timer p <? e then e else rt_timer p)
    (if e <? rt_min p then e else rt_min p)
    (if rt_max p <? e then e else rt_max p)
    nb (u64 (rt_sum p + e))
    (if nb =? 1 then e else if e <? rt_pmin p then e else rt_pmin p)
    (if nb =? 1 then e else if rt_pmax p <? e then e else rt_pmax p)
    (rt_prev_packet p) (rt_prev_time p).

(** picoquic/timing.c 263-279, the sample of the variation. *)
Definition rtt_var_sample (p : rtt) : N :=
  if rt_pmax p <? rt_smoothed p then u64 (rt_smoothed p + two64 - rt_pmin p)
  else if rt_smoothed p <? rt_pmin p then u64 (rt_pmax p + two64 - rt_smoothed p)
  else
    let a := u64 (rt_smoothed p + two64 - rt_pmin p) in
    let b := u64 (rt_pmax p + two64 - rt_smoothed p) in
    if b <? a then a else b.

(** picoquic/timing.c 245-304, the end of a period; the parameters of delayed
    acknowledgements (286-292) are not modelled. *)
Definition rtt_end_period (p : rtt) (m : measure) (e : N) : rtt :=
  let avg := if 1 <? rt_nb p then rt_sum p / rt_nb p else e in
  let first := negb (rt_init p) in
  let smoothed := if first then avg else u64 (u64 (7 * rt_smoothed p) + avg) / 8 in
  let variant := if first then avg / 2 else u64 (u64 (3 * rt_variant p) + rtt_var_sample p) / 4 in
  mk_rtt true (rt_sample p) smoothed variant
    (u64 (u64 (smoothed + u64 (3 * variant)) + ms_remote_delay m))
    (if first then rt_pmin p else rt_min p) (rt_max p)
    0 0 max64 0
    (match rtt_context m with Some h => h | None => rt_prev_packet p end)
    (ms_now m).

(** picoquic/timing.c 179-318, picoquic_update_path_rtt, for a path that is not
    NULL.  The notifications to congestion control, to the application and the
    validation of the saved bandwidth (306-316) are not part of it; the one way
    delay (237-240) is not modelled. *)
Definition update_path_rtt (p : rtt) (m : measure) : rtt :=
  if negb (rt_init p) || (0 <=? ms_epoch m)%Z then
    let e := rtt_estimate p m in
    let p1 := rtt_accumulate p e in
    let ends :=
      match rtt_context m with
      | None => true
      | Some h => (rt_prev_packet p1 <? h) || (ms_now m <? u64 (rt_prev_time p1 + e / 4))
      end in
    if ends then rtt_end_period p1 m e else p1
  else p.

(** Successive calls of picoquic_update_path_rtt on a new path. *)
Definition rtt_run (ms : list measure) : rtt := fold_left update_path_rtt ms rtt_start.

(** The left shift of a uint64_t, undefined from 64 on. *)
Definition shl64 (x n : N) : option N :=
  if n <? 64 then Some (u64 (N.shiftl x n)) else None.

(** picoquic/timing.c 42-64, the retransmission delay before the caps that depend on
    the state; [idle] is cnx->idle_timeout. *)
Definition backoff_timer (timer nb idle : N) : N :=
  if 0 <? nb then
    let r :=
      if nb <? 3 then u64 (N.shiftl timer nb)
      else
        let n1 := if 18 <? nb - 2 then 18 else nb - 2 in
        let r1 := u64 (N.shiftl timer (2 + n1 / 4)) in
        u64 (r1 + N.shiftr (u64 (N.land n1 3 * r1)) 2) in
    if 15 <? idle then
      if N.shiftr idle 4 <? r then N.shiftr idle 4 else r
    else r
  else timer.

(** picoquic/timing.c 42-88, picoquic_current_retransmit_timer.  [handshake] is
    cnx->cnx_state < picoquic_state_client_ready_start, [idle] is cnx->idle_timeout
    (microseconds) and [max_idle] is cnx->local_parameters.max_idle_timeout
    (milliseconds).  No result when the shift is undefined. *)
Definition current_timer (p : rtt) (nb idle : N) (handshake : bool) (max_idle : N) : option N :=
  let r := backoff_timer (rt_timer p) nb idle in
  if handshake then
    if 30000 <? max_idle then
      match shl64 (rt_timer p) nb with
      | None => None
      | Some r2 => Some (if u64 (max_idle * 100) <? r2 then u64 (max_idle * 100) else r2)
      end
    else Some (if 1000000 <? r then 1000000 else r)
  else if 2000000 <? r then
    let alt := if 610000 <? rt_min p then N.shiftr (u64 (rt_smoothed p * 3)) 1 else 2000000 in
    Some (if alt <? r then alt else r)
  else Some r.
