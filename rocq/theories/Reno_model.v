(** Model of the NewReno congestion control, picoquic/newreno.c and the parts of
    picoquic/cc_common.c that it uses (definitions only). *)
From Verif Require Import Base.

(** picoquic/picoquic_internal.h 89-90, PICOQUIC_CWIN_INITIAL (10 * 1536) and
    PICOQUIC_CWIN_MINIMUM (2 * 1536). *)
Definition cwin_initial : N := 15360.
Definition cwin_minimum : N := 3072.

(** picoquic/cc_common.h 122-129, picoquic_newreno_sim_state_t. *)
Record sim := mk_sim {
  nr_slow : bool;          (* alg_state == picoquic_newreno_alg_slow_start *)
  nr_cwin : N;             (* cwin *)
  nr_residual : N;         (* residual_ack *)
  nr_ssthresh : N;         (* ssthresh *)
  nr_start : N;            (* recovery_start *)
  nr_sequence : N          (* recovery_sequence *)
}.

(** picoquic/cc_common.h 61-74, picoquic_min_max_rtt_t, the fields used by the test of
    delays; the smoothed loss rates are only used by other algorithms. *)
Record minmax := mk_minmax {
  mm_last : N;             (* last_rtt_sample_time *)
  mm_filtered : N;         (* rtt_filtered_min *)
  mm_excess : N;           (* nb_rtt_excess *)
  mm_current : nat;        (* sample_current *)
  mm_init : bool;          (* is_init *)
  mm_min : N;              (* sample_min *)
  mm_max : N;              (* sample_max *)
  mm_samples : list N      (* samples *)
}.

(** The state after memset, picoquic/newreno.c 184. *)
Definition minmax_start : minmax := mk_minmax 0 0 0 0 false 0 0 [0; 0; 0; 0; 0; 0; 0].

(** An assignment of an entry of samples. *)
Fixpoint set_sample (l : list N) (i : nat) (v : N) : list N :=
  match l, i with
  | [], _ => []
  | _ :: l', O => v :: l'
  | x :: l', S i' => x :: set_sample l' i' v
  end.

(** picoquic/cc_common.c 88-94, the loop of picoquic_cc_filter_rtt_min_max. *)
Fixpoint minmax_loop (l : list N) (mn mx : N) : N * N :=
  match l with
  | [] => (mn, mx)
  | x :: l' => if x <? mn then minmax_loop l' x mx else if mx <? x then minmax_loop l' mn x else minmax_loop l' mn mx
  end.

(** picoquic/cc_common.c 70-95, picoquic_cc_filter_rtt_min_max; no result when the
    index is out of the array. *)
Definition filter_min_max (t : minmax) (rtt : N) : option minmax :=
  let x := mm_current t in
  if (x <? 7)%nat then
    let samples := set_sample (mm_samples t) x rtt in
    let wraps := (7 <=? S x)%nat in
    let init := mm_init t || wraps in
    let xmax := if init then 7%nat else S x in
    let s0 := nth 0 samples 0 in
    let '(mn, mx) := minmax_loop (firstn (xmax - 1) (skipn 1 samples)) s0 s0 in
    Some (mk_minmax (mm_last t) (mm_filtered t) (mm_excess t) (if wraps then O else S x) init mn mx samples)
  else None.

(** picoquic/cc_common.c 159-192, picoquic_cc_hystart_test. *)
Definition hystart_test (t : minmax) (rtt now : N) : option (minmax * bool) :=
  if u64 (mm_last t + 1000) <? now then
    match filter_min_max t rtt with
    | None => None
    | Some t1 =>
      let t2 := mk_minmax now (mm_filtered t1) (mm_excess t1) (mm_current t1) (mm_init t1) (mm_min t1) (mm_max t1) (mm_samples t1) in
      if mm_init t2 then
        let f := if (mm_filtered t2 =? 0) || (mm_max t2 <? mm_filtered t2) then mm_max t2 else mm_filtered t2 in
        let set_excess n := mk_minmax (mm_last t2) f n (mm_current t2) (mm_init t2) (mm_min t2) (mm_max t2) (mm_samples t2) in
        if f <? mm_min t2 then
          if u64 (f + f / 4) <? mm_min t2 then Some (set_excess (mm_excess t2 + 1), 7 <=? mm_excess t2 + 1)
          else Some (set_excess (mm_excess t2), false)
        else Some (set_excess 0, false)
      else Some (t2, false)
    end
  else Some (t, false).

(** The fields of the connection, of the path and of the notification that NewReno
    reads. *)
Record ccin := mk_ccin {
  ci_now : N;              (* current_time *)
  ci_bytes : N;            (* ack_state->nb_bytes_acknowledged *)
  ci_lost : N;             (* ack_state->lost_packet_number *)
  ci_rtt : N;              (* ack_state->rtt_measurement or one_way_delay *)
  ci_next : N;             (* picoquic_cc_get_sequence_number *)
  ci_acked : N;            (* picoquic_cc_get_ack_number *)
  ci_acked_time : N;       (* picoquic_cc_get_ack_sent_time *)
  ci_multipath : bool;     (* cnx->is_multipath_enabled *)
  ci_mtu : N;              (* path_x->send_mtu *)
  ci_smoothed : N;         (* path_x->smoothed_rtt *)
  ci_rtt_min : N;          (* path_x->rtt_min *)
  ci_peak : N;             (* path_x->peak_bandwidth_estimate *)
  ci_limited : bool        (* path_x->last_time_acked_data_frame_sent <= path_x->last_sender_limited_time *)
}.

(** picoquic/picoquic.h 1523-1534, picoquic_congestion_notification_t; the notifications that
    NewReno ignores are one constructor. *)
Inductive notification :=
| NAck | NRepeat | NTimeout | NSpurious | NRtt | NEcn | NBlocked | NSeed | NReset | NOther.

(** picoquic/newreno.c 36-43, picoquic_newreno_sim_reset. *)
Definition sim_reset : sim := mk_sim true cwin_initial 0 max64 0 0.

(** picoquic/newreno.c 47-71, picoquic_newreno_sim_enter_recovery. *)
Definition enter_recovery (s : sim) (timeout : bool) (i : ccin) : sim :=
  let th := if nr_cwin s / 2 <? cwin_minimum then cwin_minimum else nr_cwin s / 2 in
  mk_sim timeout (if timeout then cwin_minimum else th) 0 th (ci_now i) (ci_next i).

(** picoquic/newreno.c 75-85, picoquic_newreno_sim_seed_cwin. *)
Definition sim_seed (s : sim) (seed : N) : sim :=
  if nr_slow s && (nr_ssthresh s =? max64) && (nr_cwin s <? seed)
  then mk_sim false seed (nr_residual s) seed (nr_start s) (nr_sequence s) else s.

(** picoquic/newreno.c 133-160, spurious repeats. *)
Definition sim_spurious (s : sim) (i : ccin) : sim :=
  if (u64 (ci_now i + two64 - nr_start s) <? ci_smoothed i) &&
     (if ci_multipath i then ci_acked_time i <? nr_start s else ci_acked i <? nr_sequence s) then
    if negb (nr_ssthresh s =? max64) && (nr_cwin s <? u64 (2 * nr_ssthresh s))
    then mk_sim false (u64 (2 * nr_ssthresh s)) (nr_residual s) (nr_ssthresh s) (nr_start s) (nr_sequence s)
    else s
  else s.

(** picoquic/newreno.c 90-171, picoquic_newreno_sim_notify.  No result for a division
    by zero. *)
Definition sim_notify (s : sim) (n : notification) (i : ccin) : option sim :=
  match n with
  | NAck =>
    if nr_slow s then
      let w := u64 (nr_cwin s + ci_bytes i) in
      Some (mk_sim (w <? nr_ssthresh s) w (nr_residual s) (nr_ssthresh s) (nr_start s) (nr_sequence s))
    else if nr_cwin s =? 0 then None
    else
      let d := u64 (u64 (ci_bytes i * ci_mtu i) + nr_residual s) in
      Some (mk_sim false (u64 (nr_cwin s + d / nr_cwin s)) (d mod nr_cwin s) (nr_ssthresh s) (nr_start s) (nr_sequence s))
  | NEcn | NRepeat | NTimeout =>
    Some (if nr_sequence s <=? ci_lost i then enter_recovery s (match n with NTimeout => true | _ => false end) i else s)
  | NSpurious => Some (sim_spurious s i)
  | NReset => Some sim_reset
  | NSeed => Some (sim_seed s (ci_bytes i))
  | _ => Some s
  end.

(** picoquic/newreno.c 177-180, the state of NewReno, with the window of the path. *)
Record reno := mk_reno { re_sim : sim; re_filter : minmax; re_cwin : N }.

(** picoquic/newreno.c 182-187, picoquic_newreno_reset. *)
Definition reno_reset : reno := mk_reno sim_reset minmax_start cwin_initial.

(** picoquic/cc_common.c 242-254, picoquic_cc_update_target_cwin_estimation. *)
Definition target_cwin (cwin : N) (i : ccin) : N :=
  let min_win := u64 (ci_peak i * ci_smoothed i) / 1000000 / 2 in
  if cwin <? min_win then min_win else cwin.

(** picoquic/cc_common.c 256-273, picoquic_cc_update_cwin_for_long_rtt.  The C code
    multiplies and divides doubles, then truncates: the product is below 2^53, so exact,
    and the rounded quotient has the same integer part as the exact one, since that is
    an integer or at least 1/100000 away from the next. *)
Definition long_rtt_cwin (cwin : N) (i : ccin) : N :=
  let min_cwnd := cwin_initial * (if 610000 <? ci_rtt_min i then 610000 else ci_rtt_min i) / 100000 in
  if cwin <? min_cwnd then min_cwnd else cwin.

(** Initial slow start, the condition of picoquic/newreno.c 230, 265. *)
Definition initial_slow (s : sim) : bool := nr_slow s && (nr_ssthresh s =? max64).

(** An assignment of nrss.cwin. *)
Definition sim_set_cwin (s : sim) (w : N) : sim :=
  mk_sim (nr_slow s) w (nr_residual s) (nr_ssthresh s) (nr_start s) (nr_sequence s).

(** The notification of the simulation followed by the copy of its window, as in
    picoquic/newreno.c 240-241. *)
Definition notify_copy (r : reno) (n : notification) (i : ccin) : option reno :=
  match sim_notify (re_sim r) n i with
  | None => None
  | Some s => Some (mk_reno s (re_filter r) (nr_cwin s))
  end.

(** picoquic/newreno.c 214-298, picoquic_newreno_notify, for a state that is not NULL;
    the update of pacing (296) and the flags is_cc_data_updated and
    is_ssthresh_initialized are not modelled. *)
Definition reno_notify (r : reno) (n : notification) (i : ccin) : option reno :=
  match n with
  | NAck =>
    let r1 :=
      if initial_slow (re_sim r) then
        let w := target_cwin (re_cwin r) i in mk_reno (sim_set_cwin (re_sim r) w) (re_filter r) w
      else r in
    if ci_limited i then Some r1 else notify_copy r1 NAck i
  | NSeed | NEcn | NRepeat | NTimeout | NSpurious => notify_copy r n i
  | NRtt =>
    if initial_slow (re_sim r) then
      let r1 :=
        if 100000 <? ci_rtt_min i then
          let w := long_rtt_cwin (re_cwin r) i in mk_reno (sim_set_cwin (re_sim r) w) (re_filter r) w
        else r in
      match hystart_test (re_filter r1) (ci_rtt i) (ci_now i) with
      | None => None
      | Some (f, true) =>
        let s := re_sim r1 in
        Some (mk_reno (mk_sim false (nr_cwin s) (nr_residual s) (nr_cwin s) (nr_start s) (nr_sequence s)) f (nr_cwin s))
      | Some (f, false) => Some (mk_reno (re_sim r1) f (re_cwin r1))
      end
    else Some r
  | NReset => Some reno_reset
  | _ => Some r
  end.

(** Successive notifications; picoquic_newreno_init (newreno.c 189-206) resets the
    state. *)
Fixpoint reno_run (r : reno) (l : list (notification * ccin)) : option reno :=
  match l with
  | [] => Some r
  | (n, i) :: l' => match reno_notify r n i with None => None | Some r1 => reno_run r1 l' end
  end.
