(** Model of the selective acknowledgement list, picoquic/sacks.c (definitions
    only).

    The splay tree of ranges is represented by its in-order sequence; that the
    splay tree operations act on the in-order sequence in this way is the
    subject of Splay_model.v and P_Splay.v.  Memory allocation failure is not
    modelled. *)
From Verif Require Import Base.

(** picoquic/picoquic_internal.h 761-767, picoquic_sack_item_t: range bounds
    (inclusive), time of the last change, and the number of times the range was
    sent in regular [0] and opportunistic [1] ACKs. *)
Record sack_item := mk_item {
  ss : N;                (* start_of_sack_range *)
  se : N;                (* end_of_sack_range *)
  tc : N;                (* time_created *)
  nb0 : N;               (* nb_times_sent[0] *)
  nb1 : N                (* nb_times_sent[1] *)
}.

(** picoquic/picoquic_internal.h 769-777: rc[r].range_counts[i], the number of
    ranges that were sent i times, for i below PICOQUIC_MAX_ACK_RANGE_REPEAT. *)
Record counts := mk_counts { rc0 : N -> Z; rc1 : N -> Z }.

(** picoquic/picoquic_internal.h 773-778, picoquic_sack_list_t. *)
Record sack_list := mk_sl {
  sl_items : list sack_item;     (* ack_tree, in order *)
  sl_horizon : N;                (* ack_horizon *)
  sl_delay : Z;                  (* horizon_delay *)
  sl_rc : counts
}.

(** picoquic/picoquic_internal.h 117, PICOQUIC_MAX_ACK_RANGE_REPEAT. *)
Definition max_ack_range_repeat : N := 4.

(** [range_counts[k] += d], as used in picoquic/sacks.c 102-103, 114, 369, 479, 483. *)
Definition bump (c : N -> Z) (k : N) (d : Z) : N -> Z :=
  fun j => if j =? k then (c j + d)%Z else c j.

(** picoquic/sacks.c 89-108, picoquic_sack_insert_item: counters part. *)
Definition count_insert (c : counts) : counts :=
  mk_counts (bump (rc0 c) 0 1) (bump (rc1 c) 0 1).

(** picoquic/sacks.c 111-116, accounting of picoquic_sack_delete_item. *)
Definition count_delete (c : counts) (it : sack_item) : counts :=
  mk_counts (if nb0 it <? max_ack_range_repeat then bump (rc0 c) (nb0 it) (-1) else rc0 c)
            (if nb1 it <? max_ack_range_repeat then bump (rc1 c) (nb1 it) (-1) else rc1 c).

(** picoquic/sacks.c 487-496, picoquic_sack_item_record_reset: the item's
    repeat counters go to zero and the accounting follows. *)
Definition count_reset (c : counts) (it : sack_item) : counts :=
  count_insert (count_delete c it).

(** picoquic/sacks.c 487-496: the item after a reset, with new bounds and time. *)
Definition item_reset (s e t : N) : sack_item := mk_item s e t 0 0.

(** picoquic/sacks.c 476-485, picoquic_sack_item_record_sent, for
    [is_opportunistic = r]. *)
Definition item_sent (r : bool) (it : sack_item) : sack_item :=
  if r then mk_item (ss it) (se it) (tc it) (nb0 it) (nb1 it + 1)
  else mk_item (ss it) (se it) (tc it) (nb0 it + 1) (nb1 it).

(** picoquic/sacks.c 478-484: accounting of picoquic_sack_item_record_sent. *)
Definition bump_sent (c : N -> Z) (n : N) : N -> Z :=
  let c1 := if n <? max_ack_range_repeat then bump c n (-1) else c in
  if n + 1 <? max_ack_range_repeat then bump c1 (n + 1) 1 else c1.

Definition count_sent (r : bool) (c : counts) (it : sack_item) : counts :=
  if r then mk_counts (rc0 c) (bump_sent (rc1 c) (nb1 it))
  else mk_counts (bump_sent (rc0 c) (nb0 it)) (rc1 c).

(** picoquic/sacks.c 158-168, picoquic_sack_find_range_below_number: the last
    range that starts at or below the number.  [split_below acc l pn] returns
    the ranges up to it, nearest first, and the ranges after it. *)
Fixpoint split_below (acc l : list sack_item) (pn : N) : list sack_item * list sack_item :=
  match l with
  | it :: l' => if ss it <=? pn then split_below (it :: acc) l' pn else (acc, l)
  | [] => (acc, [])
  end.

(** picoquic/sacks.c 158-168. *)
Definition find_range_below (l : list sack_item) (pn : N) : option sack_item :=
  match fst (split_below [] l pn) with
  | p :: _ => Some p
  | [] => None
  end.

(** picoquic/sacks.c 175-189, picoquic_is_pn_already_received. *)
Definition is_pn_already_received (s : sack_list) (pn : N) : bool :=
  if ((0 <? sl_delay s)%Z && (pn <? sl_horizon s))%bool then true
  else match find_range_below (sl_items s) pn with
       | Some it => pn <=? se it
       | None => false
       end.

(** [x - 1] on uint64_t. *)
Definition pred64 (x : N) : N := if x =? 0 then max64 else x - 1.

(** picoquic/sacks.c 223-249, the while loop of picoquic_update_sack_list. *)
Fixpoint absorb (p : sack_item) (hi : list sack_item) (c : counts) (ret : N)
    (pn64_max now : N) : sack_item * list sack_item * counts * N :=
  if se p <? pn64_max then
    match hi with
    | n :: hi' =>
      if pn64_max <? pred64 (ss n) then
        (item_reset (ss p) pn64_max now, hi, count_reset c p, 0)
      else
        absorb (item_reset (ss p) (se n) (N.max (tc p) (tc n))) hi'
               (count_delete (count_reset c p) n) 0 pn64_max now
    | [] => (item_reset (ss p) pn64_max now, [], count_reset c p, 0)
    end
  else (p, hi, c, ret).

(** picoquic/sacks.c 197-249, picoquic_update_sack_list without the final
    horizon update.  The result 1 means duplicate, 0 means updated. *)
Definition update_items (l : list sack_item) (c : counts) (pn64_min pn64_max now : N)
  : list sack_item * counts * N :=
  let '(rlo, hi) := split_below [] l pn64_min in
  let no_overlap_below :=
    match rlo with
    | [] => true
    | p :: _ => u64 (se p + 1) <? pn64_min
    end in
  if no_overlap_below then
    match hi with
    | n :: hi' =>
      if pn64_max <? pred64 (ss n) then
        (rev_append rlo (mk_item pn64_min pn64_max now 0 0 :: hi), count_insert c, 0)
      else
        let '(p, hi2, c2, ret) :=
          absorb (item_reset pn64_min (se n) now) hi' (count_reset c n) 0 pn64_max now in
        (rev_append rlo (p :: hi2), c2, ret)
    | [] => (rev_append rlo [mk_item pn64_min pn64_max now 0 0], count_insert c, 0)
    end
  else
    match rlo with
    | p :: rlo' =>
      let '(p2, hi2, c2, ret) := absorb p hi c 1 pn64_max now in
      (rev_append rlo' (p2 :: hi2), c2, ret)
    | [] => (l, c, 1)
    end.

(** picoquic/sacks.c 384-403, picoquic_update_ack_horizon: the times are below
    2^63 so that the signed difference is exact. *)
Fixpoint update_horizon (l : list sack_item) (c : counts) (horizon : N) (delay : Z) (now : N)
  : list sack_item * counts * N :=
  match l with
  | it :: ((_ :: _) as l') =>
    if (max_ack_range_repeat <=? nb0 it) && (delay <? Z.of_N now - Z.of_N (tc it))%Z
    then update_horizon l' (count_delete c it) (se it + 1) delay now
    else (l, c, horizon)
  | _ => (l, c, horizon)
  end.

(** picoquic/sacks.c 197-256, picoquic_update_sack_list. *)
Definition update_sack_list (s : sack_list) (pn64_min pn64_max now : N) : sack_list * N :=
  let '(l, c, ret) := update_items (sl_items s) (sl_rc s) pn64_min pn64_max now in
  if (0 <? sl_delay s)%Z then
    let '(l2, c2, h) := update_horizon l c (sl_horizon s) (sl_delay s) now in
    (mk_sl l2 h (sl_delay s) c2, ret)
  else (mk_sl l (sl_horizon s) (sl_delay s) c, ret).

(** picoquic/sacks.c 258-294, picoquic_record_pn_received, for the sack list;
    the time stamps and the out of order flags are not modelled. *)
Definition record_pn_received (s : sack_list) (pn now : N) : sack_list * N :=
  update_sack_list s pn pn now.

(** picoquic/sacks.c 328-340, picoquic_check_sack_list: -1 is [true] here, the
    range is already included. *)
Definition check_sack_list (s : sack_list) (pn64_min pn64_max : N) : bool :=
  match find_range_below (sl_items s) pn64_min with
  | Some it => pn64_max <=? se it
  | None => false
  end.

(** picoquic/sacks.c 347-380, picoquic_process_ack_of_ack_range. *)
Definition ack_of_ack_items (l : list sack_item) (c : counts) (delay : Z)
    (start_of_range end_of_range : N) : list sack_item * counts :=
  let '(rlo, hi) := split_below [] l start_of_range in
  match rlo with
  | p :: rlo' =>
    if ss p =? start_of_range then
      match hi with
      | [] =>
        let p2 := if end_of_range <? se p
                  then mk_item (end_of_range + 1) (se p) (tc p) (nb0 p) (nb1 p)
                  else mk_item (se p) (se p) (tc p) (nb0 p) (nb1 p) in
        (rev_append rlo' [p2], c)
      | _ :: _ =>
        if se p =? end_of_range then
          if (0 <? delay)%Z then
            let k0 := if nb0 p <? max_ack_range_repeat then max_ack_range_repeat else nb0 p in
            let k1 := if nb1 p <? max_ack_range_repeat then max_ack_range_repeat else nb1 p in
            (rev_append rlo' (mk_item (ss p) (se p) (tc p) k0 k1 :: hi), count_delete c p)
          else (rev_append rlo' hi, count_delete c p)
        else (l, c)
      end
    else (l, c)
  | [] => (l, c)
  end.

(** picoquic/sacks.c 347-380. *)
Definition process_ack_of_ack_range (s : sack_list) (start_of_range end_of_range : N) : sack_list :=
  let '(l, c) := ack_of_ack_items (sl_items s) (sl_rc s) (sl_delay s) start_of_range end_of_range in
  mk_sl l (sl_horizon s) (sl_delay s) c.

(** picoquic/sacks.c 476-485, applied to the range at position [k]; a position
    outside the list has no counterpart in C and changes nothing. *)
Fixpoint record_sent_at (r : bool) (k : nat) (l : list sack_item) (c : counts)
  : list sack_item * counts :=
  match l, k with
  | [], _ => ([], c)
  | it :: l', O => (item_sent r it :: l', count_sent r c it)
  | it :: l', S k' => let '(l2, c2) := record_sent_at r k' l' c in (it :: l2, c2)
  end.

(** picoquic/sacks.c 408-412, picoquic_sack_list_first. *)
Definition sack_list_first (s : sack_list) : N :=
  match sl_items s with [] => max64 | it :: _ => ss it end.

(** picoquic/sacks.c 416-420, picoquic_sack_list_last: 0 when empty (the
    comment in the source says UINT64_MAX). *)
Definition sack_list_last (s : sack_list) : N :=
  match rev (sl_items s) with [] => 0 | it :: _ => se it end.

(** picoquic/sacks.c 432-437, picoquic_sack_list_init; [delay] is the value
    later stored in horizon_delay. *)
Definition sack_list_init (delay : Z) : sack_list :=
  mk_sl [] 0 delay (mk_counts (fun _ => 0%Z) (fun _ => 0%Z)).

(** picoquic/sacks.c 441-457, picoquic_sack_list_reset: free the ranges, clear the
    counters and insert one range. *)
Definition sack_list_reset (s : sack_list) (range_min range_max now : N) : sack_list :=
  mk_sl [mk_item range_min range_max now 0 0] (sl_horizon s) (sl_delay s)
        (count_insert (mk_counts (fun _ => 0%Z) (fun _ => 0%Z))).

(** picoquic/sacks.c 301-321, picoquic_sack_select_ack_ranges: returns
    (nb_sent_max, nb_sent_max_skip); [first_count] is the repeat count of the
    first range, [max_ack_range_repeat] when there is none. *)
Fixpoint select_loop (fuel : nat) (i : N) (cumul : Z) (c : N -> Z) (first_count : N) (max_ranges : Z)
  : N * Z :=
  match fuel with
  | O => (max_ack_range_repeat, 0%Z)
  | S f =>
    let cumul1 := (cumul + c i)%Z in
    let cumul2 := if i =? first_count then (cumul1 - 1)%Z else cumul1 in
    if (max_ranges <=? cumul2)%Z then (i, (cumul2 - max_ranges)%Z)
    else select_loop f (i + 1) cumul2 c first_count max_ranges
  end.

(** picoquic/sacks.c 301-321: four iterations. *)
Definition select_ack_ranges (c : N -> Z) (first_count : N) (max_ranges : Z) : N * Z :=
  select_loop 4 0 0 c first_count max_ranges.

(** Operations on a sack list in the life of a connection: reception of a
    packet number range (picoquic/packet.c 2300, frames.c 2362 and 3437), acknowledgement
    of one of our ACK ranges (frames.c 3035), and sending of a range
    (frames.c 3875 and 3903). *)
Inductive sack_op :=
| OpUpdate (pn64_min pn64_max now : N)
| OpAckOfAck (start_of_range end_of_range : N)
| OpSent (opportunistic : bool) (position : nat).

(** Effect of one operation (dispatch only; see the functions above). *)
Definition sack_step (s : sack_list) (o : sack_op) : sack_list :=
  match o with
  | OpUpdate a b t => fst (update_sack_list s a b t)
  | OpAckOfAck a b => process_ack_of_ack_range s a b
  | OpSent r k =>
    let '(l, c) := record_sent_at r k (sl_items s) (sl_rc s) in
    mk_sl l (sl_horizon s) (sl_delay s) c
  end.

(** A history of operations from the initial list. *)
Definition sack_run (delay : Z) (ops : list sack_op) : sack_list :=
  fold_left sack_step ops (sack_list_init delay).
