(** Specification vocabulary for the challenges of new addresses (independent of the functions of the
    model): what was sent to a tuple, and at which times. *)
From Verif Require Import Base Chal_model.

(** What was decided for a tuple since its challenges were last set: the index of a challenge, or
    [None] for the failure, with its time and the timer of the path. *)
Definition since_step (id : N) (l : list (option N * N * N)) (e : cev) : list (option N * N * N) :=
  match e with
  | EChal i k _ t r => if i =? id then l ++ [(Some k, t, r)] else l
  | EFail i t r => if i =? id then l ++ [(None, t, r)] else l
  | EReset i => if i =? id then [] else l
  | EResp _ _ => l
  end.
Definition since (id : N) (evs : list cev) : list (option N * N * N) := fold_left (since_step id) evs [].

(** At most three challenges, then a failure: the second at least 250 ms after the first, the third
    at least twice the timer later, the failure four times the timer after that. *)
Definition spaced (l : list (option N * N * N)) : Prop :=
  match l with
  | [] => True
  | [(k1, _, _)] => k1 = Some 0
  | [(k1, t1, _); (k2, t2, _)] => k1 = Some 0 /\ k2 = Some 1 /\ t1 + 250000 <= t2
  | [(k1, t1, _); (k2, t2, _); (k3, t3, r3)] =>
    k1 = Some 0 /\ k2 = Some 1 /\ k3 = Some 2 /\ t1 + 250000 <= t2 /\ t2 + 2 * r3 <= t3
  | [(k1, t1, _); (k2, t2, _); (k3, t3, r3); (k4, t4, r4)] =>
    k1 = Some 0 /\ k2 = Some 1 /\ k3 = Some 2 /\ k4 = None /\
    t1 + 250000 <= t2 /\ t2 + 2 * r3 <= t3 /\ t3 + 4 * r4 <= t4
  | _ => False
  end.

(** A new path; times below 2^62 and timers below 2^60 microseconds; three challenges. *)
Definition ch_start (p : cpath) : Prop := cp_tuples p = [] /\ cp_rto p < 1152921504606846976.
Definition op_ok (o : cop) : Prop :=
  match o with
  | OAdd now c | ORenew now c => now < two62 /\ length c = 3%nat
  | OPrep now _ _ => now < two62
  | ORto r => r < 1152921504606846976
  | _ => True
  end.

(** The number of responses sent on a tuple, and of challenges of the peer for it. *)
Definition responses (id : N) (evs : list cev) : nat :=
  length (filter (fun e => match e with EResp i _ => i =? id | _ => false end) evs).
Definition asks (id : N) (l : list cop) : nat :=
  length (filter (fun o => match o with OAsk i _ => i =? id | _ => false end) l).

(** What remains to be sent or decided for the tuples of a path. *)
Definition todo1 (t : ctup) : nat :=
  ((if ct_ver t || ct_fail t then 0 else 4 - N.to_nat (ct_count t)) +
   match ct_resp t with Some _ => 1 | None => 0 end)%nat.
Definition todo (p : cpath) : nat := list_sum (map todo1 (cp_tuples p)).

(** A tuple that waits for its next challenge. *)
Definition waits (t : ctup) : Prop := ct_fail t = false /\ ct_req t = true /\ ct_ver t = false.

(** The time that the tuple waits for: RFC 9000 section 8.2.1 leaves the delays to the endpoint. *)
Definition due (rto : N) (t : ctup) (now : N) : N :=
  match ct_count t with
  | 0 => now
  | 1 => ct_time t + 250000
  | 2 => ct_time t + 2 * rto
  | _ => ct_time t + 4 * rto
  end.

(** The bytes that frames take: a type and eight bytes each (RFC 9000 sections 19.17, 19.18). *)
Definition frame_bytes (evs : list cev) : N :=
  fold_right (fun e n => n + match e with EChal _ _ _ _ _ | EResp _ _ => 9 | _ => 0 end) 0 evs.
