(** Specification of pacing. *)
From Verif Require Import Base Pacing_model.

(** Bytes sent at times of an interval. *)
Fixpoint bytes_between (t0 t1 : N) (log : list (N * N)) : N :=
  match log with
  | [] => 0
  | (t, len) :: r => (if (t0 <=? t) && (t <=? t1) then len else 0) + bytes_between t0 t1 r
  end.

(** Times that do not decrease, from [t] on. *)
Fixpoint ordered (t : N) (ops : list pop) : bool :=
  match ops with
  | [] => true
  | o :: r => (t <=? p_time o) && ordered (p_time o) r
  end.

(** Magnitudes for which no 64-bit computation overflows: times before 2^52
    microseconds (year 2112), packets of at most 64K, one packet at most every 2^44
    nanoseconds (four hours), and a bucket of at most 2^61 nanoseconds. *)
Definition sane_time (o : pop) : bool := p_time o <? 4503599627370496.
Definition sane_len (mtu : N) (o : pop) : bool :=
  match o with PAsk _ _ _ => true | PForced _ len => len <? 65536 | PPaced _ _ _ len => len <=? mtu end.
Definition sane_pacing (p : pacing) : Prop :=
  (pc_eval p < 4503599627370496)%N /\
  (0 < pc_packet p <= 17592186044416)%Z /\ (0 <= pc_max p <= 2305843009213693952)%Z /\
  (- 4611686018427387904 <= pc_bucket p <= pc_max p)%Z.

(** Magnitudes of the changes: round trips from one microsecond to about four
    hours, a packet time of at most 2^44 nanoseconds and a bucket of at most 2^61. *)
Definition sane_rtt (rtt : N) : bool := (0 <? rtt) && (rtt * 1000 <=? 17592186044416).
Definition sane_event (mtu : N) (e : pevent) : bool :=
  match e with
  | POp o => sane_time o && sane_len mtu o
  | PSmall rtt => sane_rtt rtt
  | PParams pt qt rtt => sane_rtt rtt && (pt <=? 17592186044416) && (qt <=? 2305843009213693952)
  end.

(** Time of an event, if it has one. *)
Definition before (t1 : N) (e : pevent) : Prop :=
  match e with POp o => p_time o <= t1 | _ => True end.

(** The parameters that a change installs leave at least [P] nanoseconds per packet
    and at most [M] nanoseconds in the bucket. *)
Definition within_params (P M : Z) (e : pevent) : Prop :=
  match e with
  | POp _ => True
  | PSmall rtt => (P <= 1)%Z /\ (Z.of_N rtt * 1000 <= M)%Z
  | PParams pt qt rtt =>
    (P <= Z.max 1 (Z.min (Z.of_N pt) (Z.of_N rtt * 1000)))%Z /\
    ((if (0 <? qt)%N then Z.of_N qt else 16 * Z.max 1 (Z.min (Z.of_N pt) (Z.of_N rtt * 1000))) <= M)%Z
  end.

(** Bytes of a log. *)
Fixpoint sent_bytes (log : list (N * N)) : Z :=
  match log with [] => 0%Z | (_, len) :: r => (Z.of_N len + sent_bytes r)%Z end.
