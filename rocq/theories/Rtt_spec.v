(** What round trip time estimates and retransmission delays should be. *)
From Verif Require Import Base Rtt_model.

(** The time between sending and the acknowledgement, as observed. *)
Definition observed (m : measure) : N := ms_now m - ms_send m.

(** All observations lie within bounds. *)
Definition observed_within (lo hi : N) (ms : list measure) : Prop :=
  Forall (fun m => lo <= observed m <= hi) ms.

(** The delay of the peer, where it matters, is not absurd. *)
Definition sane_delays (D : N) (ms : list measure) : Prop :=
  Forall (fun m => ms_local_delay m <= D /\ ms_remote_delay m <= D) ms.

(** No sum of observations overflows. *)
Definition no_overflow (hi D : N) (ms : list measure) : Prop :=
  8 * (N.of_nat (length ms) + 1) * (hi + D + 1) < two64.

(** The factor applied to the timer after [n] timeouts: 1, 2, 4, 5, 6, 7, 8, 10,
    12, 14, 16, ... then 96 from the twentieth on. *)
Definition factor (n : N) : N :=
  nth (N.to_nat n) [1; 2; 4; 5; 6; 7; 8; 10; 12; 14; 16; 20; 24; 28; 32; 40; 48; 56; 64; 80] 96.

(** The largest delay of a connection that is established, after a timeout. *)
Definition delay_cap (p : rtt) (idle : N) : N :=
  let a := if 610000 <? rt_min p then rt_smoothed p * 3 / 2 else 2000000 in
  if 15 <? idle then N.min (idle / 16) a else a.

(** The estimates under which the delay is known to grow: not a long path, or so long
    that one and a half round trip exceeds the two seconds of the cap. *)
Definition regular (p : rtt) : Prop := rt_min p <= 610000 \/ 2000000 <= rt_smoothed p * 3 / 2.
