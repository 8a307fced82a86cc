(** What the window of NewReno should be. *)
From Verif Require Import Base Reno_model.

Definition history := list (notification * ccin).

(** Two full-size packets. *)
Definition two_packets : N := 2 * 1536.

(** The bytes reported by a notification: acknowledged, or the window of a seed. *)
Definition reported (e : notification * ccin) : N :=
  match fst e with NAck | NSeed => ci_bytes (snd e) + 1 | _ => 0 end.

Fixpoint total (h : history) : N :=
  match h with [] => 0 | e :: h' => reported e + total h' end.

(** Packets have at most 1536 bytes, and less than 2^62 bytes are ever reported. *)
Definition sane_history (h : history) : Prop :=
  Forall (fun e => ci_mtu (snd e) <= 1536) h /\ total h <= two62.

Definition is_loss (n : notification) : bool :=
  match n with NRepeat | NEcn | NTimeout => true | _ => false end.

(** The number of the first packet sent after the last reduction of the window: a loss
    counts once per such round. *)
Fixpoint round_start (b : N) (h : history) : N :=
  match h with
  | [] => b
  | (n, i) :: h' =>
    round_start (match n with
                 | NReset => 0
                 | _ => if is_loss n && (b <=? ci_lost i) then ci_next i else b
                 end) h'
  end.

(** Notifications of a round: no reset and no loss of a packet sent since its start. *)
Definition same_round (b : N) (e : notification * ccin) : Prop :=
  match fst e with
  | NReset => False
  | NRepeat | NEcn | NTimeout => ci_lost (snd e) < b
  | _ => True
  end.

(** Acknowledgements by packets of one size to a sender that uses its window. *)
Definition plain_ack (m : N) (e : notification * ccin) : Prop :=
  fst e = NAck /\ ci_limited (snd e) = false /\ ci_mtu (snd e) = m.

(** The bytes that notifications report as acknowledged. *)
Fixpoint acked_bytes (h : history) : N :=
  match h with [] => 0 | e :: h' => ci_bytes (snd e) + acked_bytes h' end.

(** The round trip times measured since the last reset. *)
Fixpoint rtts (l : list N) (h : history) : list N :=
  match h with
  | [] => l
  | (n, i) :: h' => rtts (match n with NRtt => l ++ [ci_rtt i] | NReset => [] | _ => l end) h'
  end.
