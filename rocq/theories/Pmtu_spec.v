(** Specification of path MTU discovery. *)
From Verif Require Import Base Pmtu_model.

(** Parameters: a limit announced by the peer that the reception of transport
    parameters accepts, and a local limit that leaves the packet in its buffer. *)
Definition sane_conf (g : mconf) : Prop :=
  1200 <= g_remote g /\ g_remote g <= 65527 /\ g_max g <= 1564.
(** Header and checksum of a 1-RTT packet. *)
Definition sane_ev (e : mev) : Prop :=
  match e with MProbe header chk _ _ => header + chk < 1200 | _ => True end.

(** The run from [x] has no reset of the packet size: no new address, no
    retransmission timer, and never more than ten losses of full-size packets
    without an acknowledgement of one. *)
Fixpoint calm (g : mconf) (x : mpath) (evs : list mev) : Prop :=
  match evs with
  | [] => True
  | e :: r =>
    match e with
    | MAddress _ => False
    | MLose _ timer _ => timer = false /\ p_losses x < 10
    | _ => True
    end /\
    match mstep g x e with Some (x1, _) => calm g x1 r | None => True end
  end.

Definition lost_probes (os : list mobs) : N :=
  N.of_nat (length (filter (fun o => match o with OLost k => k_probe k | _ => false end) os)).
Definition probes (l : list mpkt) : N := N.of_nat (length (filter k_probe l)).

(** A network that carries packets up to [cap] bytes: larger ones are never
    acknowledged, and probes that fit are not declared lost.  The buffers of the
    application hold a full packet. *)
Definition fits (cap : N) (o : mobs) : Prop :=
  match o with
  | OAcked k => k_size k <= cap
  | OLost k => k_probe k = true -> cap < k_size k
  | _ => True
  end.
Definition wide (e : mev) : Prop := match e with MProbe _ _ room _ => 1536 <= room | _ => True end.

(** The largest size to be tried: limits of the peer, of the local
    configuration and of the packet buffer. *)
Definition local_limit (g : mconf) (v6 : bool) (m : N) : Prop :=
  g_max g = 0 \/ g_max g < overhead v6 \/ m + overhead v6 <= g_max g.
Definition allowed_size (g : mconf) (v6 : bool) (m : N) : Prop :=
  m <= g_remote g /\ m <= 1536 /\ local_limit g v6 m.
(** The best packet size for a network: the starting size, or the largest allowed
    size if it passes, or else 1500 or 1400 if that is below the allowed size. *)
Definition best_size (g : mconf) (v6 : bool) (cap m : N) : Prop :=
  exists top, allowed_size g v6 top /\ (forall t, allowed_size g v6 t -> t <= top) /\
    (if top <=? initial_mtu v6 then m = initial_mtu v6
     else if top <=? cap then m = top
     else if (1500 <? top) && (1500 <=? cap) then m = 1500
     else if (1400 <? top) && (1400 <=? cap) then m = 1400
     else m = initial_mtu v6).
