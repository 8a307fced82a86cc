(** What key updates must guarantee, in terms of what is observed only. *)
From Verif Require Import Base Keys_model.

(** The most recent generation with which a side has deciphered a packet. *)
Fixpoint newest (s : side) (tr : list output) : N :=
  match tr with
  | [] => 0
  | OFate s' _ g Accepted :: r =>
    match s, s' with
    | SA, SA | SB, SB => N.max g (newest s r)
    | _, _ => newest s r
    end
  | _ :: r => newest s r
  end.

(** RFC 9001, section 6.1: a side starts an update only after the peer has deciphered (and
    thus may have acknowledged) a packet sealed with its current key.  The first update is
    free. *)
Definition confirmed (tr : list output) : Prop :=
  forall t1 t2 s g, tr = t1 ++ ORotate s g :: t2 ->
  g = 0 \/ exists path, In (OFate (peer s) path g Accepted) t1.

(** Only the side [s] starts updates. *)
Definition only_by (s : side) (tr : list output) : Prop := forall g, ~ In (ORotate (peer s) g) tr.

(** No update is started by [s]. *)
Definition none_by (s : side) (tr : list output) : Prop := forall g, ~ In (ORotate s g) tr.

(** The fate [f] that a packet of generation [g] must have, when [n] is the newest
    generation: deciphered if its key is as recent; never taken for a forgery if its key is
    the previous one; never deciphered if it is older. *)
Definition proper_fate (n g : N) (f : fate) : Prop :=
  g <= n + 1 /\ (n <= g -> f = Accepted) /\ (n = g + 1 -> f <> Failed) /\ (g + 2 <= n -> f <> Accepted).

(** A packet that is not from the peer. *)
Definition forgery (e : event) : bool := match e with EForge _ _ _ _ _ _ => true | _ => false end.
Definition of_forgery (o : output) : bool := match o with OForged _ _ => true | _ => false end.

(** The packets of a side sealed with a generation. *)
Definition sealed_with (s : side) (g : N) (tr : list output) : N :=
  N.of_nat (length (filter (fun o => match o with
                                     | OSend s' _ h => (h =? g) && match s, s' with SA, SA | SB, SB => true | _, _ => false end
                                     | _ => false
                                     end) tr)).

(** The packets that a side could not decipher. *)
Definition failures (s : side) (tr : list output) : N :=
  N.of_nat (length (filter (fun o => match o with
                                     | OFate s' _ _ Failed | OForged s' Failed => match s, s' with SA, SA | SB, SB => true | _, _ => false end
                                     | _ => false
                                     end) tr)).
