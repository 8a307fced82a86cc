(** Specification vocabulary for the list of miscellaneous frames (independent of the functions of the
    model). *)
From Verif Require Import Base Misc_model.

(** The nodes of [l] (addresses and contents) are linked both ways, from the address [a], with [p]
    before the first; [q] is the last and [b] what follows it. *)
Fixpoint linked (h : heap) (p a : nat) (l : list (nat * item)) (q b : nat) : Prop :=
  match l with
  | [] => p = q /\ a = b
  | (x, it) :: l' => a = x /\ x <> 0%nat /\ exists nx, h x = Some (mk_node nx p it) /\ linked h x nx l' q b
  end.
(** A list that represents [l]: linked, with distinct addresses. *)
Definition holds (m : mlist) (l : list (nat * item)) : Prop :=
  linked (ml_heap m) 0 (ml_first m) l (ml_last m) 0 /\ NoDup (map fst l).

(** The frames of a context that are sent, first to last, within [room] bytes: none is passed over, and
    one of no bytes ends the packet. *)
Inductive sent (pc : N) : N -> list item -> list item -> Prop :=
| sent_none : forall room, sent pc room [] []
| sent_full : forall room it l, it_pc it = pc -> room < blen (it_bytes it) -> sent pc room (it :: l) []
| sent_empty : forall room it l, it_pc it = pc -> it_bytes it = [] -> sent pc room (it :: l) [it]
| sent_one : forall room it l s, it_pc it = pc -> it_bytes it <> [] -> blen (it_bytes it) <= room ->
    sent pc (room - blen (it_bytes it)) l s -> sent pc room (it :: l) (it :: s)
| sent_other : forall room it l s, it_pc it <> pc -> sent pc room l s -> sent pc room (it :: l) s.

(** What happens to the list: a frame is queued at an address that malloc gives, which is not in use (0
    if there is no memory), a packet is prepared in a context, or the handshake ends. *)
Inductive op := OQueue (a : nat) (it : item) | OSend (room pc : N) | OPurge.
Inductive run : mlist -> list op -> mlist -> Prop :=
| run_none : forall m, run m [] m
| run_queue : forall m a it m1 ok ops m', ml_heap m a = None -> queue a it m = Some (m1, ok) -> run m1 ops m' -> run m (OQueue a it :: ops) m'
| run_send : forall m room pc fuel bs m1 more pure ops m', format_misc fuel room pc m false true = Some (bs, m1, more, pure) -> run m1 ops m' ->
    run m (OSend room pc :: ops) m'
| run_purge : forall m fuel m1 ops m', purge fuel m = Some m1 -> run m1 ops m' -> run m (OPurge :: ops) m'.
Definition nothing : mlist := mk_mlist (fun _ => None) 0 0.
