(** Model of the list of miscellaneous frames that wait to be sent: picoquic/quicctx.c 4504-4589 and
    picoquic/frames.c 4547-4600 (definitions only). *)
From Verif Require Import Base.

(** picoquic/picoquic_internal.h 871-877, picoquic_misc_frame_header_t: the content of a frame, its packet
    context and whether it is a pure acknowledgement. *)
Record item := mk_item { it_bytes : list N; it_pc : N; it_pure : bool }.
(** The same structure with its two links; an address is a number, 0 for NULL. *)
Record node := mk_node { nd_next : nat; nd_prev : nat; nd_item : item }.
(** The memory: [None] at an address that is not allocated (picoquic/quicctx.c 4513 and 4588, malloc and
    free), and the two pointers first and last (picoquic/quicctx.c 4525). *)
Definition heap := nat -> option node.
Record mlist := mk_mlist { ml_heap : heap; ml_first : nat; ml_last : nat }.
(** A store in the memory (picoquic/quicctx.c 4538-4546, 4573-4588). *)
Definition upd (h : heap) (a : nat) (v : option node) : heap := fun b => if Nat.eqb a b then v else h b.

(** picoquic/quicctx.c 4525-4550, picoquic_queue_misc_or_dg_frame with 4504-4523: [a] is the address
    given by malloc, 0 if it fails (PICOQUIC_ERROR_MEMORY).  [None]: a pointer to memory that is not
    allocated is used (undefined behaviour).  The wake time (4548) is left out. *)
Definition queue (a : nat) (it : item) (m : mlist) : option (mlist * bool) :=
  if Nat.eqb a 0 then Some (m, false)
  else if Nat.eqb (ml_last m) 0 then
    Some (mk_mlist (upd (ml_heap m) a (Some (mk_node 0 0 it))) a a, true)
  else
    match ml_heap m (ml_last m) with
    | None => None
    | Some t =>
      let h1 := upd (ml_heap m) (ml_last m) (Some (mk_node a (nd_prev t) (nd_item t))) in
      Some (mk_mlist (upd h1 a (Some (mk_node 0 (ml_last m) it))) (ml_first m) a, true)
    end.

(** picoquic/quicctx.c 4571-4589, picoquic_delete_misc_or_dg. *)
Definition delete (x : nat) (m : mlist) : option mlist :=
  match ml_heap m x with
  | None => None
  | Some f =>
    let step1 :=
      if Nat.eqb (nd_next f) 0 then Some (ml_heap m, nd_prev f)
      else
        match ml_heap m (nd_next f) with
        | None => None
        | Some t => Some (upd (ml_heap m) (nd_next f) (Some (mk_node (nd_next t) (nd_prev f) (nd_item t))), ml_last m)
        end in
    match step1 with
    | None => None
    | Some (h1, last) =>
      let step2 :=
        if Nat.eqb (nd_prev f) 0 then Some (h1, nd_next f)
        else
          match h1 (nd_prev f) with
          | None => None
          | Some t => Some (upd h1 (nd_prev f) (Some (mk_node (nd_next f) (nd_prev t) (nd_item t))), ml_first m)
          end in
      match step2 with
      | None => None
      | Some (h2, first) => Some (mk_mlist (upd h2 x None) first last)
      end
    end
  end.

(** picoquic/frames.c 4567-4575, picoquic_find_first_misc_frame from the address [a]: the address found,
    0 if there is none.  [None]: undefined behaviour, or too many turns (excluded by C68_format). *)
Fixpoint find_first (fuel : nat) (h : heap) (pc : N) (a : nat) : option nat :=
  match fuel with
  | O => None
  | S f =>
    if Nat.eqb a 0 then Some O
    else
      match h a with
      | None => None
      | Some n => if it_pc (nd_item n) =? pc then Some a else find_first f h pc (nd_next n)
      end
  end.

(** picoquic/frames.c 4581-4600, picoquic_format_misc_frames_in_context, with 4547-4563: the bytes
    written in a packet of [room] bytes, the list, more_data and is_pure_ack.  [None] as above. *)
Fixpoint format_misc (fuel : nat) (room pc : N) (m : mlist) (more pure : bool) : option (list N * mlist * bool * bool) :=
  match fuel with
  | O => None
  | S f =>
    match find_first fuel (ml_heap m) pc (ml_first m) with
    | None => None
    | Some O => Some ([], m, more, pure)
    | Some x =>
      match ml_heap m x with
      | None => None
      | Some n =>
        let b := it_bytes (nd_item n) in
        if room <? blen b then Some ([], m, true, pure)
        else
          match delete x m with
          | None => None
          | Some m' =>
            let pure' := pure && it_pure (nd_item n) in
            if blen b =? 0 then Some ([], m', more, pure')
            else
              match format_misc f (room - blen b) pc m' more pure' with
              | None => None
              | Some (bs, m'', more', pure'') => Some (b ++ bs, m'', more', pure'')
              end
          end
      end
    end
  end.

(** picoquic/quicctx.c 4557-4569, picoquic_purge_misc_frames_after_ready, from the address [a] (the
    context of the application is 0); [None]: undefined behaviour, or too many turns (excluded by
    C68_purge). *)
Fixpoint purge_from (fuel : nat) (a : nat) (m : mlist) : option mlist :=
  match fuel with
  | O => None
  | S f =>
    if Nat.eqb a 0 then Some m
    else
      match ml_heap m a with
      | None => None
      | Some n =>
        if it_pc (nd_item n) =? 0 then purge_from f (nd_next n) m
        else
          match delete a m with
          | None => None
          | Some m' => purge_from f (nd_next n) m'
          end
      end
  end.
(** picoquic/quicctx.c 4559: from the first. *)
Definition purge (fuel : nat) (m : mlist) : option mlist := purge_from fuel (ml_first m) m.
