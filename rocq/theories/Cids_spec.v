(** What is expected of the stored connection ids of the peer (C31) and of the validation of
    tuples (C30). *)
From Verif Require Import Base Cids_model.

(** A connection that can be reached: its parameters, its history and what was seen. *)
Definition reaches (mp : bool) (limit max_path : N) (ml mr : bool) (id secret : list N) (chal : N * N * N)
  (evs : list event) (cn : conn) (out : list output) : Prop :=
  run (init_conn mp limit max_path ml mr id secret chal) evs = Some (cn, out).

(** The peer gave this id, under this number and with this secret, for this path. *)
Definition issued (evs : list event) (p seq : N) (id secret : list N) : Prop :=
  exists is_mp before, In (ENew is_mp p seq before id secret) evs.

(** What the frame must satisfy whatever is stored (RFC 9000 19.15, and the multipath
    draft): numbers, length, and path. *)
Definition well_formed (cn : conn) (is_mp : bool) (p seq before : N) (id : list N) : Prop :=
  before <= seq /\ 1 <= blen id <= 20 /\ (if cn_mp cn then p <= cn_max_path cn else is_mp = false) /\ (is_mp = false -> p = 0).

(** The ids stored for a path. *)
Definition stored (cn : conn) (p : N) (e : rcid) : Prop :=
  exists s, In s (cn_stashes cn) /\ sh_path s = p /\ In e (sh_list s).

(** A stored id that shares its number, its bytes or its secret with the frame without being
    the same; one that is the same. *)
Definition conflicts (e : rcid) (seq : N) (id secret : list N) : Prop :=
  (rc_seq e = seq \/ rc_id e = id \/ rc_secret e = secret) /\ ~ (rc_seq e = seq /\ rc_id e = id /\ rc_secret e = secret).
Definition repeated (e : rcid) (seq : N) (id secret : list N) : Prop :=
  rc_seq e = seq /\ rc_id e = id /\ rc_secret e = secret.

(** The ids that the tuples of a connection use. *)
Definition used (cn : conn) : list N :=
  flat_map (fun p => flat_map (fun t => match tu_cid t with Some a => [a] | None => [] end) (pa_tuples p)) (cn_paths cn).

(** The ids of a stash that are still active: not yet below the number given by the peer,
    and not yet given back. *)
Definition active (s : stash) : list rcid :=
  filter (fun e => negb ((rc_seq e <? sh_before s) || rc_sent e)) (sh_list s).

(** The ids below a number are given back: each of them is marked, is given back with a
    RETIRE_CONNECTION_ID frame unless it is in use, and the first tuple has a newer one
    (unless the path is demoted). *)
Definition retired_below (cn : conn) (before : N) : Prop :=
  (forall e, stored cn 0 e -> rc_seq e < before -> rc_removal e = true /\ (In (0, rc_seq e) (cn_retires cn) \/ 1 <= rc_refs e)) /\
  (forall p, nth_error (cn_paths cn) 0 = Some p -> pa_demoted p = false ->
   exists t a e, nth_error (pa_tuples p) 0 = Some t /\ tu_cid t = Some a /\ stored cn 0 e /\ rc_addr e = a /\ before <= rc_seq e).

(** The numbers in frames are variable length integers. *)
Definition numbers (evs : list event) : Prop :=
  forall is_mp p seq before id secret, In (ENew is_mp p seq before id secret) evs -> seq < 2 ^ 62.

(** Ids that were given back do not come again: after the acknowledgement of a
    RETIRE_CONNECTION_ID frame, no frame of the peer has the same number. *)
Fixpoint no_return (evs : list event) : Prop :=
  match evs with
  | [] => True
  | e :: r =>
    match e with
    | EAck _ seq => forall is_mp p before id secret, ~ In (ENew is_mp p seq before id secret) r
    | _ => True
    end /\ no_return r
  end.

(** The random challenges drawn by a connection. *)
Definition drawn (e : event) : list N :=
  match e with ETuple _ c | EPath _ c | ESetChallenge _ c => chal_list c | _ => [] end.

(** Every answer repeats a challenge that was sent before: challenges are random, and cannot
    be guessed. *)
Definition only_answers (cn : conn) (evs : list event) : Prop :=
  forall l1 i v l2, evs = l1 ++ EResponse i v :: l2 ->
  exists cn1 out1 t, run cn l1 = Some (cn1, out1) /\ In (OChallenge t v) out1.

(** The tuples of a connection. *)
Definition tuples (cn : conn) : list tuple := flat_map pa_tuples (cn_paths cn).

(** The tuple at this address was validated: there is an answer with one of the three values
    [c], and before it a challenge with the same value was sent on this tuple. *)
Definition validated (cn : conn) (evs : list event) (c : N * N * N) (t : N) : Prop :=
  exists l1 i v l2 cn1 out1, evs = l1 ++ EResponse i v :: l2 /\ In v (chal_list c) /\
  run cn l1 = Some (cn1, out1) /\ In (OChallenge t v) out1.
