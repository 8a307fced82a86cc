(** Model of the spin bit: picoquic/spinbit.c 30-83, its policies (picoquic/quicctx.c 810-834,
    3955-3966, 4278-4281), the first byte of short headers (picoquic/sender.c 658-672,
    picoquic/packet.c 437-438), and two endpoints that exchange packets (definitions only). *)
From Verif Require Import Base.

(** An endpoint: client_mode and spin_policy (picoquic/picoquic_internal.h 1281, 1339), and
    current_spin of each path (1118). *)
Record spoint := mk_sp { sp_client : bool; sp_policy : N; sp_paths : list bool }.

(** picoquic/quicctx.c 810-821, picoquic_set_default_spinbit_policy: the default policy of the
    context and whether it is accepted; policies: picoquic/picoquic.h 209-214. *)
Definition set_default (v old : N) : N * bool := if v <=? 3 then (v, true) else (old, false).

(** picoquic/quicctx.c 823-835, picoquic_set_spinbit_policy. *)
Definition set_policy (v : N) (e : spoint) : spoint * bool :=
  if v <? 3 then (mk_sp (sp_client e) v (sp_paths e), true) else (e, false).

(** picoquic/quicctx.c 4278-4281, picoquic_cnx_set_spinbit_policy. *)
Definition cnx_set_policy (v : N) (e : spoint) : spoint := mk_sp (sp_client e) v (sp_paths e).

(** picoquic/quicctx.c 3955-3966: the policy of a new connection; [rand256]: the random byte;
    PICOQUIC_SPIN_RESERVE_MOD_256 (picoquic/picoquic_internal.h 103). *)
Definition create_policy (default rand256 : N) : N :=
  if default =? 0 then (if rand256 <? 17 then 2 else 0)
  else if default =? 3 then 0
  else default.

(** A new connection with one path: current_spin is 0 (the path is cleared when it is allocated). *)
Definition sp_new (client : bool) (default rand256 : N) : spoint :=
  mk_sp client (create_policy default rand256) [false].

(** [path_x->current_spin = v]; [None]: there is no such path. *)
Fixpoint set_spin (i : nat) (v : bool) (l : list bool) : option (list bool) :=
  match i, l with
  | _, [] => None
  | O, _ :: r => Some (v :: r)
  | S j, x :: r => option_map (cons x) (set_spin j v r)
  end.

(** The table of functions has three entries (picoquic/spinbit.c 79-83); [None]: a call out of the
    table, undefined.  picoquic/spinbit.c 32-35, 46-51, 64-69: an incoming packet on path [i] with
    the bit [spin] (picoquic/packet.c 1950: every packet of 1-RTT that is decrypted). *)
Definition incoming (i : nat) (spin : bool) (e : spoint) : option spoint :=
  match sp_policy e with
  | 0 => option_map (mk_sp (sp_client e) (sp_policy e)) (set_spin i (xorb spin (sp_client e)) (sp_paths e))
  | 1 | 2 => Some e
  | _ => None
  end.

(** picoquic/spinbit.c 37-42, 53-57, 71-75: the bits for an outgoing packet, on any path; [rnd]: a
    random number. *)
Definition outgoing (rnd : N) (e : spoint) : option N :=
  match sp_policy e with
  | 0 => match sp_paths e with b :: _ => Some (u8 (N.shiftl (if b then 1 else 0) 5)) | [] => None end
  | 1 => Some (u8 (N.land rnd 32))
  | 2 => Some 0
  | _ => None
  end.

(** picoquic/sender.c 658-672: the first byte of a short header before protection (the length of the
    number is added later, and only the lower five bits are protected). *)
Definition first_byte (key_phase grease : bool) (rnd : N) (spin : N) : N :=
  let k := if key_phase then 4 else 0 in
  let c := if grease then N.land 64 (u8 rnd) else 64 in
  N.lor (N.lor k c) spin.

(** picoquic/packet.c 438. *)
Definition parse_spin (b : N) : bool := negb (N.land (N.shiftr b 5) 1 =? 0).

(** Two endpoints with one path and the first bytes of the packets under way, the oldest first. *)
Record snet := mk_sn { n_client : spoint; n_server : spoint; n_up : list N; n_down : list N }.

(** What happens: the client or the server sends a packet; the [i]-th oldest packet arrives, or is
    lost.  A packet does not arrive twice (duplicates are dropped, picoquic/packet.c 846). *)
Inductive sop :=
| SendC (key_phase grease : bool) (rnd rnd' : N) | SendS (key_phase grease : bool) (rnd rnd' : N)
| RecvS (i : nat) | RecvC (i : nat) | LoseUp (i : nat) | LoseDown (i : nat).

(** A list without its [i]-th element. *)
Fixpoint without (i : nat) (l : list N) : list N :=
  match i, l with
  | _, [] => []
  | O, _ :: r => r
  | S j, x :: r => x :: without j r
  end.

(** One of them; [None]: undefined; nothing happens if there is no such packet. *)
Definition sstep (s : snet) (o : sop) : option snet :=
  match o with
  | SendC kp g rnd rnd' =>
    match outgoing rnd (n_client s) with
    | Some b => Some (mk_sn (n_client s) (n_server s) (n_up s ++ [first_byte kp g rnd' b]) (n_down s))
    | None => None
    end
  | SendS kp g rnd rnd' =>
    match outgoing rnd (n_server s) with
    | Some b => Some (mk_sn (n_client s) (n_server s) (n_up s) (n_down s ++ [first_byte kp g rnd' b]))
    | None => None
    end
  | RecvS i =>
    match nth_error (n_up s) i with
    | None => Some s
    | Some b =>
      match incoming 0 (parse_spin b) (n_server s) with
      | Some e => Some (mk_sn (n_client s) e (without i (n_up s)) (n_down s))
      | None => None
      end
    end
  | RecvC i =>
    match nth_error (n_down s) i with
    | None => Some s
    | Some b =>
      match incoming 0 (parse_spin b) (n_client s) with
      | Some e => Some (mk_sn e (n_server s) (n_up s) (without i (n_down s)))
      | None => None
      end
    end
  | LoseUp i => Some (mk_sn (n_client s) (n_server s) (without i (n_up s)) (n_down s))
  | LoseDown i => Some (mk_sn (n_client s) (n_server s) (n_up s) (without i (n_down s)))
  end.

(** A history. *)
Fixpoint srun (s : snet) (l : list sop) : option snet :=
  match l with
  | [] => Some s
  | o :: r => match sstep s o with Some s' => srun s' r | None => None end
  end.
