(** Model of key updates of 1-RTT packets (definitions only): picoquic/packet.c 622-758,
    picoquic/tls_api.c 1516-1600, picoquic/quicctx.c 4740-4761, picoquic/sender.c 3290-3298.

    Simplifications.  A key is the number of times its secret was updated from the secret
    of the handshake (its generation): ptls_hkdf_expand_label gives different keys.  The
    AEAD is ideal: the text of a packet is recovered with the key that sealed it and no
    other, and a packet that was not sealed by the peer is recovered with no key.  The
    packet number is the full one, restored by [restore_pn] (PacketNumber_model.v and C09).
    0-RTT packets, which share the numbers of 1-RTT packets, are left out.  Packet numbers
    do not wrap, and all paths exist from the beginning (quicctx.c 1645-1690 sets
    crypto_rotation_sequence to 0 on a path created later). *)
From Verif Require Import Base Send_model.

(** A 1-RTT packet: path, packet number, key phase bit, generation of the key that sealed
    it ([None]: it was not made by the peer). *)
Record pkt := mk_pkt { p_path : N; p_pn : N; p_phase : bool; p_gen : option N }.

(** picoquic/picoquic_internal.h 1395-1412 and 932: is_multipath_enabled,
    crypto_epoch_length_max, the integrity limit of the AEAD (tls_api.c 2319-2322),
    crypto_context[3].aead_encrypt and aead_decrypt, crypto_context_old.aead_decrypt,
    crypto_context_new.aead_encrypt and aead_decrypt, app_secret_enc and app_secret_dec
    (tls_api.c), key_phase_enc, key_phase_dec, crypto_rotation_sequence of the paths
    (without multipath there is one, for path 0), crypto_rotation_time_guard,
    crypto_failure_count, whether the connection was closed for it,
    crypto_epoch_sequence, send_sequence of the paths (as for crypto_rotation_sequence),
    the last number in cnx->ack_ctx[application].sack_list, nb_packets_sent. *)
Record kst := mk_k {
  k_mp : bool; k_max : N; k_integrity : N;
  k_enc : option N; k_dec : option N; k_old : option N; k_new_enc : option N; k_new_dec : option N;
  k_sec_enc : N; k_sec_dec : N; k_penc : bool; k_pdec : bool;
  k_rot : N -> N; k_guard : N; k_fail : N; k_closed : bool;
  k_epoch : N; k_next : N -> N; k_last : N; k_sent : N }.

(** Assignments: the keys waiting with the secrets; the counter of failures. *)
Definition with_new (k : kst) (ne nd : option N) (se sd : N) : kst :=
  mk_k (k_mp k) (k_max k) (k_integrity k) (k_enc k) (k_dec k) (k_old k) ne nd se sd (k_penc k) (k_pdec k)
    (k_rot k) (k_guard k) (k_fail k) (k_closed k) (k_epoch k) (k_next k) (k_last k) (k_sent k).
Definition with_fail (k : kst) (n : N) (closed : bool) : kst :=
  mk_k (k_mp k) (k_max k) (k_integrity k) (k_enc k) (k_dec k) (k_old k) (k_new_enc k) (k_new_dec k)
    (k_sec_enc k) (k_sec_dec k) (k_penc k) (k_pdec k) (k_rot k) (k_guard k) n closed (k_epoch k) (k_next k) (k_last k)
    (k_sent k).
(** Assignments of crypto_rotation_sequence of the paths with crypto_rotation_time_guard,
    and of the last number received. *)
Definition with_rot (k : kst) (rot : N -> N) (guard : N) : kst :=
  mk_k (k_mp k) (k_max k) (k_integrity k) (k_enc k) (k_dec k) (k_old k) (k_new_enc k) (k_new_dec k)
    (k_sec_enc k) (k_sec_dec k) (k_penc k) (k_pdec k) rot guard (k_fail k) (k_closed k) (k_epoch k) (k_next k) (k_last k)
    (k_sent k).
Definition with_last (k : kst) (n : N) : kst :=
  mk_k (k_mp k) (k_max k) (k_integrity k) (k_enc k) (k_dec k) (k_old k) (k_new_enc k) (k_new_dec k)
    (k_sec_enc k) (k_sec_dec k) (k_penc k) (k_pdec k) (k_rot k) (k_guard k) (k_fail k) (k_closed k) (k_epoch k) (k_next k) n
    (k_sent k).
(** Assignment of crypto_epoch_sequence, with the deletion of the old key. *)
Definition with_epoch (k : kst) (n : N) : kst :=
  mk_k (k_mp k) (k_max k) (k_integrity k) (k_enc k) (k_dec k) None (k_new_enc k) (k_new_dec k)
    (k_sec_enc k) (k_sec_dec k) (k_penc k) (k_pdec k) (k_rot k) (k_guard k) (k_fail k) (k_closed k) n (k_next k) (k_last k)
    (k_sent k).
(** Assignment of the numbers used for sending. *)
Definition with_next (k : kst) (next : N -> N) (sent : N) : kst :=
  mk_k (k_mp k) (k_max k) (k_integrity k) (k_enc k) (k_dec k) (k_old k) (k_new_enc k) (k_new_dec k)
    (k_sec_enc k) (k_sec_dec k) (k_penc k) (k_pdec k) (k_rot k) (k_guard k) (k_fail k) (k_closed k) (k_epoch k) next (k_last k)
    sent.

(** picoquic/tls_api.c 1516-1577, picoquic_compute_new_rotated_keys; [None] is
    PICOQUIC_ERROR_CANNOT_COMPUTE_KEY (the derivation itself succeeds). *)
Definition compute_new (k : kst) : option kst :=
  match k_new_enc k, k_new_dec k with
  | None, None =>
    Some (with_new k (Some (k_sec_enc k + 1)) (Some (k_sec_dec k + 1)) (k_sec_enc k + 1) (k_sec_dec k + 1))
  | Some _, Some _ => Some k
  | _, _ => None
  end.

(** picoquic/tls_api.c 1579-1600, picoquic_apply_rotated_keys with is_enc = 1 and 0. *)
Definition apply_enc (k : kst) : kst :=
  mk_k (k_mp k) (k_max k) (k_integrity k) (k_new_enc k) (k_dec k) (k_old k) None (k_new_dec k)
    (k_sec_enc k) (k_sec_dec k) (negb (k_penc k)) (k_pdec k) (k_rot k) (k_guard k) (k_fail k) (k_closed k) (k_epoch k)
    (k_next k) (k_last k) (k_sent k).
Definition apply_dec (k : kst) : kst :=
  mk_k (k_mp k) (k_max k) (k_integrity k) (k_enc k) (k_new_dec k) (k_dec k) (k_new_enc k) None
    (k_sec_enc k) (k_sec_dec k) (k_penc k) (negb (k_pdec k)) (k_rot k) (k_guard k) (k_fail k) (k_closed k) (k_epoch k)
    (k_next k) (k_last k) (k_sent k).

(** picoquic/quicctx.c 4740-4761, picoquic_start_key_rotation, in the state ready; [None] is
    an error.  send_sequence and the list of received numbers are those of the connection,
    which the packets sent and received do not change with multipath. *)
Definition start_rotation (k : kst) : option kst :=
  if k_last k <? k_epoch k then None
  else
    match compute_new k with
    | None => None
    | Some k1 => Some (with_epoch (apply_enc k1) (if k_mp k1 then 0 else k_next k1 0))
    end.

(** picoquic/sender.c 3290-3298: the update when enough packets were sent. *)
Definition auto_due (k : kst) (now : N) : bool :=
  (k_max k <? sub64 (k_sent k) (k_epoch k)) && (k_guard k <? now).

(** The path of the numbers of a packet: picoquic/sacks.c 130-147 and sender.c 1122-1126. *)
Definition the_path (k : kst) (path : N) : N := if k_mp k then path else 0.

(** Assignment of the entry of a path. *)
Definition set_path (f : N -> N) (path v : N) : N -> N := fun x => if x =? path then v else f x.

(** picoquic/sender.c 645-672 and 1109-1126: the packet sent on a path; [None] without a
    key. *)
Definition send_packet (k : kst) (path : N) : option (kst * pkt) :=
  match k_enc k with
  | None => None
  | Some g =>
    let i := the_path k path in
    Some (with_next k (set_path (k_next k) i (k_next k i + 1)) (k_sent k + 1),
          mk_pkt i (k_next k i) (k_penc k) (Some g))
  end.

(** picoquic/sender.c 1071-1103: a number is skipped. *)
Definition skip_number (k : kst) (path : N) : kst :=
  let i := the_path k path in with_next k (set_path (k_next k) i (k_next k i + 1)) (k_sent k).

(** picoquic/tls_api.c 2330-2345, picoquic_aead_decrypt_generic: whether the text is
    recovered. *)
Definition opens (key : option N) (p : pkt) : bool :=
  match key, p_gen p with
  | Some g, Some h => g =? h
  | _, _ => false
  end.

(** What becomes of a packet: deciphered, not deciphered (and counted), ignored. *)
Inductive fate := Accepted | Failed | Ignored.

(** picoquic/packet.c 735-742: a failure is counted.  Without a key the limit is read
    through NULL. *)
Definition count_failure (k : kst) : option (kst * fate) :=
  match k_dec k with
  | None => None
  | Some _ => Some (with_fail k (k_fail k + 1) (k_closed k || (k_integrity k <? k_fail k + 1)), Failed)
  end.

(** picoquic/sacks.c 262-300: the number of a deciphered packet is recorded. *)
Definition record_pn (k : kst) (pn : N) : kst :=
  if k_mp k then k else with_last k (if k_last k <? pn then pn else k_last k).

(** picoquic/packet.c 622-758, picoquic_remove_packet_protection, for a 1-RTT packet at the
    time [now]; [rto] is cnx->path[0]->retransmit_timer.  The recording of the number
    (packet.c 1955) is included.  [None]: undefined. *)
Definition receive (k : kst) (now rto : N) (p : pkt) : option (kst * fate) :=
  let i := p_path p in
  let pn := p_pn p in
  if Bool.eqb (p_phase p) (k_pdec k) then
    if opens (k_dec k) p then
      Some (record_pn (with_rot k (if pn <? k_rot k i then set_path (k_rot k) i pn else k_rot k) (k_guard k)) pn, Accepted)
    else count_failure k
  else if ((k_rot k i =? max64) && (now <=? k_guard k)) || (pn <? k_rot k i) then
    if k_guard k <? now then Some (k, Ignored)
    else
      match k_old k with
      | None => Some (k, Ignored)
      | Some _ => if opens (k_old k) p then Some (record_pn k pn, Accepted) else count_failure k
      end
  else
    match (match k_new_dec k, k_new_enc k with None, None => compute_new k | _, _ => Some k end) with
    | None => Some (k, Ignored)
    | Some k1 =>
      match k_new_dec k1 with
      | None => Some (k1, Ignored)
      | Some _ =>
        if opens (k_new_dec k1) p then
          let k2 := with_rot k1 (set_path (if k_mp k1 then (fun _ => max64) else k_rot k1) i pn) (u64 (now + rto)) in
          let k3 := apply_dec k2 in
          let k4 := match k_new_enc k3 with Some _ => apply_enc k3 | None => k3 end in
          Some (record_pn k4 pn, Accepted)
        else count_failure k1
      end
    end.

(** ** Two endpoints *)

(** The endpoints. *)
Inductive side := SA | SB.
Definition peer (s : side) : side := match s with SA => SB | SB => SA end.

(** Both connections and the packets that each side has sent, in order. *)
Record world := mk_w { w_a : kst; w_b : kst; w_sa : list pkt; w_sb : list pkt }.
Definition end_of (w : world) (s : side) : kst := match s with SA => w_a w | SB => w_b w end.
Definition sent_by (w : world) (s : side) : list pkt := match s with SA => w_sa w | SB => w_sb w end.
Definition set_end (w : world) (s : side) (k : kst) : world :=
  match s with SA => mk_w k (w_b w) (w_sa w) (w_sb w) | SB => mk_w (w_a w) k (w_sa w) (w_sb w) end.
Definition add_sent (w : world) (s : side) (p : pkt) : world :=
  match s with
  | SA => mk_w (w_a w) (w_b w) (w_sa w ++ [p]) (w_sb w)
  | SB => mk_w (w_a w) (w_b w) (w_sa w) (w_sb w ++ [p])
  end.

(** What happens: a side sends a packet (after the automatic update), skips a number, is
    asked by its application to update its keys; a packet that the other side has sent is
    delivered (any one, any number of times); a packet made by someone else is delivered. *)
Inductive event :=
| ESend (s : side) (path now : N)
| EHole (s : side) (path : N)
| ERotate (s : side)
| EDeliver (s : side) (n : nat) (now rto : N)
| EForge (s : side) (path pn : N) (phase : bool) (now rto : N).

(** What is observed: an update started by a side leaving a generation; a packet sent with a
    generation; the fate of a packet of the peer and of a packet of someone else. *)
Inductive output :=
| ORotate (s : side) (g : N)
| OSend (s : side) (path g : N)
| OFate (s : side) (path : N) (g : N) (f : fate)
| OForged (s : side) (f : fate).

(** An update by a side, if it is accepted. *)
Definition rotate (w : world) (s : side) : world * list output :=
  let k := end_of w s in
  match start_rotation k with
  | None => (w, [])
  | Some k1 => (set_end w s k1, match k_enc k with Some g => [ORotate s g] | None => [] end)
  end.

(** One event; [None]: undefined. *)
Definition step (w : world) (e : event) : option (world * list output) :=
  match e with
  | ESend s path now =>
    let '(w1, o) := if auto_due (end_of w s) now then rotate w s else (w, []) in
    match send_packet (end_of w1 s) path with
    | None => None
    | Some (k, p) =>
      Some (add_sent (set_end w1 s k) s p,
            o ++ match p_gen p with Some g => [OSend s (p_path p) g] | None => [] end)
    end
  | EHole s path => Some (set_end w s (skip_number (end_of w s) path), [])
  | ERotate s => Some (rotate w s)
  | EDeliver s n now rto =>
    match nth_error (sent_by w (peer s)) n with
    | None => Some (w, [])
    | Some p =>
      match receive (end_of w s) now rto p with
      | None => None
      | Some (k, f) =>
        Some (set_end w s k, match p_gen p with Some g => [OFate s (p_path p) g f] | None => [] end)
      end
    end
  | EForge s path pn phase now rto =>
    match receive (end_of w s) now rto (mk_pkt (the_path (end_of w s) path) pn phase None) with
    | None => None
    | Some (k, f) => Some (set_end w s k, [OForged s f])
    end
  end.

(** A history with everything observed. *)
Fixpoint run (w : world) (l : list event) : option (world * list output) :=
  match l with
  | [] => Some (w, [])
  | e :: r =>
    match step w e with
    | None => None
    | Some (w1, o1) =>
      match run w1 r with
      | None => None
      | Some (w2, o2) => Some (w2, o1 ++ o2)
      end
    end
  end.

(** picoquic/quicctx.c 3860-4060: a connection when the 1-RTT keys were installed
    (tls_api.c 1440-1480); [sent] packets were sent during the handshake. *)
Definition init_k (mp : bool) (max integrity sent : N) : kst :=
  mk_k mp max integrity (Some 0) (Some 0) None None None 0 0 false false (fun _ => 0) 0 0 false 0 (fun _ => 0) 0 sent.

(** Both endpoints at that time. *)
Definition init_w (mp : bool) (maxa maxb inta intb senta sentb : N) : world :=
  mk_w (init_k mp maxa inta senta) (init_k mp maxb intb sentb) [] [].
