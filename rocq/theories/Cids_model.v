(** Model of the connection ids of the peer, of the tuples that use them, and of the
    validation of tuples (definitions only): picoquic/quicctx.c 1575-1618, 1807-2000,
    2099-2160, 2274-2300, 2384-2405, 2713-3150, frames.c 453-518, 600-640, 733-797,
    4720-4790, paths.c 32-140, 261-290, 616-721.

    Memory: every stored id has an address, and tuples point to ids by address.  Following a
    null pointer, or a pointer to a freed id, is undefined: [None]. *)
From Verif Require Import Base Mem Varint_model.

(** picoquic/picoquic_internal.h 978-989, picoquic_remote_cnxid_t ([rc_addr]: its address;
    the packet context is omitted). *)
Record rcid := mk_rcid {
  rc_addr : N; rc_seq : N; rc_id : list N; rc_secret : list N; rc_refs : N;
  rc_removal : bool; rc_sent : bool; rc_acked : bool
}.

(** picoquic/picoquic_internal.h 991-997, picoquic_remote_cnxid_stash_t (is_in_use only
    matters for the choice of a path number and is omitted). *)
Record stash := mk_stash { sh_path : N; sh_before : N; sh_list : list rcid }.

(** picoquic/picoquic_internal.h 1040-1068, picoquic_tuple_t: its address, the remote id,
    the challenges, challenge_repeat_count, challenge_required, challenge_verified and
    challenge_failed.  Addresses and times are omitted. *)
Record tuple := mk_tuple {
  tu_addr : N; tu_cid : option N; tu_chal : N * N * N; tu_count : N;
  tu_required : bool; tu_verified : bool; tu_failed : bool
}.

(** The array of challenges (PICOQUIC_CHALLENGE_REPEAT_MAX = 3, picoquic_internal.h). *)
Definition chal_list (c : N * N * N) : list N := [fst (fst c); snd (fst c); snd c].

(** picoquic/picoquic_internal.h 1077-, picoquic_path_t: unique_path_id, the list of
    tuples (first_tuple is its head), path_is_demoted, path_abandon_sent. *)
Record path := mk_path { pa_id : N; pa_tuples : list tuple; pa_demoted : bool; pa_abandoned : bool }.

(** The connection: is_multipath_enabled, local active_connection_id_limit,
    max_path_id_local, migration_disabled of both sides, next free address, stashes, paths,
    and the RETIRE_CONNECTION_ID frames that were queued (path, sequence). *)
Record conn := mk_conn {
  cn_mp : bool; cn_limit : N; cn_max_path : N; cn_mig_local : bool; cn_mig_remote : bool; cn_next : N;
  cn_stashes : list stash; cn_paths : list path; cn_retires : list (N * N)
}.

(** Assignments to the fields of the connection. *)
Definition set_stashes (cn : conn) (l : list stash) : conn :=
  mk_conn (cn_mp cn) (cn_limit cn) (cn_max_path cn) (cn_mig_local cn) (cn_mig_remote cn) (cn_next cn) l (cn_paths cn) (cn_retires cn).
Definition set_paths (cn : conn) (l : list path) : conn :=
  mk_conn (cn_mp cn) (cn_limit cn) (cn_max_path cn) (cn_mig_local cn) (cn_mig_remote cn) (cn_next cn) (cn_stashes cn) l (cn_retires cn).
Definition add_retire (cn : conn) (p s : N) : conn :=
  mk_conn (cn_mp cn) (cn_limit cn) (cn_max_path cn) (cn_mig_local cn) (cn_mig_remote cn) (cn_next cn) (cn_stashes cn) (cn_paths cn) (cn_retires cn ++ [(p, s)]).
Definition alloc (cn : conn) : conn :=
  mk_conn (cn_mp cn) (cn_limit cn) (cn_max_path cn) (cn_mig_local cn) (cn_mig_remote cn) (cn_next cn + 1) (cn_stashes cn) (cn_paths cn) (cn_retires cn).

(** Following a pointer to an id. *)
Definition rcid_at (cn : conn) (a : N) : option rcid :=
  find (fun e => rc_addr e =? a) (flat_map sh_list (cn_stashes cn)).

(** Assignments through a pointer to an id. *)
Definition map_rcid (a : N) (f : rcid -> rcid) (cn : conn) : conn :=
  set_stashes cn (map (fun s => mk_stash (sh_path s) (sh_before s) (map (fun e => if rc_addr e =? a then f e else e) (sh_list s))) (cn_stashes cn)).
Definition set_refs (n : N) (e : rcid) : rcid :=
  mk_rcid (rc_addr e) (rc_seq e) (rc_id e) (rc_secret e) n (rc_removal e) (rc_sent e) (rc_acked e).
Definition set_sent (e : rcid) : rcid :=
  mk_rcid (rc_addr e) (rc_seq e) (rc_id e) (rc_secret e) (rc_refs e) (rc_removal e) true (rc_acked e).
Definition set_removal (e : rcid) : rcid :=
  mk_rcid (rc_addr e) (rc_seq e) (rc_id e) (rc_secret e) (rc_refs e) true (rc_sent e) (rc_acked e).

(** picoquic/quicctx.c 2713-2733, picoquic_find_or_create_remote_cnxid_stash: without
    creation, and the list of stashes after a creation.  A new stash is last. *)
Definition find_stash (cn : conn) (p : N) : option stash := find (fun s => sh_path s =? p) (cn_stashes cn).
Definition create_stash (cn : conn) (p : N) : conn :=
  match find_stash cn p with
  | Some _ => cn
  | None => set_stashes cn (cn_stashes cn ++ [mk_stash p 0 []])
  end.

(** Changing the stash of a path; the stashes have different path numbers, so that the
    first one is the only one. *)
Definition map_stash (p : N) (f : stash -> stash) (cn : conn) : conn :=
  set_stashes cn (map (fun s => if sh_path s =? p then f s else s) (cn_stashes cn)).

(** cnx->path[i]->first_tuple, and the id it points to. *)
Definition first_tuple (p : path) : option tuple := nth_error (pa_tuples p) 0.
Definition path_rcid (cn : conn) (i : nat) : option rcid :=
  p <~ nth_error (cn_paths cn) i ;; t <~ first_tuple p ;; a <~ tu_cid t ;; rcid_at cn a.

(** Equality of ids (util.c 353-365) and of secrets (memcmp). *)
Definition same_bytes (a b : list N) : bool := if list_eq_dec N.eq_dec a b then true else false.

(** The loop of quicctx.c 2790-2817: an error code, or whether the frame is a duplicate,
    with nb_cid_received and nb_cid_retired_before. *)
Fixpoint scan_stash (l : list rcid) (before seq : N) (id secret : list N) (nb retired : N) : N + (bool * N * N) :=
  match l with
  | [] => inr (false, nb, retired)
  | e :: r =>
    if same_bytes id (rc_id e) then
      if (rc_seq e =? seq) && same_bytes secret (rc_secret e) then inr (true, nb, retired) else inl 10
    else if rc_seq e =? seq then inl 10
    else if same_bytes secret (rc_secret e) then inl 10
    else scan_stash r before seq id secret (nb + 1) (if (rc_seq e <? before) || rc_sent e then retired + 1 else retired)
  end.

(** picoquic/quicctx.c 2762-2854, picoquic_add_remote_cnxid_to_stash: transport error (0:
    none) and connection.  The limit is below 2^31, so that doubling it does not overflow. *)
Definition add_remote_cnxid (cn : conn) (s : stash) (before seq : N) (id secret : list N) : option (N * conn) :=
  let before := if before <? sh_before s then sh_before s else before in
  if (20 <? blen id) || (blen id =? 0) then Some (7, cn)
  else
    e0 <~ path_rcid cn 0 ;;
    if blen (rc_id e0) =? 0 then Some (10, cn)
    else
      match scan_stash (sh_list s) before seq id secret 0 0 with
      | inl err => Some (err, cn)
      | inr (true, _, _) => Some (0, cn)
      | inr (false, nb, retired) =>
        if (cn_limit cn + retired <=? nb) || (2 * cn_limit cn <=? nb) then Some (9, cn)
        else
          let e := mk_rcid (cn_next cn) seq id secret 0 false false false in
          Some (0, map_stash (sh_path s) (fun s => mk_stash (sh_path s) (sh_before s) (sh_list s ++ [e])) (alloc cn))
      end.

(** picoquic/quicctx.c 2873-2908, picoquic_remove_cnxid_from_stash: the id at this address
    leaves the stash and is freed. *)
Definition remove_rcid (cn : conn) (p a : N) : conn :=
  map_stash p (fun s => mk_stash (sh_path s) (sh_before s) (filter (fun e => negb (rc_addr e =? a)) (sh_list s))) cn.

(** picoquic/quicctx.c 2920-2931, picoquic_get_cnxid_from_stash. *)
Definition get_cnxid (l : list rcid) : option rcid :=
  find (fun e => (blen (rc_id e) =? 0) || ((rc_refs e =? 0) && negb (rc_removal e))) l.

(** picoquic/quicctx.c 2933-2939, picoquic_obtain_stashed_cnxid. *)
Definition obtain_stashed (cn : conn) (p : N) : option rcid :=
  match find_stash cn p with Some s => get_cnxid (sh_list s) | None => None end.

(** Assignments to a path, to its first tuple, and to a tuple. *)
Definition set_nth {A} (l : list A) (i : nat) (x : A) : list A := firstn i l ++ x :: skipn (i + 1) l.
Definition set_tuples (p : path) (l : list tuple) : path := mk_path (pa_id p) l (pa_demoted p) (pa_abandoned p).
Definition set_cid (c : option N) (t : tuple) : tuple :=
  mk_tuple (tu_addr t) c (tu_chal t) (tu_count t) (tu_required t) (tu_verified t) (tu_failed t).
Definition map_first (cn : conn) (i : nat) (f : tuple -> tuple) : conn :=
  match nth_error (cn_paths cn) i with
  | Some p =>
    match pa_tuples p with
    | t :: r => set_paths cn (set_nth (cn_paths cn) i (set_tuples p (f t :: r)))
    | [] => cn
    end
  | None => cn
  end.

(** picoquic/quicctx.c 2941-2965, picoquic_dereference_stashed_cnxid with
    is_deleting_cnx = 0, for the path of index [i]; queueing the frame succeeds. *)
Definition dereference (cn : conn) (i : nat) : option conn :=
  p <~ nth_error (cn_paths cn) i ;;
  t <~ first_tuple p ;;
  cn1 <~ (match tu_cid t with
          | None => Some cn
          | Some a =>
            e <~ rcid_at cn a ;;
            if rc_refs e <=? 1 then
              let cn := if rc_sent e then cn
                        else map_rcid a set_sent (add_retire cn (if cn_mp cn then pa_id p else 0) (rc_seq e)) in
              Some (if rc_acked e then remove_rcid cn (if cn_mp cn then pa_id p else 0) a else cn)
            else Some (map_rcid a (set_refs (rc_refs e - 1)) cn)
          end) ;;
  Some (map_first cn1 i (set_cid None)).

(** picoquic/quicctx.c 3092-3136, picoquic_renew_path_connection_id: whether it succeeds,
    and the connection.  picoquic_register_net_secret, which copies the secret of the new
    id, is omitted.  The current id is read at once, where the code only reads it when it is
    needed. *)
Definition renew_path (cn : conn) (i : nat) : option (bool * conn) :=
  p <~ nth_error (cn_paths cn) i ;;
  t <~ first_tuple p ;;
  let pid := if cn_mp cn then pa_id p else 0 in
  match find_stash cn pid with
  | None => Some (false, cn)
  | Some s =>
    cur <~ (match tu_cid t with None => Some None | Some a => e <~ rcid_at cn a ;; Some (Some e) end) ;;
    if (cn_mig_remote cn && (match cur with Some e => sh_before s <=? rc_seq e | None => false end)) || cn_mig_local cn then Some (false, cn)
    else
      match get_cnxid (sh_list s) with
      | None => Some (false, cn)
      | Some e =>
        if match cur with Some c => rc_seq e =? rc_seq c | None => false end then Some (false, cn)
        else
          cn <~ dereference cn i ;;
          Some (true, map_rcid (rc_addr e) (fun x => set_refs (rc_refs x + 1) x) (map_first cn i (set_cid (Some (rc_addr e)))))
      end
  end.

(** picoquic/quicctx.c 2043-2055 and 2343-2355, the index of a path. *)
Fixpoint path_index (l : list path) (p : N) : option nat :=
  match l with
  | [] => None
  | x :: r => if pa_id x =? p then Some 0%nat else match path_index r p with Some i => Some (S i) | None => None end
  end.

(** picoquic/quicctx.c 3060-3081, picoquic_delete_remote_cnxid_stash: every id in it is
    freed. *)
Definition delete_stash (cn : conn) (p : N) : conn :=
  set_stashes cn (filter (fun s => negb (sh_path s =? p)) (cn_stashes cn)).

(** picoquic/quicctx.c 1891-1951, picoquic_demote_path (queueing the abandon frame
    succeeds). *)
Definition demote_path (cn : conn) (i : nat) : option conn :=
  p <~ nth_error (cn_paths cn) i ;;
  if pa_demoted p then Some cn
  else
    let cn := set_paths cn (set_nth (cn_paths cn) i (mk_path (pa_id p) (pa_tuples p) true (pa_abandoned p))) in
    if cn_mp cn then
      z <~ (match i with
                   | 0%nat =>
                     t <~ first_tuple p ;;
                     match tu_cid t, cn_paths cn with
                     | Some _, a :: b :: r => Some (1%nat, set_paths cn (b :: a :: r))
                     | _, _ => Some (0%nat, cn)
                     end
                   | _ => Some (i, cn)
                   end) ;;
      let '(i, cn) := z in
      match i with
      | 0%nat => Some cn
      | _ =>
        p <~ nth_error (cn_paths cn) i ;;
        if pa_abandoned p then Some cn
        else
          let cn := match find_stash cn (pa_id p) with
                    | Some _ => delete_stash (map_first cn i (set_cid None)) (pa_id p)
                    | None => cn
                    end in
          p <~ nth_error (cn_paths cn) i ;;
          Some (set_paths cn (set_nth (cn_paths cn) i (mk_path (pa_id p) (pa_tuples p) (pa_demoted p) true)))
      end
    else Some cn.

(** The loop of quicctx.c 2975-2997: the ids after it, and the sequence numbers that are
    retired. *)
Fixpoint retire_below (l : list rcid) (not_before : N) : list rcid * list N :=
  match l with
  | [] => ([], [])
  | e :: r =>
    let '(r', q) := retire_below r not_before in
    let e := if rc_seq e <? not_before then set_removal e else e in
    if rc_removal e && (rc_refs e =? 0) then
      let q := if rc_sent e then q else rc_seq e :: q in
      if rc_acked e then (r', q) else (set_sent e :: r', q)
    else (e :: r', q)
  end.

(** The body of the loop over the paths of quicctx.c 3007-3023 and 3026-3042: error code
    and connection.  Both && operands of the test are after the access to the sequence
    number. *)
Definition renew_below (cn : conn) (i : nat) (not_before : N) : option (N * conn) :=
  p <~ nth_error (cn_paths cn) i ;;
  e <~ path_rcid cn i ;;
  if (rc_seq e <? not_before) && (0 <? blen (rc_id e)) && negb (pa_demoted p) then
    z <~ renew_path cn i ;; let '(ok, cn) := z in
    if (ok : bool) then Some (0, cn)
    else match i with
         | 0%nat => Some (10, cn)
         | _ => cn <~ demote_path cn i ;; Some (0, cn)
         end
  else Some (0, cn).
Fixpoint renew_all (n : nat) (cn : conn) (i : nat) (not_before : N) : option (N * conn) :=
  match n with
  | O => Some (0, cn)
  | S n' =>
    if (length (cn_paths cn) <=? i)%nat then Some (0, cn)
    else
      z <~ renew_below cn i not_before ;; let '(err, cn) := z in
      if err =? 0 then renew_all n' cn (S i) not_before else Some (err, cn)
  end.

(** picoquic/quicctx.c 2967-3058, picoquic_remove_not_before_from_stash and
    picoquic_remove_not_before_cid. *)
Definition remove_not_before (cn : conn) (p not_before : N) : option (N * conn) :=
  match find_stash cn p with
  | None => Some (0, cn)
  | Some s =>
    let '(l, q) := retire_below (sh_list s) not_before in
    let cn := map_stash p (fun s => mk_stash (sh_path s) (sh_before s) l) cn in
    let cn := fold_left (fun cn x => add_retire cn p x) q cn in
    if cn_mp cn then
      match path_index (cn_paths cn) p with
      | None => Some (0, cn)
      | Some i => renew_below cn i not_before
      end
    else renew_all (length (cn_paths cn)) cn 0 not_before
  end.

(** picoquic/frames.c 453-518, picoquic_decode_new_connection_id_frame after the parsing
    (the frames of C10 and C33): error code (0: none) and connection. *)
Definition new_connection_id (cn : conn) (is_mp : bool) (p seq before : N) (id secret : list N) : option (N * conn) :=
  if is_mp && negb (cn_mp cn) then Some (10, cn)
  else if seq <? before then Some (7, cn)
  else if 20 <? blen id then Some (10, cn)
  else if (cn_max_path cn <? p) && cn_mp cn then Some (10, cn)
  else
    let cn := create_stash cn p in
    s <~ find_stash cn p ;;
    z <~ add_remote_cnxid cn s before seq id secret ;; let '(err, cn) := z in
    if (err =? 0) && (sh_before s <? before) then
      remove_not_before (map_stash p (fun s => mk_stash (sh_path s) before (sh_list s)) cn) p before
    else Some (err, cn).

(** picoquic/frames.c 608-626, picoquic_format_retire_connection_id_frame: the frame that
    is queued for (path, sequence). *)
Definition retire_frame (mp : bool) (p seq : N) : list N :=
  if mp then varint_bytes 0x15228c0a ++ varint_bytes p ++ varint_bytes seq
  else varint_bytes 0x19 ++ varint_bytes seq.

(** picoquic/frames.c 687-701 and 762-797,
    picoquic_process_ack_of_retire_connection_id_frame on the bytes of a frame: one byte is
    skipped, then the path (with multipath) and the sequence are read. *)
Definition ack_retire (cn : conn) (bytes : list N) : conn :=
  let r := skipn 1 bytes in
  match (if cn_mp cn then frames_varint_decode r else Some (0, r)) with
  | None => cn
  | Some (p, r) =>
    match frames_varint_decode r with
    | None => cn
    | Some (seq, _) =>
      match find_stash cn p with
      | None => cn
      | Some s =>
        match find (fun e => rc_seq e =? seq) (sh_list s) with
        | None => cn
        | Some e => remove_rcid cn p (rc_addr e)
        end
      end
    end
  end.

(** picoquic/quicctx.c 2099-2118, picoquic_assign_peer_cnxid_to_tuple: the address of the
    id, whose references are counted. *)
Definition assign_cid (cn : conn) (p : path) : option N * conn :=
  match obtain_stashed cn (pa_id p) with
  | None => (None, cn)
  | Some e => (Some (rc_addr e), map_rcid (rc_addr e) (fun x => set_refs (rc_refs x + 1) x) cn)
  end.

(** picoquic/paths.c 690-704 and quicctx.c 2274-2297: a new tuple of a path, for an address
    not seen before or for a probe, with the random challenges [chal] (quicctx.c
    1957-1972).  picoquic_check_cid_for_new_tuple makes the assignment succeed. *)
Definition new_tuple (cn : conn) (i : nat) (chal : N * N * N) : option conn :=
  p <~ nth_error (cn_paths cn) i ;;
  match obtain_stashed cn (pa_id p) with
  | None => Some cn
  | Some _ =>
    let '(c, cn') := assign_cid cn p in
    let t := mk_tuple (cn_next cn') c chal 0 true false false in
    Some (set_paths (alloc cn') (set_nth (cn_paths cn') i (set_tuples p (pa_tuples p ++ [t]))))
  end.

(** picoquic/paths.c 629-652 and quicctx.c 1621-1704: a packet with a local id of path [id]
    creates that path; the result of the assignment of a remote id is ignored. *)
Definition new_path (cn : conn) (id : N) (chal : N * N * N) : conn :=
  match path_index (cn_paths cn) id with
  | Some _ => cn
  | None =>
    let p := mk_path id [] false false in
    let '(c, cn') := assign_cid cn p in
    let t := mk_tuple (cn_next cn') c chal 0 true false false in
    set_paths (alloc cn') (cn_paths cn' ++ [set_tuples p [t]])
  end.

(** picoquic/frames.c 4720-4784, picoquic_decode_path_response_frame on a path: the first
    tuple with this challenge is verified, and becomes the first of the path. *)
Fixpoint split_challenge (l : list tuple) (v : N) : option (list tuple * tuple * list tuple) :=
  match l with
  | [] => None
  | t :: r =>
    if existsb (N.eqb v) (chal_list (tu_chal t)) then Some ([], t, r)
    else match split_challenge r v with Some (a, x, b) => Some (t :: a, x, b) | None => None end
  end.
Definition path_response (cn : conn) (i : nat) (v : N) : option conn :=
  p <~ nth_error (cn_paths cn) i ;;
  match split_challenge (pa_tuples p) v with
  | None => Some cn
  | Some (a, t, b) =>
    if tu_verified t then Some cn
    else
      let t := mk_tuple (tu_addr t) (tu_cid t) (tu_chal t) (tu_count t) (tu_required t) true (tu_failed t) in
      Some (set_paths cn (set_nth (cn_paths cn) i (set_tuples p (t :: a ++ b))))
  end.

(** picoquic/paths.c 32-123, picoquic_prepare_tuple_challenge_frames for the tuple [j] of
    the path [i], when its time has come (times are omitted) and the frame fits: the
    challenge that is sent, if any.  After three of them the tuple fails and is moved to the
    end. *)
Definition send_challenge (cn : conn) (i j : nat) : option (option N * conn) :=
  p <~ nth_error (cn_paths cn) i ;;
  match nth_error (pa_tuples p) j with
  | None => Some (None, cn)
  | Some t =>
    if tu_verified t || tu_failed t then Some (None, cn)
    else if tu_count t <? 3 then
      v <~ nth_error (chal_list (tu_chal t)) (N.to_nat (tu_count t)) ;;
      let t := mk_tuple (tu_addr t) (tu_cid t) (tu_chal t) (tu_count t + 1) (tu_required t) (tu_verified t) (tu_failed t) in
      Some (Some v, set_paths cn (set_nth (cn_paths cn) i (set_tuples p (set_nth (pa_tuples p) j t))))
    else
      let t := mk_tuple (tu_addr t) (tu_cid t) (tu_chal t) (tu_count t) (tu_required t) (tu_verified t) true in
      Some (None, set_paths cn (set_nth (cn_paths cn) i (set_tuples p (firstn j (pa_tuples p) ++ skipn (j + 1) (pa_tuples p) ++ [t]))))
  end.

(** picoquic/quicctx.c 1974-1989, picoquic_set_path_challenge, with new random values. *)
Definition set_challenge (cn : conn) (i : nat) (chal : N * N * N) : conn :=
  map_first cn i (fun t =>
    if negb (tu_required t) || tu_verified t then mk_tuple (tu_addr t) (tu_cid t) chal 0 true false (tu_failed t) else t).

(** picoquic/loss_recovery.c 455-478: the first tuple of a path fails. *)
Definition fail_path (cn : conn) (i : nat) : conn :=
  map_first cn i (fun t => mk_tuple (tu_addr t) (tu_cid t) (tu_chal t) (tu_count t) (tu_required t) (tu_verified t) true).

(** picoquic/paths.c 261-288 and quicctx.c 1599-1618: a failed tuple that is not the first
    is deleted (when its time has come); its id is left as it is. *)
Definition delete_tuple (cn : conn) (i j : nat) : option conn :=
  p <~ nth_error (cn_paths cn) i ;;
  match j, nth_error (pa_tuples p) j with
  | S _, Some t =>
    if tu_failed t && negb (pa_demoted p) then
      Some (set_paths cn (set_nth (cn_paths cn) i (set_tuples p (firstn j (pa_tuples p) ++ skipn (j + 1) (pa_tuples p)))))
    else Some cn
  | _, _ => Some cn
  end.

(** picoquic/quicctx.c 1850-1857: a demoted path is deleted (when its time has come); only
    with multipath and several paths can it be the first. *)
Definition delete_path (cn : conn) (i : nat) : option conn :=
  p <~ nth_error (cn_paths cn) i ;;
  if pa_demoted p && ((0 <? i)%nat || (cn_mp cn && (1 <? length (cn_paths cn))%nat)) then
    cn <~ dereference cn i ;;
    Some (set_paths cn (firstn i (cn_paths cn) ++ skipn (i + 1) (cn_paths cn)))
  else Some cn.

(** picoquic/sender.c 670: a short header packet is sent on a tuple: its destination id. *)
Definition send_packet (cn : conn) (i j : nat) : option (list N) :=
  p <~ nth_error (cn_paths cn) i ;;
  t <~ nth_error (pa_tuples p) j ;;
  a <~ tu_cid t ;;
  e <~ rcid_at cn a ;;
  Some (rc_id e).

(** What happens to a connection.  [EAck] is the acknowledgement of a packet with one of
    the RETIRE_CONNECTION_ID frames that were queued; a frame may have been sent in several
    packets, all of which may be acknowledged (frames.c 2519 for those declared lost). *)
Inductive event :=
| ENew (is_mp : bool) (p seq before : N) (id secret : list N)
| EAck (p seq : N)
| ERenew (i : nat)
| ETuple (i : nat) (chal : N * N * N)
| EPath (id : N) (chal : N * N * N)
| EResponse (i : nat) (v : N)
| EChallenge (i j : nat)
| ESetChallenge (i : nat) (chal : N * N * N)
| EFail (i : nat)
| EDeleteTuple (i j : nat)
| EDemote (i : nat)
| EDeletePath (i : nat)
| ESend (i j : nat).

(** What is seen of it: an error that closes the connection, a challenge sent on a tuple
    (by its address), the id of a packet sent. *)
Inductive output := OError (code : N) | OChallenge (t v : N) | OSend (id : list N).

(** One event.  Events that cannot happen (a path or a tuple that is not there, a frame that
    was not sent, a second path without multipath) leave the connection as it is.  [None]:
    undefined behaviour. *)
Definition step (cn : conn) (e : event) : option (conn * list output) :=
  let idle := Some (cn, []) in
  let there i k := if (i <? length (cn_paths cn))%nat then k else idle in
  match e with
  | ENew is_mp p seq before id secret =>
    if negb is_mp && negb (p =? 0) then idle
    else z <~ new_connection_id cn is_mp p seq before id secret ;; let '(err, cn) := z in Some (cn, if err =? 0 then [] else [OError err])
  | EAck p seq =>
    if existsb (fun x => (fst x =? p) && (snd x =? seq)) (cn_retires cn)
    then Some (ack_retire cn (retire_frame (cn_mp cn) p seq), []) else idle
  | ERenew i => there i (z <~ renew_path cn i ;; let '(_, cn) := z in Some (cn, []))
  | ETuple i chal => there i (cn <~ new_tuple cn i chal ;; Some (cn, []))
  | EPath id chal => if cn_mp cn then Some (new_path cn id chal, []) else idle
  | EResponse i v => there i (cn <~ path_response cn i v ;; Some (cn, []))
  | EChallenge i j =>
    there i (
      t <~ (p <~ nth_error (cn_paths cn) i ;; Some (nth_error (pa_tuples p) j)) ;;
      z <~ send_challenge cn i j ;; let '(v, cn) := z in
      Some (cn, match t, v with Some t, Some v => [OChallenge (tu_addr t) v] | _, _ => [] end))
  | ESetChallenge i chal => Some (set_challenge cn i chal, [])
  | EFail i => Some (fail_path cn i, [])
  | EDeleteTuple i j => there i (cn <~ delete_tuple cn i j ;; Some (cn, []))
  | EDemote i => there i (cn <~ demote_path cn i ;; Some (cn, []))
  | EDeletePath i => there i (cn <~ delete_path cn i ;; Some (cn, []))
  | ESend i j =>
    there i (
      p <~ nth_error (cn_paths cn) i ;;
      if (j <? length (pa_tuples p))%nat then id <~ send_packet cn i j ;; Some (cn, [OSend id]) else idle)
  end.

(** A history: the connection after it and everything that was seen; after an error nothing
    more happens (the connection is closed). *)
Fixpoint run (cn : conn) (l : list event) : option (conn * list output) :=
  match l with
  | [] => Some (cn, [])
  | e :: r =>
    z <~ step cn e ;; let '(cn1, o1) := z in
    if existsb (fun o => match o with OError _ => true | _ => false end) o1 then Some (cn1, o1)
    else z <~ run cn1 r ;; let '(cn2, o2) := z in Some (cn2, o1 ++ o2)
  end.

(** picoquic/quicctx.c 2735-2760 and 3845-3900: the connection at its creation, with the id
    and the secret that the handshake gives to the first entry (packet.c 1594-1730,
    transport.c 645), one path and one tuple, which needs no validation. *)
Definition init_conn (mp : bool) (limit max_path : N) (ml mr : bool) (id secret : list N) (chal : N * N * N) : conn :=
  mk_conn mp limit max_path ml mr 2
    [mk_stash 0 0 [mk_rcid 0 0 id secret 1 false false false]]
    [mk_path 0 [mk_tuple 1 (Some 0) chal 0 true true false] false false] [].
