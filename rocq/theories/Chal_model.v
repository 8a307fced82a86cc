(** Model of the challenges sent to new addresses (definitions only): picoquic/paths.c 33-138,
    236-325, the list of the tuples of a path (picoquic/quicctx.c 1575-1618), the frames that
    change it (picoquic/frames.c 4655-4680, 4720-4775) and picoquic_set_path_challenge
    (picoquic/quicctx.c 1957-1989).  One path that is not demoted; the packet that holds the frames,
    the addresses and the connection ids are not modelled here (C30, C31). *)
From Verif Require Import Base.

(** picoquic/picoquic_internal.h 1032-1068, picoquic_tuple_t: its identity (the pointer),
    challenge_required, challenge_verified, challenge_failed, challenge_repeat_count,
    challenge_time, demotion_time, challenge_response when response_required is set, and the array
    challenge.  is_nat_rebinding is assigned nowhere in the sources: it is 0, and omitted. *)
Record ctup := mk_ct { ct_id : N; ct_req : bool; ct_ver : bool; ct_fail : bool; ct_count : N;
  ct_time : N; ct_demote : N; ct_resp : option N; ct_chal : list N }.

(** The path: client_mode of its connection, bytes_sent, received, retransmit_timer, and the list
    from first_tuple (picoquic/picoquic_internal.h 1085-1180); [cp_next]: the identity of the next
    tuple that is allocated. *)
Record cpath := mk_cp { cp_client : bool; cp_sent : N; cp_recv : N; cp_rto : N; cp_next : N; cp_tuples : list ctup }.

(** What is sent or decided, in order: a PATH_CHALLENGE (tuple, index, value, time, timer of the path),
    a PATH_RESPONSE, the failure of a tuple, and the renewal of its challenges. *)
Inductive cev :=
| EChal (id idx v t r : N)
| EResp (id v : N)
| EFail (id t r : N)
| EReset (id : N).

(** Assignment of the list of tuples of the path (picoquic/quicctx.c 1575-1618). *)
Definition cp_set (l : list ctup) (p : cpath) : cpath :=
  mk_cp (cp_client p) (cp_sent p) (cp_recv p) (cp_rto p) (cp_next p) l.

(** picoquic/paths.c 240-259, picoquic_tuple_challenge_time; PICOQUIC_INITIAL_RETRANSMIT_TIMER is
    250000 (picoquic/picoquic_internal.h 57). *)
Definition challenge_time (rto : N) (t : ctup) (now : N) : N :=
  if ct_count t =? 0 then now
  else if 2 <=? ct_count t then u64 (ct_time t + u64 (N.shiftl rto (ct_count t - 1)))
  else u64 (ct_time t + 250000).

(** picoquic/paths.c 62, 132: a full size packet is allowed. *)
Definition may_pad (p : cpath) : bool := cp_client p || (u64 (cp_sent p + 1200) <=? cp_recv p).

(** picoquic/paths.c 39-124: the challenge of a tuple.  Result: what is sent, whether padding is
    needed, the room left, the wake time, the tuple, and whether it is moved to the end of the list.
    PICOQUIC_CHALLENGE_REPEAT_MAX is 3 (picoquic/picoquic_internal.h 105); a challenge takes 9 bytes (picoquic/frames.c 4604-4622).
    [None]: a read out of the array, undefined. *)
Definition send_chal (now room wake : N) (p : cpath) (t : ctup) : option (list cev * bool * N * N * ctup * bool) :=
  if ct_ver t || ct_fail t then Some ([], false, room, wake, t, false)
  else
    let next := challenge_time (cp_rto p) t now in
    if now <? next then Some ([], false, room, (if next <? wake then next else wake), t, false)
    else if ct_count t <? 3 then
      match nth_error (ct_chal t) (N.to_nat (ct_count t)) with
      | None => None
      | Some v =>
        let sent := 9 <=? room in
        let t' := if sent then mk_ct (ct_id t) (ct_req t) (ct_ver t) (ct_fail t) (u8 (ct_count t + 1)) now (ct_demote t) (ct_resp t) (ct_chal t) else t in
        let next' := challenge_time (cp_rto p) t' now in
        let wake' := if next' <? wake then next' else wake in
        if sent then Some ([EChal (ct_id t) (ct_count t) v now (cp_rto p)], may_pad p, room - 9, wake', t', false)
        else Some ([], false, room, wake', t', false)
      end
    else
      Some ([EFail (ct_id t) now (cp_rto p)], false, room, wake,
        mk_ct (ct_id t) (ct_req t) (ct_ver t) true (ct_count t) (ct_time t)
          (u64 (now + u64 (N.shiftl (cp_rto p) 3))) (ct_resp t) (ct_chal t), true).

(** picoquic/paths.c 126-134: the response to a challenge of the peer, of 9 bytes
    (picoquic/frames.c 4704-4718). *)
Definition send_resp (room : N) (p : cpath) (t : ctup) : list cev * bool * ctup :=
  match ct_resp t with
  | Some v =>
    if 9 <=? room then
      ([EResp (ct_id t) v], may_pad p,
       mk_ct (ct_id t) (ct_req t) (ct_ver t) (ct_fail t) (ct_count t) (ct_time t) (ct_demote t) None (ct_chal t))
    else ([], false, t)
  | None => ([], false, t)
  end.

(** The tuple with an identity; its removal from the list (picoquic/paths.c 96-113); and the
    assignments to it, in place. *)
Definition ct_find (id : N) (l : list ctup) : option ctup := find (fun t => ct_id t =? id) l.
Fixpoint unlink (id : N) (l : list ctup) : list ctup :=
  match l with
  | [] => []
  | t :: r => if ct_id t =? id then unlink id r else t :: unlink id r
  end.
Definition ct_put (t' : ctup) (l : list ctup) : list ctup :=
  map (fun t => if ct_id t =? ct_id t' then t' else t) l.

(** picoquic/paths.c 33-138, picoquic_prepare_tuple_challenge_frames for the tuple [id] of the path:
    what is sent, whether padding is needed (the caller starts from 0), the wake time and the path.
    The outer [None] is undefined behaviour; no tuple [id]: no call. *)
Definition prepare (now room wake id : N) (p : cpath) : option (list cev * bool * N * cpath) :=
  match ct_find id (cp_tuples p) with
  | None => Some ([], false, wake, p)
  | Some t =>
    match send_chal now room wake p t with
    | None => None
    | Some (e1, pad1, room', wake', t1, moved) =>
      let '(e2, pad2, t2) := send_resp room' p t1 in
      let l := if moved then unlink id (cp_tuples p) ++ [t2] else ct_put t2 (cp_tuples p) in
      Some (e1 ++ e2, pad1 || pad2, wake', cp_set l p)
    end
  end.

(** picoquic/paths.c 263-288, picoquic_delete_demoted_tuples for the path: the tuples after the
    first; picoquic_delete_tuple (picoquic/quicctx.c 1599-1618) unlinks the tuple. *)
Fixpoint purge_loop (now wake : N) (l : list ctup) : list ctup * N :=
  match l with
  | [] => ([], wake)
  | t :: r =>
    if ct_fail t then
      if ct_demote t <? now then purge_loop now wake r
      else
        let '(r', w) := purge_loop now (if ct_demote t <? wake then ct_demote t else wake) r in (t :: r', w)
    else let '(r', w) := purge_loop now wake r in (t :: r', w)
  end.
Definition purge (now wake : N) (p : cpath) : cpath * N :=
  match cp_tuples p with
  | [] => (p, wake)
  | t :: r => let '(r', w) := purge_loop now wake r in (cp_set (t :: r') p, w)
  end.

(** picoquic/paths.c 294-325, picoquic_check_path_control_needed: the tuple that is selected, the
    wake time, and whether tuple_demotion_needed is set. *)
Fixpoint check_loop (first : bool) (rto now wake : N) (l : list ctup) : option N * N * bool :=
  match l with
  | [] => (None, wake, false)
  | t :: r =>
    if ct_fail t then
      let '(s, w, d) := check_loop false rto now wake r in (s, w, d || (negb first && (ct_demote t <? now)))
    else
      match ct_resp t with
      | Some _ => (Some (ct_id t), wake, false)
      | None =>
        if ct_req t && negb (ct_ver t) then
          let next := challenge_time rto t now in
          if next <=? now then (Some (ct_id t), wake, false)
          else check_loop false rto now (if next <? wake then next else wake) r
        else check_loop false rto now wake r
      end
  end.
Definition check (now wake : N) (p : cpath) : option N * N * bool :=
  check_loop true (cp_rto p) now wake (cp_tuples p).

(** picoquic/quicctx.c 1575-1597 and 1957-1972, paths.c 697-701: a new tuple at the end of the list,
    with new challenges (a list of three random values). *)
Definition add_tuple (now : N) (chal : list N) (p : cpath) : cpath :=
  mk_cp (cp_client p) (cp_sent p) (cp_recv p) (cp_rto p) (cp_next p + 1)
    (cp_tuples p ++ [mk_ct (cp_next p) true false false 0 now 0 None chal]).

(** picoquic/frames.c 4655-4675: a challenge [v] of the peer with the addresses of the tuple [id]. *)
Definition ask (id v : N) (p : cpath) : cpath :=
  cp_set (map (fun t => if ct_id t =? id
    then mk_ct (ct_id t) (ct_req t) (ct_ver t) (ct_fail t) (ct_count t) (ct_time t) (ct_demote t) (Some v) (ct_chal t)
    else t) (cp_tuples p)) p.

(** picoquic/frames.c 4720-4775: a response that matches a challenge of the tuple [id] (C30 is about
    the match): the tuple is verified and becomes the first. *)
Definition answer (id : N) (p : cpath) : cpath :=
  match ct_find id (cp_tuples p) with
  | None => p
  | Some t =>
    if ct_ver t then p
    else cp_set (mk_ct (ct_id t) (ct_req t) true (ct_fail t) (ct_count t) (ct_time t) (ct_demote t) (ct_resp t) (ct_chal t)
                   :: unlink id (cp_tuples p)) p
  end.

(** picoquic/quicctx.c 1957-1989, picoquic_set_path_challenge: new challenges for the first tuple. *)
Definition renew (now : N) (chal : list N) (p : cpath) : list cev * cpath :=
  match cp_tuples p with
  | [] => ([], p)
  | t :: r =>
    if negb (ct_req t) || ct_ver t then
      ([EReset (ct_id t)],
       cp_set (mk_ct (ct_id t) true false (ct_fail t) 0 now (ct_demote t) (ct_resp t) chal :: r) p)
    else ([], p)
  end.

(** picoquic/loss_recovery.c 465-477: the first tuple fails after many losses. *)
Definition fail_first (p : cpath) : cpath :=
  match cp_tuples p with
  | [] => p
  | t :: r => cp_set (mk_ct (ct_id t) (ct_req t) (ct_ver t) true (ct_count t) (ct_time t) (ct_demote t) (ct_resp t) (ct_chal t) :: r) p
  end.

(** What happens to the path, in any order: the calls above, and changes of the timer and of the
    counts of bytes (picoquic/paths.c and its callers in picoquic/sender.c 3905-3970). *)
Inductive cop :=
| OAdd (now : N) (chal : list N)
| OAsk (id v : N)
| OAnswer (id : N)
| ORenew (now : N) (chal : list N)
| OFailFirst
| OPrep (now room id : N)
| OPurge (now : N)
| ORto (r : N)
| OBytes (sent recv : N).

(** One step (the cited functions), and histories. *)
Definition cstep (o : cop) (p : cpath) : option (list cev * cpath) :=
  match o with
  | OAdd now c => Some ([], add_tuple now c p)
  | OAsk id v => Some ([], ask id v p)
  | OAnswer id => Some ([], answer id p)
  | ORenew now c => Some (renew now c p)
  | OFailFirst => Some ([], fail_first p)
  | OPrep now room id =>
    match prepare now room max64 id p with None => None | Some (e, _, _, p') => Some (e, p') end
  | OPurge now => Some ([], fst (purge now max64 p))
  | ORto r => Some ([], mk_cp (cp_client p) (cp_sent p) (cp_recv p) r (cp_next p) (cp_tuples p))
  | OBytes s r => Some ([], mk_cp (cp_client p) s r (cp_rto p) (cp_next p) (cp_tuples p))
  end.
Fixpoint crun (p : cpath) (l : list cop) : option (list cev * cpath) :=
  match l with
  | [] => Some ([], p)
  | o :: r =>
    match cstep o p with
    | None => None
    | Some (e, p') => match crun p' r with None => None | Some (e', p'') => Some (e ++ e', p'') end
    end
  end.
