(** Model of the connection ids that an endpoint issues: picoquic/quicctx.c 3577-3822,
    picoquic/sender.c 2543-2605 and the frames that concern them (definitions only), for
    connections without multipath: the only list is that of path 0.
    Simplification: sequence numbers do not reach 2^64. *)
From Verif Require Import Base.

(** A connection id: its bytes. *)
Notation cid := (list N).

(** picoquic/picoquic_internal.h 951-960: sequence, create_time, cnx_id. *)
Record lcid := mk_lcid { l_seq : N; l_time : N; l_id : cid }.

(** picoquic/picoquic_internal.h 962-974, with table_cnx_by_id of the context: the id and the
    connection of each entry; this connection is 0.  The counts are ints. *)
Record lids := mk_lids {
  k_cids : list lcid; k_next : N; k_before : N; k_oldest : N; k_nb : Z; k_expired : Z;
  k_table : list (cid * N) }.

(** local_cnxid_length and local_cnxid_ttl of the context, and active_connection_id_limit of
    the peer, 32 bits (picoquic/transport.c 704-708). *)
Record conf := mk_conf { c_len : N; c_ttl : N; c_limit : N }.

(** A connection before its first id (quicctx.c 3590-3595), in a context with the ids of others. *)
Definition lids0 (t : list (cid * N)) : lids := mk_lids [] 0 0 0 0 0 t.

(** Equality of connection ids (picoquic_compare_connection_id). *)
Fixpoint same_cid (a b : cid) : bool :=
  match a, b with
  | [], [] => true
  | x :: a', y :: b' => (x =? y) && same_cid a' b'
  | _, _ => false
  end.

(** picoquic/quicctx.c 4910-4933, picoquic_cnx_by_id; the hash table is a map (C17). *)
Definition cnx_by_id (t : list (cid * N)) (i : cid) : option N :=
  option_map snd (find (fun e => same_cid (fst e) i) t).

(** picoquic/quicctx.c 3628-3640: the ids that are tried, from [rnd], until one is not in use. *)
Fixpoint pick (tries : nat) (rnd : nat -> cid) (t : list (cid * N)) : option cid :=
  match tries with
  | O => None
  | S n =>
    match cnx_by_id t (rnd n) with
    | None => Some (rnd n)
    | Some _ => pick n rnd t
    end
  end.

(** picoquic/quicctx.c 3609-3677, picoquic_create_local_cnxid, with 1143-1157,
    picoquic_register_cnx_id; [None]: no id. Memory does not run out. *)
Definition create_local (c : conf) (rnd : nat -> cid) (now : N) (k : lids) : option (lids * lcid) :=
  match (if c_len c =? 0 then Some [] else pick 32 rnd (k_table k)) with
  | None => None
  | Some i =>
    let l := mk_lcid (k_next k) now i in
    Some (mk_lids (k_cids k ++ [l]) (k_next k + 1) (k_before k)
      (if k_next k =? 0 then now else k_oldest k) (k_nb k + 1) (k_expired k)
      (if 0 <? c_len c then (i, 0) :: k_table k else k_table k), l)
  end.

(** picoquic/quicctx.c 3679-3731, picoquic_delete_local_cnxid_listed. *)
Definition delete_local (l : lcid) (k : lids) : lids :=
  mk_lids (filter (fun m => negb (l_seq m =? l_seq l)) (k_cids k)) (k_next k) (k_before k) (k_oldest k)
    (k_nb k - 1)
    (if (l_seq l <? k_before k) && (0 <? k_expired k)%Z then (k_expired k - 1)%Z else k_expired k)
    (match l_id l with
     | [] => k_table k
     | _ :: _ => filter (fun e => negb (same_cid (fst e) (l_id l))) (k_table k)
     end).

(** picoquic/quicctx.c 3771-3791, picoquic_retire_local_cnxid. *)
Definition retire_local (seq : N) (k : lids) : lids :=
  match find (fun l => l_seq l =? seq) (k_cids k) with
  | Some l => delete_local l k
  | None => k
  end.

(** picoquic/frames.c 691-722, picoquic_decode_retire_connection_id_frame without multipath, from
    the parsed frame on; [cur]: the sequence of the id of the path of the packet, if it has one.
    Whether the frame is accepted. *)
Definition on_retire (cur : option N) (seq : N) (k : lids) : lids * bool :=
  match cur with
  | Some s => if s =? seq then (k, false) else (retire_local seq k, true)
  | None => (retire_local seq k, true)
  end.

(** Difference of 64 bit times. *)
Definition ago (a b : N) : N := u64 (a + two64 - b).

(** picoquic/quicctx.c 3800-3811: the loop of picoquic_check_local_cnxid_ttl; the count, the
    sequence to retire before, and the time of the oldest. *)
Fixpoint expire (ttl now : N) (l : list lcid) (e : Z) (b o : N) : Z * N * N :=
  match l with
  | [] => (e, b, o)
  | m :: r =>
    if ttl <=? ago now (l_time m) then
      expire ttl now r (e + 1) (if b <=? l_seq m then l_seq m + 1 else b) o
    else expire ttl now r e b (if l_time m <? o then l_time m else o)
  end.

(** picoquic/quicctx.c 3793-3822, picoquic_check_local_cnxid_ttl, and *next_wake_time. *)
Definition check_ttl (ttl now wake : N) (k : lids) : lids * N :=
  if ttl <=? ago now (k_oldest k) then
    let '(e, b, o) := expire ttl now (k_cids k) 0 (k_before k) now in
    (mk_lids (k_cids k) (k_next k) b o (k_nb k) e (k_table k), wake)
  else
    (k, if ttl <? ago wake (k_oldest k) then u64 (k_oldest k + ttl) else wake).

(** Bytes of a variable length integer (picoquic/intformat.c 94-130). *)
Definition vsize (n : N) : N :=
  if n <? 64 then 1 else if n <? 16384 then 2 else if n <? 1073741824 then 4 else 8.

(** picoquic/frames.c 384-410, picoquic_format_new_connection_id_frame without multipath: the
    bytes that it takes. *)
Definition frame_size (k : lids) (l : lcid) : N :=
  1 + vsize (l_seq l) + vsize (k_before k) + 1 + N.of_nat (List.length (l_id l)) + 16.

(** Conversion of a uint32_t to int (gcc, clang: modulo 2^32). *)
Definition int32 (n : N) : Z := if n <? 2 ^ 31 then Z.of_N n else (Z.of_N n - 2 ^ 32)%Z.

(** Sum of ints; [None]: undefined. *)
Definition int_add (a b : Z) : option Z := if (a + b <? 2 ^ 31)%Z && (- 2 ^ 31 <=? a + b)%Z then Some (a + b)%Z else None.

(** A NEW_CONNECTION_ID frame: sequence, retire prior to, id. *)
Notation frame := (N * N * cid)%type.

(** picoquic/sender.c 2578-2602: the loop; [space]: the bytes that remain; [rnd]: the ids tried by
    each creation.  The frames, and whether it ended for lack of space or of an id.  [inr true]: out
    of fuel, [inr false]: undefined. *)
Fixpoint push (fuel : nat) (c : conf) (rnd : nat -> nat -> cid) (now space : N) (k : lids) :
  lids * list frame * bool + bool :=
  match fuel with
  | O => inr true
  | S f =>
    match int_add (int32 (c_limit c)) (k_expired k), int_add 8 (k_expired k) with
    | Some a, Some b =>
      if (k_nb k <? a)%Z && (k_nb k <=? b)%Z then
        match create_local c (rnd f) now k with
        | None => inl (k, [], true)
        | Some (k1, l) =>
          if (N.of_nat (List.length (l_id l)) =? 0) || (space <? frame_size k1 l) then
            let k2 := delete_local l k1 in
            inl (mk_lids (k_cids k2) (k_next k2 - 1) (k_before k2) (k_oldest k2) (k_nb k2) (k_expired k2)
                   (k_table k2), [], true)
          else
            match push f c rnd now (space - frame_size k1 l) k1 with
            | inl (k3, fs, full) => inl (k3, (l_seq l, k_before k1, l_id l) :: fs, full)
            | inr e => inr e
            end
        end
      else inl (k, [], false)
    | _, _ => inr false
    end
  end.

(** picoquic/sender.c 2544-2605, picoquic_format_new_local_id_as_needed without multipath. *)
Definition as_needed (c : conf) (rnd : nat -> nat -> cid) (now wake space : N) (k : lids) :
  lids * list frame * bool * N + bool :=
  let '(k, wake) := check_ttl (c_ttl c) now wake k in
  match push 10 c rnd now space k with
  | inl (k, fs, full) => inl (k, fs, full, wake)
  | inr e => inr e
  end.

(** What happens: the first id, or that of the preferred address, is created (quicctx.c 3869,
    3914); a packet is prepared; a frame arrives; another
    connection (not 0) registers an id or removes its own. *)
Inductive lop :=
| LCreate (rnd : nat -> cid) (now : N)
| LSend (rnd : nat -> nat -> cid) (now wake space : N)
| LRetire (cur : option N) (seq : N)
| LOther (i : cid) (owner : N)
| LGone (i : cid).

(** One of them: the state and the frames sent; an id is given to another connection only if it is
    not in use (quicctx.c 3635). *)
Definition lstep (c : conf) (k : lids) (o : lop) : lids * list frame + bool :=
  match o with
  | LCreate rnd now => match create_local c rnd now k with Some (k', _) => inl (k', []) | None => inl (k, []) end
  | LSend rnd now wake space =>
    match as_needed c rnd now wake space k with
    | inl (k', fs, _, _) => inl (k', fs)
    | inr e => inr e
    end
  | LRetire cur seq => inl (fst (on_retire cur seq k), [])
  | LOther i owner =>
    inl (match cnx_by_id (k_table k) i with
         | None => mk_lids (k_cids k) (k_next k) (k_before k) (k_oldest k) (k_nb k) (k_expired k) ((i, owner) :: k_table k)
         | Some _ => k
         end, [])
  | LGone i =>
    inl (mk_lids (k_cids k) (k_next k) (k_before k) (k_oldest k) (k_nb k) (k_expired k)
           (filter (fun e => (snd e =? 0) || negb (same_cid (fst e) i)) (k_table k)), [])
  end.

(** A history: the state and all frames sent. *)
Fixpoint lrun (c : conf) (k : lids) (ops : list lop) : lids * list frame + bool :=
  match ops with
  | [] => inl (k, [])
  | o :: r =>
    match lstep c k o with
    | inr e => inr e
    | inl (k', fs) =>
      match lrun c k' r with
      | inr e => inr e
      | inl (k'', fs') => inl (k'', fs ++ fs')
      end
    end
  end.
