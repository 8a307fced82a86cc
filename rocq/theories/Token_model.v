(** Model of the client's store of address validation tokens, picoquic/token_store.c
    (definitions only).  Memory allocation and file operations succeed; sizes are
    written to the file as on a little-endian machine with 64-bit pointers. *)
From Verif Require Import Base Varint_model Mem.

(** picoquic/picoquic_internal.h 507-517, struct st_picoquic_stored_token_t, and
    picoquic/token_store.c 29-58, picoquic_format_token: the three strings are copied
    with their lengths. *)
Record token := mk_token { tk_valid : N; tk_sni : list N; tk_ip : list N; tk_tok : list N; tk_used : bool }.

(** memcmp of two areas of equal length, after the comparison of the lengths. *)
Fixpoint same_bytes (a b : list N) : bool :=
  match a, b with
  | [], [] => true
  | x :: r, y :: s => (x =? y) && same_bytes r s
  | _, _ => false
  end.

(** PICOPARSE_16 and PICOPARSE_64, picoquic/picoquic_internal.h 1710-1713. *)
Definition parse_be (l : list N) : N := fold_left (fun a b => a * 256 + b) l 0.

(** picoquic/token_store.c 60-94, picoquic_serialize_token; no result when the buffer
    is too small. *)
Definition serialize (t : token) (bytes_max : N) : option (list N) :=
  if bytes_max <? 8 + 2 + 2 + 2 + blen (tk_sni t) + blen (tk_ip t) + blen (tk_tok t) then None
  else Some (format_64 (tk_valid t) ++
             format_16 (blen (tk_sni t)) ++ tk_sni t ++
             format_16 (blen (tk_ip t)) ++ tk_ip t ++
             format_16 (blen (tk_tok t)) ++ tk_tok t).

(** picoquic/token_store.c 96-150, picoquic_deserialize_token, on the bytes [m]:
    [None] if it reads outside of them, [Some None] if it returns an error, else the
    token and the number of bytes consumed. *)
Definition deserialize (m : list N) : option (option (token * N)) :=
  let max := blen m in
  b1 <~ (if 14 <? max then
           time <~ mem_read 0 8 m ;;
           len <~ mem_read 8 2 m ;;
           Some (parse_be time, parse_be len, 10, 14 + parse_be len, 10 + parse_be len)
         else Some (0, 0, 0, 14, 0)) ;;
  let '(time, sni_len, sni_index, required1, index1) := b1 in
  b2 <~ (if required1 <? max then
           len <~ mem_read index1 2 m ;;
           let ip_len := u8 (parse_be len) in
           Some (ip_len, index1 + 2, required1 + ip_len, index1 + 2 + ip_len)
         else Some (0, 0, required1, index1)) ;;
  let '(ip_len, ip_index, required2, index2) := b2 in
  b3 <~ (if required2 <? max then
           len <~ mem_read index2 2 m ;;
           Some (parse_be len, index2 + 2, required2 + parse_be len)
         else Some (0, 0, required2)) ;;
  let '(tok_len, tok_index, required3) := b3 in
  if max <? required3 then Some None
  else
    sni <~ mem_read sni_index sni_len m ;;
    ip <~ mem_read ip_index ip_len m ;;
    tok <~ mem_read tok_index tok_len m ;;
    Some (Some (mk_token time sni ip tok false, required3)).

(** picoquic/token_store.c 152-200, picoquic_store_token, at time [now]: the list and
    whether the token was accepted.  The lengths are those of the arguments. *)
Definition store_token (now : N) (sni ip tok : list N) (l : list token) : list token * bool :=
  if (blen tok <? 1) || (blen sni =? 0) then (l, false)
  else
    let valid := u64 (now + 24 * 3600 * 1000000) in
    (mk_token valid sni ip tok false ::
     filter (fun t => negb ((tk_valid t <=? valid) && same_bytes (tk_sni t) sni && same_bytes (tk_ip t) ip)) l,
     true).

(** picoquic/token_store.c 214-230, the loop of picoquic_get_token; [i] is the position
    of the head of [l] in the list. *)
Fixpoint best_match (now : N) (sni ip : list N) (l : list token) (i : nat) (best : option (nat * token))
  : option (nat * token) :=
  match l with
  | [] => best
  | t :: r =>
    if (now <? tk_valid t) && same_bytes (tk_sni t) sni && negb (tk_used t) then
      if 0 <? blen ip then
        if same_bytes (tk_ip t) ip then Some (i, t)
        else best_match now sni ip r (S i) best
      else
        match best with
        | None => best_match now sni ip r (S i) (Some (i, t))
        | Some (_, b) => if tk_valid b <? tk_valid t then best_match now sni ip r (S i) (Some (i, t))
                         else best_match now sni ip r (S i) best
        end
    else best_match now sni ip r (S i) best
  end.

(** [best_match->was_used = mark_used], token_store.c 242. *)
Definition set_used (t : token) (b : bool) : token := mk_token (tk_valid t) (tk_sni t) (tk_ip t) (tk_tok t) b.
Fixpoint mark_at (i : nat) (b : bool) (l : list token) : list token :=
  match l, i with
  | [], _ => []
  | t :: r, O => set_used t b :: r
  | t :: r, S j => t :: mark_at j b r
  end.

(** picoquic/token_store.c 202-246, picoquic_get_token. *)
Definition get_token (now : N) (sni ip : list N) (mark : bool) (l : list token) : list token * option (list N) :=
  match best_match now sni ip l 0 None with
  | None => (l, None)
  | Some (i, t) => if blen (tk_tok t) =? 0 then (l, None) else (mark_at i mark l, Some (tk_tok t))
  end.

(** The four bytes written by fwrite(&record_size, 4, 1, F), token_store.c 273, and read
    back at 302. *)
Definition le_32 (n : N) : list N := [u8 n; u8 (N.shiftr n 8); u8 (N.shiftr n 16); u8 (N.shiftr n 24)].
Definition parse_le (l : list N) : N := parse_be (rev l).

(** picoquic/token_store.c 248-283, picoquic_save_tokens: the content of the file and
    whether all went well. *)
Fixpoint save_tokens (now : N) (l : list token) : list N * bool :=
  match l with
  | [] => ([], true)
  | t :: r =>
    if (now <? tk_valid t) && negb (tk_used t) then
      match serialize t 2048 with
      | None => ([], false)
      | Some b => let (f, ok) := save_tokens now r in (le_32 (blen b) ++ b ++ f, ok)
      end
    else save_tokens now r
  end.

(** Outcome of the loading loop; [LdMore] is the exhaustion of the fuel, [LdUb] a read
    outside of a record. *)
Inductive loaded := LdDone (l : list token) (ok : bool) | LdMore | LdUb.

(** picoquic/token_store.c 301-341, the loop of picoquic_load_tokens on what is left of
    the file; [acc] are the tokens already linked.  32 is
    offsetof(struct st_picoquic_stored_token_t, time_valid_until). *)
Fixpoint load_loop (fuel : nat) (now : N) (file : list N) (acc : list token) : loaded :=
  match fuel with
  | O => LdMore
  | S fuel' =>
    if blen file <? 4 then LdDone acc true
    else
      let size := parse_le (firstn 4 file) in
      let rest := skipn 4 file in
      if (2048 <? size) || (2048 <? u32 (size + 32)) then LdDone acc false
      else if blen rest <? size then LdDone acc false
      else
        match deserialize (firstn (N.to_nat size) rest) with
        | None => LdUb
        | Some None => LdDone acc false
        | Some (Some (t, consumed)) =>
          if negb (consumed =? size) then LdDone acc false
          else if tk_valid t <? now then load_loop fuel' now (skipn (N.to_nat size) rest) acc
          else load_loop fuel' now (skipn (N.to_nat size) rest) (acc ++ [t])
        end
  end.

(** picoquic/token_store.c 285-345, picoquic_load_tokens: the first token loaded
    replaces the head of the list. *)
Definition load_tokens (now : N) (file : list N) (l : list token) : loaded :=
  match load_loop (S (length file)) now file [] with
  | LdDone [] ok => LdDone l ok
  | r => r
  end.

(** The list of a context and the file. *)
Record tstore := mk_ts { ts_list : list token; ts_file : list N }.

(** What happens to the store: a NEW_TOKEN frame (picoquic/frames.c 865), the use of a
    token by a new connection (picoquic/sender.c 1895, with [mark] set and no address),
    saving and loading (picoquic/quicctx.c 766-786), and the creation of a new context
    (picoquic/quicctx.c 645). *)
Inductive tev :=
| EvStore (now : N) (sni ip tok : list N)
| EvGet (now : N) (sni ip : list N) (mark : bool)
| EvSave (now : N)
| EvLoad (now : N)
| EvFresh.

(** What is observed. *)
Inductive tout := TNothing | TStored | TGot (tok : list N).

(** One event. *)
Definition tstep (s : tstore) (e : tev) : option (tstore * tout) :=
  match e with
  | EvStore now sni ip tok =>
    let (l, ok) := store_token now sni ip tok (ts_list s) in
    Some (mk_ts l (ts_file s), if ok then TStored else TNothing)
  | EvGet now sni ip mark =>
    let (l, r) := get_token now sni ip mark (ts_list s) in
    Some (mk_ts l (ts_file s), match r with Some tok => TGot tok | None => TNothing end)
  | EvSave now => Some (mk_ts (ts_list s) (fst (save_tokens now (ts_list s))), TNothing)
  | EvLoad now =>
    match load_tokens now (ts_file s) (ts_list s) with
    | LdDone l _ => Some (mk_ts l (ts_file s), TNothing)
    | _ => None
    end
  | EvFresh => Some (mk_ts [] (ts_file s), TNothing)
  end.

(** A history: the events with what was observed. *)
Fixpoint trun (s : tstore) (l : list tev) : option (tstore * list (tev * tout)) :=
  match l with
  | [] => Some (s, [])
  | e :: r =>
    match tstep s e with
    | None => None
    | Some (s1, o) =>
      match trun s1 r with
      | None => None
      | Some (s2, log) => Some (s2, (e, o) :: log)
      end
    end
  end.

(** No token and an empty file. *)
Definition ts0 : tstore := mk_ts [] [].
