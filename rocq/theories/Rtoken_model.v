(** Model of the address validation tokens of a server (definitions only):
    picoquic/tls_api.c 2693-2890 and the table of tokens already used,
    picoquic/quicctx.c 517-600. *)
From Verif Require Import Base Varint_model Mem Header_model.

(** The AEAD of tokens (aead_encrypt_ticket_ctx, aead_decrypt_ticket_ctx): sequence number,
    authenticated data, text.  [None] is a returned length larger than the input. *)
Record aead := mk_aead {
  ae_enc : N -> list N -> list N -> list N;
  ae_dec : N -> list N -> list N -> option (list N)
}.

(** PICOPARSE_64 (picoquic/picoquic_internal.h 1713) of the first eight bytes. *)
Definition parse_64 (l : list N) : option N :=
  match frames_uint64_decode l with Some (n, _) => Some n | None => None end.

(** picoquic/util.c 1011-1014, picoquic_frames_cid_encode. *)
Definition frames_cid_encode (cid : list N) : writer := frames_length_data_encode cid.

(** picoquic/tls_api.c 2797-2818, the clear text of a token, padded to
    PICOQUIC_RETRY_TOKEN_PAD_SIZE (26) bytes: expiration time (24 hours or 4 seconds after
    [time]), original id, id chosen in the Retry packet, packet number.  [None]: the text
    does not fit in 128 bytes. *)
Definition retry_text (time : N) (odcid rcid : list N) (pn : N) : option (list N) :=
  let token_time := u64 (time + (if blen odcid =? 0 then 86400000000 else 4000000)) in
  match (frames_uint64_encode token_time >>> (frames_cid_encode odcid >>> (frames_cid_encode rcid >>> frames_varint_encode pn))) 128 with
  | None => None
  | Some t => Some (t ++ mem_fill 0 (26 - blen t))
  end.

(** picoquic/tls_api.c 2716-2751, picoquic_server_encrypt_retry_token; [addr] is the peer's
    IP address (4 or 16 bytes), [rnd] the eight random bytes.  [None] is a write after the
    end of the token buffer, [Some None] the return code -1. *)
Definition encrypt_retry_token (ae : aead) (addr : list N) (is_new : bool) (rnd : list N) (token_max : N)
    (text : list N) : option (option (list N)) :=
  if token_max <? blen text + 1 + 16 then Some None
  else
    match rnd with
    | [] => None
    | r0 :: r =>
      let nonce := (if is_new then N.lor r0 128 else N.land r0 127) :: r in
      sequence <~ parse_64 nonce ;;
      let token := nonce ++ ae_enc ae sequence addr text in
      if token_max <? blen token then None else Some (Some token)
    end.

(** picoquic/tls_api.c 2786-2829, picoquic_prepare_retry_token. *)
Definition prepare_retry_token (ae : aead) (addr : list N) (time : N) (odcid rcid : list N) (pn : N)
    (rnd : list N) (token_max : N) : option (option (list N)) :=
  match retry_text time odcid rcid pn with
  | None => Some None
  | Some text => encrypt_retry_token ae addr (blen odcid =? 0) rnd token_max text
  end.

(** picoquic/tls_api.c 2753-2784, picoquic_server_decrypt_retry_token: the flag
    [*is_new_token] and the text. *)
Definition decrypt_retry_token (ae : aead) (addr token : list N) : option (bool * option (list N)) :=
  if blen token <? 8 then Some (false, None)
  else
    b0 <~ mem_get 0 token ;;
    sequence <~ parse_64 token ;;
    let is_new := negb (N.land b0 128 =? 0) in
    let cipher := skipn 8 token in
    Some (is_new,
          match ae_dec ae sequence addr cipher with
          | None => None
          | Some text => if blen cipher <=? blen text then None else Some text
          end).

(** picoquic/quicctx.c 517-600, the tree of registered tokens: the (time, hash) pairs in
    increasing order.  The splay tree is modelled by the sorted list that it represents
    (see Splay_model and C16). *)
Definition registry := list (N * N).

(** picoquic/quicctx.c 517-540, picoquic_registered_token_compare: [a] before [b]. *)
Definition reg_lt (a b : N * N) : bool :=
  (fst a <? fst b) || ((fst a =? fst b) && (snd a <? snd b)).

(** picoquic/quicctx.c 517-540, the case where the comparison gives 0. *)
Definition reg_eq (a b : N * N) : bool := (fst a =? fst b) && (snd a =? snd b).

(** picosplay_insert in that order (picoquic/picosplay.c 102-138). *)
Fixpoint reg_insert (x : N * N) (l : registry) : registry :=
  match l with
  | [] => [x]
  | y :: r => if reg_lt x y then x :: l else y :: reg_insert x r
  end.

(** picoquic/quicctx.c 559-585, picoquic_registered_token_check_reuse: whether the return
    code is 0 (the counter of uses is only printed). *)
Definition check_reuse (reg : registry) (token : list N) (time : N) : option (bool * registry) :=
  if blen token <? 8 then Some (false, reg)
  else
    hash <~ parse_64 (skipn (length token - 8) token) ;;
    if existsb (reg_eq (time, hash)) reg then Some (false, reg) else Some (true, reg_insert (time, hash) reg).

(** picoquic/quicctx.c 587-600, picoquic_registered_token_clear. *)
Fixpoint reg_clear (limit : N) (reg : registry) : registry :=
  match reg with
  | [] => []
  | (t, h) :: r => if limit <=? t then reg else reg_clear limit r
  end.

(** What picoquic_verify_retry_token leaves: whether it returns 0, [*is_new_token] ([None]:
    not written), [*odcid] and the table. *)
Record verdict := mk_verdict { v_ok : bool; v_new : option bool; v_odcid : list N; v_reg : registry }.

(** picoquic/tls_api.c 2831-2890, picoquic_verify_retry_token.  [initial_pn] is a uint32_t;
    4294967295 (UINT32_MAX) bypasses the test of the packet number.  [None]: the second
    connection id of the text is missing, and the length of an uninitialised variable
    decides what is read (util.c 830-845).  A text that cannot be decoded otherwise leaves
    the return code 0. *)
Definition verify_retry_token (ae : aead) (reg : registry) (addr : list N) (now : N) (rcid : list N)
    (initial_pn : N) (token : list N) (reuse : bool) : option verdict :=
  if 128 <? blen token then Some (mk_verdict false None [] reg)
  else
    d <~ decrypt_retry_token ae addr token ;;
    let '(is_new, otext) := d in
    match otext with
    | None => Some (mk_verdict false (Some is_new) [] reg)
    | Some text =>
      let undecoded := mk_verdict true (Some is_new) [] reg in
      match frames_uint64_decode text with
      | None => Some undecoded
      | Some (token_time, r1) =>
        match cid_decode r1 with
        | None => Some undecoded
        | Some (odcid, r2) =>
          match r2 with
          | [] => None
          | _ =>
            match cid_decode r2 with
            | None => Some undecoded
            | Some (cid, r3) =>
              match frames_varint_decode r3 with
              | None => Some undecoded
              | Some (token_pn, _) =>
                if token_time <? now then Some (mk_verdict false (Some is_new) odcid reg)
                else if negb (initial_pn =? 4294967295) && (0 <? blen odcid) && (initial_pn <=? token_pn)
                then Some (mk_verdict false (Some is_new) odcid reg)
                else
                  let reg1 := reg_clear now reg in
                  c <~ (if reuse then check_reuse reg1 token token_time else Some (true, reg1)) ;;
                  let '(fresh, reg2) := c in
                  if negb fresh then Some (mk_verdict false (Some is_new) odcid reg2)
                  else if (0 <? blen odcid) && negb (if list_eq_dec N.eq_dec rcid cid then true else false)
                  then Some (mk_verdict false (Some is_new) odcid reg2)
                  else Some (mk_verdict true (Some is_new) odcid reg2)
              end
            end
          end
        end
      end
    end.
