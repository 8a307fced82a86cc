(** Model of the load-balancer compatible connection ids, picoquic/picoquic_lb.c,
    and of the creation of local connection ids, picoquic/quicctx.c 1505-1525
    (definitions only).

    Arrays are lists of bytes; an access outside an array is [None], "undefined".
    The AES-128 ECB code of the TLS library (picoquic/tls_api.c 1230-1249) is not
    modelled: a [cipher] gives, for each key, what encryption and decryption do
    to a 16-byte block.  Allocation is assumed to succeed. *)
From Verif Require Import Base Mem.

(** The two directions of picoquic_aes128_ecb_create/encrypt, picoquic/tls_api.c
    1230-1249: key and 16-byte block to 16-byte block. *)
Record cipher := mk_cipher {
  ecb_enc : list N -> list N -> list N;
  ecb_dec : list N -> list N -> list N }.

(** picoquic/picoquic_lb.h 41-45: the enumeration of methods.  Any other value of
    the enumeration is [M_other]. *)
Inductive method := M_clear | M_stream | M_block | M_other.

(** picoquic/picoquic_lb.h 47-56, picoquic_load_balancer_config_t. *)
Record lb_config := mk_cfg {
  c_method : method;
  c_rotation : N;         (* 2 bits *)
  c_fbel : bool;          (* first_byte_encodes_length *)
  c_sid_len : N;          (* uint8_t *)
  c_nonce_len : N;        (* uint8_t *)
  c_cid_len : N;          (* uint8_t *)
  c_sid64 : N;            (* uint64_t *)
  c_key : list N }.       (* 16 bytes *)

(** picoquic/picoquic_lb.h 63-74, picoquic_load_balancer_cid_context_t.  An
    encryption context is represented by its key. *)
Record lb_ctx := mk_ctx {
  x_method : method;
  x_rotation : N;
  x_fbel : bool;
  x_sid_len : N;
  x_nonce_len : N;
  x_cid_len : N;
  x_sid64 : N;
  x_sid : list N;         (* server_id[16] *)
  x_enc : option (list N);
  x_dec : option (list N) }.

(** picoquic/picoquic.h 239-245, picoquic_connection_id_t: 20 bytes and a length. *)
Record cid := mk_cid { cid_id : list N; cid_len : N }.

(** The parts of picoquic_quic_t used here (picoquic/picoquic_internal.h 600-720):
    whether connections exist, the local id length, and the id callback, either
    none, another one (with or without a context), or the load-balancer one. *)
Inductive callback := No_callback | Other_callback (has_ctx : bool) | Lb_callback (x : lb_ctx).
Record quic := mk_quic { q_has_cnx : bool; q_cid_len : N; q_callback : callback }.

(** picoquic/picoquic_lb.c 42-52, picoquic_lb_compat_cid_generate_first_byte. *)
Definition generate_first_byte (local_cnxid_length : N) (x : lb_ctx) (id : list N)
  : option (list N) :=
  if x_fbel x then
    mem_write 0 [u8 (N.lor (N.shiftl (x_rotation x) 6) (local_cnxid_length - 1))] id
  else
    b <~ mem_get 0 id;;
    mem_write 0 [u8 (N.lor (N.land b 63) (N.shiftl (x_rotation x) 6))] id.

(** picoquic/picoquic_lb.c 54-59, picoquic_lb_compat_cid_generate_clear. *)
Definition generate_clear (local_cnxid_length : N) (x : lb_ctx) (id : list N)
  : option (list N) :=
  id <~ generate_first_byte local_cnxid_length x id;;
  s <~ mem_read 0 (x_sid_len x) (x_sid x);;
  mem_write 1 s id.

(** The loop [target[i] ^= mask[i]], picoquic/picoquic_lb.c 70-72. *)
Fixpoint xor_bytes (t m : list N) : list N :=
  match t, m with
  | a :: t', b :: m' => N.lxor a b :: xor_bytes t' m'
  | _, _ => t
  end.

(** picoquic/picoquic_lb.c 61-73, picoquic_lb_compat_cid_one_pass_stream, on the
    nonce at [n_off] and the target at [t_off] of the same id.  Copying more than
    16 bytes into [mask] or reading beyond it is undefined. *)
Definition one_pass_stream (k : cipher) (key : list N)
  (n_off n_len t_off t_len : N) (id : list N) : option (list N) :=
  n <~ mem_read n_off n_len id;;
  mask <~ mem_write 0 n (mem_fill 0 16);;
  let mask := ecb_enc k key mask in
  mk <~ mem_read 0 t_len mask;;
  t <~ mem_read t_off t_len id;;
  mem_write t_off (xor_bytes t mk) id.

(** picoquic/picoquic_lb.c 84-103, picoquic_lb_compat_cid_generate_stream_cipher. *)
Definition generate_stream (k : cipher) (local_cnxid_length : N) (x : lb_ctx) (id : list N)
  : option (list N) :=
  let id_offset := 1 + x_nonce_len x in
  id <~ generate_first_byte local_cnxid_length x id;;
  s <~ mem_read 0 (x_sid_len x) (x_sid x);;
  id <~ mem_write id_offset s id;;
  key <~ x_enc x;;
  id <~ one_pass_stream k key 1 (x_nonce_len x) id_offset (x_sid_len x) id;;
  id <~ one_pass_stream k key id_offset (x_sid_len x) 1 (x_nonce_len x) id;;
  one_pass_stream k key 1 (x_nonce_len x) id_offset (x_sid_len x) id.

(** picoquic/picoquic_lb.c 113-122, picoquic_lb_compat_cid_generate_block_cipher. *)
Definition generate_block (k : cipher) (local_cnxid_length : N) (x : lb_ctx) (id : list N)
  : option (list N) :=
  id <~ generate_first_byte local_cnxid_length x id;;
  s <~ mem_read 0 (x_sid_len x) (x_sid x);;
  id <~ mem_write 1 s id;;
  key <~ x_enc x;;
  b <~ mem_read 1 16 id;;
  mem_write 1 (ecb_enc k key b) id.

(** picoquic/picoquic_lb.c 127-148, picoquic_lb_compat_cid_generate. *)
Definition lb_generate (k : cipher) (local_cnxid_length : N) (x : lb_ctx) (c : cid)
  : option cid :=
  id <~ match x_method x with
        | M_clear => generate_clear local_cnxid_length x (cid_id c)
        | M_stream => generate_stream k local_cnxid_length x (cid_id c)
        | M_block => generate_block k local_cnxid_length x (cid_id c)
        | M_other => Some (cid_id c)
        end;;
  Some (mk_cid id (cid_len c)).

(** The loop [s_id64 <<= 8; s_id64 += b], picoquic/picoquic_lb.c 155-158, 180-183
    and 198-201. *)
Definition sid_value (l : list N) : N :=
  fold_left (fun v b => u64 (u64 (N.shiftl v 8) + b)) l 0.

(** picoquic/picoquic_lb.c 150-161, picoquic_lb_compat_cid_verify_clear. *)
Definition verify_clear (x : lb_ctx) (c : cid) : option N :=
  s <~ mem_read 1 (x_sid_len x) (cid_id c);;
  Some (sid_value s).

(** picoquic/picoquic_lb.c 163-186, picoquic_lb_compat_cid_verify_stream_cipher. *)
Definition verify_stream (k : cipher) (x : lb_ctx) (c : cid) : option N :=
  let id_offset := 1 + x_nonce_len x in
  key <~ x_enc x;;
  id <~ one_pass_stream k key 1 (x_nonce_len x) id_offset (x_sid_len x) (cid_id c);;
  id <~ one_pass_stream k key id_offset (x_sid_len x) 1 (x_nonce_len x) id;;
  id <~ one_pass_stream k key 1 (x_nonce_len x) id_offset (x_sid_len x) id;;
  s <~ mem_read id_offset (x_sid_len x) id;;
  Some (sid_value s).

(** picoquic/picoquic_lb.c 188-205, picoquic_lb_compat_cid_verify_block_cipher. *)
Definition verify_block (k : cipher) (x : lb_ctx) (c : cid) : option N :=
  key <~ x_dec x;;
  b <~ mem_read 1 16 (cid_id c);;
  s <~ mem_read 0 (x_sid_len x) (ecb_dec k key b);;
  Some (sid_value s).

(** picoquic/picoquic_lb.c 207-234, picoquic_lb_compat_cid_verify. *)
Definition lb_verify (k : cipher) (x : lb_ctx) (c : cid) : option N :=
  if negb (cid_len c =? x_cid_len x) then Some max64
  else
    match x_method x with
    | M_clear => verify_clear x c
    | M_stream => verify_stream k x c
    | M_block => verify_block k x c
    | M_other => Some max64
    end.

(** The loop of picoquic/picoquic_lb.c 451-455 filling [server_id] from its end;
    [todo] is [server_id_length - i].  Returns the array and what remains of
    [s_id64]. *)
Fixpoint fill_sid (todo : nat) (s64 : N) (sid : list N) : option (list N * N) :=
  match todo with
  | O => Some (sid, s64)
  | S j =>
    sid <~ mem_write (N.of_nat j) [u8 s64] sid;;
    fill_sid j (N.shiftr s64 8) sid
  end.

(** picoquic/picoquic_lb.c 401-432: the tests on the parameters. *)
Definition config_ok (c : lb_config) : bool :=
  if 20 <? c_cid_len c then false
  else
    match c_method c with
    | M_clear => negb (c_cid_len c <? c_sid_len c + 1)
    | M_stream =>
      negb ((c_nonce_len c <? 8) || (16 <? c_nonce_len c)
            || (c_cid_len c <? c_nonce_len c + c_sid_len c + 1))
    | M_block => negb ((c_cid_len c <? 17) || (15 <? c_sid_len c))
    | M_other => false
    end.

(** picoquic/picoquic_lb.c 433-489: allocation and filling of the context.
    [None]: undefined; [Some None]: refused.  In C an overflow of [server_id]
    lands in the pointer that follows it in the structure. *)
Definition make_ctx (c : lb_config) : option (option lb_ctx) :=
  r <~ fill_sid (N.to_nat (c_sid_len c)) (c_sid64 c) (mem_fill 0 16);;
  let '(sid, remain) := r in
  if negb (remain =? 0) then Some None
  else
    let enc := match c_method c with
               | M_stream | M_block => Some (c_key c)
               | _ => None end in
    let dec := match c_method c with M_block => Some (c_key c) | _ => None end in
    Some (Some (mk_ctx (c_method c) (c_rotation c) (c_fbel c) (c_sid_len c)
                  (c_nonce_len c) (c_cid_len c) (c_sid64 c) sid enc dec)).

(** picoquic/picoquic_lb.c 389-495, picoquic_lb_compat_cid_config.  The boolean is
    true when the call succeeds. *)
Definition lb_configure (q : quic) (c : lb_config) : option (quic * bool) :=
  if q_has_cnx q && negb (q_cid_len q =? c_cid_len c) then Some (q, false)
  else
    let other := match q_callback q with
                 | No_callback => false
                 | Other_callback b => b
                 | Lb_callback _ => true
                 end in
    if other then Some (q, false)
    else if negb (config_ok c) then Some (q, false)
    else
      r <~ make_ctx c;;
      match r with
      | None => Some (q, false)
      | Some x => Some (mk_quic (q_has_cnx q) (x_cid_len x) (Lb_callback x), true)
      end.

(** picoquic/picoquic_lb.c 497-514, picoquic_lb_compat_cid_config_free. *)
Definition lb_config_free (q : quic) : quic :=
  match q_callback q with
  | Lb_callback _ => mk_quic (q_has_cnx q) (q_cid_len q) No_callback
  | _ => q
  end.

(** picoquic/quicctx.c 4420-4437, picoquic_set_default_connection_id_length. *)
Definition set_default_cid_length (q : quic) (len : N) : quic :=
  if len =? q_cid_len q then q
  else if 20 <? len then q
  else if q_has_cnx q then q
  else mk_quic (q_has_cnx q) len (q_callback q).

(** picoquic/quicctx.c 1505-1514, picoquic_create_random_cnx_id: [random] is what
    picoquic_crypto_random writes. *)
Definition create_random_cnx_id (random : list N) (len : N) : cid :=
  mk_cid (firstn (N.to_nat len) random ++ mem_fill 0 (20 - len)) len.

(** picoquic/quicctx.c 1516-1525, picoquic_create_local_cnx_id.  Another callback
    is an arbitrary function of the application. *)
Definition create_local_cnx_id (k : cipher) (q : quic) (app : cid -> cid) (random : list N)
  : option cid :=
  let c := create_random_cnx_id random (q_cid_len q) in
  match q_callback q with
  | No_callback => Some c
  | Other_callback _ => Some (app c)
  | Lb_callback x => lb_generate k (q_cid_len q) x c
  end.

(** ** The textual configuration *)

(** picoquic/util.c 270-284, picoquic_parse_hexa_digit: -1 is [None]. *)
Definition hexa_digit (x : N) : option N :=
  if (48 <=? x) && (x <=? 57) then Some (x - 48)
  else if (65 <=? x) && (x <=? 70) then Some (x - 65 + 10)
  else if (97 <=? x) && (x <=? 102) then Some (x - 97 + 10)
  else None.

(** The loop of picoquic/util.c 292-303; [None] is the return value 0. *)
Fixpoint hexa_loop (l : list N) : option (list N) :=
  match l with
  | [] => Some []
  | x :: y :: l' =>
    match hexa_digit x, hexa_digit y with
    | Some a, Some b =>
      match hexa_loop l' with
      | Some r => Some (u8 (N.lor (N.shiftl a 4) b) :: r)
      | None => None
      end
    | _, _ => None
    end
  | _ => None
  end.

(** picoquic/util.c 286-307, picoquic_parse_hexa: the bytes parsed, [[]] standing
    for the return value 0. *)
Definition parse_hexa (l : list N) (output_max : N) : list N :=
  if (0 <? blen l) && N.even (blen l) && (blen l <=? 2 * output_max) then
    match hexa_loop l with Some r => r | None => [] end
  else [].

Definition is_digit (x : N) : bool := (48 <=? x) && (x <=? 57).

(** The loops of picoquic/picoquic_lb.c 268-280 and 297-308: decimal digits into a
    byte.  Returns the position reached, the field, and whether no overflow was
    met.  [txt] holds the text and possibly bytes after it; [fuel] is at least the
    number of characters left. *)
Fixpoint parse_dec (fuel : nat) (txt : list N) (txt_length parsed acc field : N)
  : option (N * N * bool) :=
  match fuel with
  | O => Some (parsed, field, true)
  | S fuel' =>
    if parsed <? txt_length then
      x <~ mem_get parsed txt;;
      if is_digit x then
        let acc := acc * 10 + (x - 48) in
        if acc <? 256 then parse_dec fuel' txt txt_length (parsed + 1) acc acc
        else Some (parsed + 1, field, false)
      else Some (parsed, field, true)
    else Some (parsed, field, true)
  end.

(** The loop of picoquic/picoquic_lb.c 332-334: length of the text before the next
    hyphen. *)
Fixpoint hex_length (l : list N) : nat :=
  match l with
  | [] => O
  | x :: l' => if x =? 45 then O else S (hex_length l')
  end.

(** picoquic/picoquic_lb.c 282-320, the method letter and nonce length, from the
    position [parsed]: position, method, nonce length, ok. *)
Definition parse_method (txt : list N) (txt_length parsed : N) (ok : bool)
  : option (N * method * N * bool) :=
  if txt_length <=? parsed then Some (parsed, M_clear, 0, false)
  else if negb ok then Some (parsed, M_clear, 0, false)
  else
    c <~ mem_get parsed txt;;
    let parsed := parsed + 1 in
    if (c =? 99) || (c =? 67) then Some (parsed, M_clear, 0, true)
    else if (c =? 115) || (c =? 83) then
      r <~ parse_dec (N.to_nat txt_length) txt txt_length parsed 0 0;;
      let '(parsed, nonce, ok) := r in
      Some (parsed, M_stream, nonce, ok)
    else if (c =? 98) || (c =? 66) then Some (parsed, M_block, 0, true)
    else Some (parsed, M_clear, 0, false).

(** picoquic/picoquic_lb.c 345-369, the key: position, key, ok. *)
Definition parse_key (txt : list N) (txt_length parsed : N)
  : option (N * list N * bool) :=
  h <~ mem_get parsed txt;;
  if negb (h =? 45) then Some (parsed, mem_fill 0 16, false)
  else
    let parsed := parsed + 1 in
    if txt_length <? parsed + 32 then Some (parsed, mem_fill 0 16, false)
    else
      t <~ mem_read parsed (txt_length - parsed) txt;;
      let key := parse_hexa t 16 in
      Some (parsed + 2 * blen key, key, blen key =? 16).

(** picoquic/picoquic_lb.c 370-387: the final tests. *)
Definition parse_final (txt_length parsed : N) (c : lb_config) : option lb_config :=
  if negb (parsed =? txt_length) then None
  else if negb (c_cid_len c =? 0) &&
          ((c_cid_len c <? 1 + c_sid_len c + c_nonce_len c)
           || (match c_method c with M_block => true | _ => false end
               && (c_cid_len c <? 17))) then None
  else Some c.

(** picoquic/picoquic_lb.c 236-387, picoquic_lb_compat_cid_config_parse.  [txt] is
    the memory from the text pointer on, [txt_length] the announced length.
    [None]: a read outside [txt]; [Some None]: an error is returned. *)
Definition lb_config_parse (txt : list N) (txt_length : N) : option (option lb_config) :=
  if txt_length <? 4 then Some None
  else
    c0 <~ mem_get 0 txt;;
    let ok0 := (48 <=? c0) && (c0 <=? 51) in
    c1 <~ mem_get 1 txt;;
    let yes := (c1 =? 89) || (c1 =? 121) in
    let ok1 := yes || (c1 =? 78) || (c1 =? 110) in
    r <~ parse_dec (N.to_nat txt_length) txt txt_length 2 0 0;;
    let '(parsed, cidl, ok2) := r in
    r <~ parse_method txt txt_length parsed (ok0 && ok1 && ok2);;
    let '(parsed, meth, nonce, ok3) := r in
    h <~ mem_get parsed txt;;
    if negb (h =? 45) then Some None
    else
      let parsed := parsed + 1 in
      if txt_length <=? parsed then Some None
      else if negb ok3 then Some None
      else
        t <~ mem_read parsed (txt_length - parsed) txt;;
        let sid := parse_hexa (firstn (hex_length t) t) 8 in
        if blen sid =? 0 then Some None
        else
          let parsed := parsed + 2 * blen sid in
          r <~ (match meth with
                | M_stream | M_block => parse_key txt txt_length parsed
                | _ => Some (parsed, mem_fill 0 16, true)
                end);;
          let '(parsed, key, ok4) := r in
          if negb ok4 then Some None
          else
            Some (parse_final txt_length parsed
              (mk_cfg meth (c0 - 48) yes (blen sid) nonce cidl (sid_value sid) key)).
