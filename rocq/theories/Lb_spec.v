(** Specification of load-balancer connection ids, from
    draft-ietf-quic-load-balancers: what a load balancer that knows the
    configuration does with the bytes of a connection id, and the text format of
    configurations. *)
From Verif Require Import Base Lb_model Varint_spec.

(** The cipher is a permutation of 16-byte blocks for each key. *)
Definition cipher_ok (k : cipher) : Prop :=
  forall key b, length key = 16%nat -> length b = 16%nat -> bytes_ok b ->
    length (ecb_enc k key b) = 16%nat /\ bytes_ok (ecb_enc k key b) /\
    ecb_dec k key (ecb_enc k key b) = b.

(** The configuration is a value of the C structure. *)
Definition config_typed (c : lb_config) : Prop :=
  c_rotation c < 4 /\ c_sid_len c < 256 /\ c_nonce_len c < 256 /\ c_cid_len c < 256 /\
  c_sid64 c < two64 /\ length (c_key c) = 16%nat /\ bytes_ok (c_key c).

Definition slice (off n : N) (l : list N) : list N :=
  firstn (N.to_nat n) (skipn (N.to_nat off) l).

Definition zero_pad (l : list N) : list N := l ++ repeat 0 (16 - length l).

Definition xor2 (a b : list N) : list N :=
  map (fun p => N.lxor (fst p) (snd p)) (combine a b).

(** One round of the stream cipher: [a] masked by the encryption of [b]. *)
Definition masked (k : cipher) (key a b : list N) : list N :=
  xor2 a (ecb_enc k key (zero_pad b)).

(** The server id bytes that the load balancer extracts from the bytes of a
    connection id. *)
Definition balancer (k : cipher) (c : lb_config) (bytes : list N) : list N :=
  match c_method c with
  | M_clear => slice 1 (c_sid_len c) bytes
  | M_block => slice 0 (c_sid_len c) (ecb_dec k (c_key c) (slice 1 16 bytes))
  | M_stream =>
    let nonce2 := slice 1 (c_nonce_len c) bytes in
    let sid2 := slice (1 + c_nonce_len c) (c_sid_len c) bytes in
    let sid1 := masked k (c_key c) sid2 nonce2 in
    let nonce := masked k (c_key c) nonce2 sid1 in
    masked k (c_key c) sid1 nonce
  | M_other => []
  end.

(** The first byte: two rotation bits and, on demand, the length less one. *)
Definition first_byte_ok (c : lb_config) (b : N) : Prop :=
  b / 64 = c_rotation c /\ (c_fbel c = true -> b mod 64 = c_cid_len c - 1).

(** The bytes of the random value that the server id leaves free, apart from the
    first one: the nonce and the bytes for server use. *)
Definition free_byte (c : lb_config) (i : N) : Prop :=
  i < c_cid_len c /\
  match c_method c with
  | M_stream => (1 <= i /\ i < 1 + c_nonce_len c) \/ 1 + c_nonce_len c + c_sid_len c <= i
  | _ => 1 + c_sid_len c <= i
  end.

(** *** Text form of a configuration *)

Fixpoint dec_digits (fuel : nat) (n : N) : list N :=
  match fuel with
  | O => []
  | S f => if n <? 10 then [48 + n] else dec_digits f (n / 10) ++ [48 + n mod 10]
  end.

Definition hex_digit (n : N) : N := if n <? 10 then 48 + n else 55 + n.

Definition hex_text (l : list N) : list N :=
  flat_map (fun b => [hex_digit (b / 16); hex_digit (b mod 16)]) l.

(** The [n] bytes of a number, most significant first. *)
Fixpoint be_bytes (n : nat) (v : N) : list N :=
  match n with
  | O => []
  | S n' => be_bytes n' (v / 256) ++ [v mod 256]
  end.

Definition config_text (c : lb_config) : list N :=
  (48 + c_rotation c) :: (if c_fbel c then 89 else 78) ::
  dec_digits 3 (c_cid_len c) ++
  (match c_method c with
   | M_clear => [67]
   | M_stream => 83 :: dec_digits 3 (c_nonce_len c)
   | _ => [66]
   end) ++
  45 :: hex_text (be_bytes (N.to_nat (c_sid_len c)) (c_sid64 c)) ++
  (match c_method c with
   | M_clear => []
   | _ => 45 :: hex_text (c_key c)
   end).

(** The configurations that have a text: those the parser can express. *)
Definition config_textual (c : lb_config) : Prop :=
  config_typed c /\
  1 <= c_sid_len c <= 8 /\ c_sid64 c < 256 ^ c_sid_len c /\
  (c_cid_len c = 0 \/ 1 + c_sid_len c + c_nonce_len c <= c_cid_len c) /\
  match c_method c with
  | M_clear => c_nonce_len c = 0 /\ c_key c = repeat 0 16
  | M_stream => True
  | M_block => c_nonce_len c = 0 /\ (c_cid_len c = 0 \/ 17 <= c_cid_len c)
  | M_other => False
  end.

(** What the application may ask of the context later: another length of the
    connection ids, or another configuration.  [None]: undefined behavior. *)
Inductive request := Set_length (len : N) | Configure (c : lb_config).

Definition ask (q : quic) (r : request) : option quic :=
  match r with
  | Set_length len => Some (set_default_cid_length q len)
  | Configure c => match lb_configure q c with Some (q', _) => Some q' | None => None end
  end.

Fixpoint ask_all (q : quic) (rs : list request) : option quic :=
  match rs with
  | [] => Some q
  | r :: rs' => match ask q r with Some q' => ask_all q' rs' | None => None end
  end.
