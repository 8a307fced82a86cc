(** C26: load-balancer connection ids decode to the configured server id. *)
From Verif Require Import Base Mem Varint_spec Lb_model Lb_spec Lb_proofs Lb2_proofs Lb3_proofs Lb4_proofs.

(** After an accepted configuration (whose server id fits the 16-byte array),
    every connection id created from any random bytes has the configured length
    and a first byte with the rotation bits; the load balancer extracts from its
    bytes a server id of the configured length and value, and so does the
    library's own verification. *)
Theorem C26_decodes : forall k q c q' app random, cipher_ok k -> config_typed c -> c_sid_len c <= 16 ->
  lb_configure q c = Some (q', true) -> blen random = c_cid_len c -> bytes_ok random ->
  exists x i, q_callback q' = Lb_callback x /\ create_local_cnx_id k q' app random = Some i /\
    cid_len i = c_cid_len c /\ length (cid_id i) = 20%nat /\
    length (balancer k c (firstn (N.to_nat (cid_len i)) (cid_id i))) = N.to_nat (c_sid_len c) /\
    be_value (balancer k c (firstn (N.to_nat (cid_len i)) (cid_id i))) = c_sid64 c /\
    lb_verify k x i = Some (c_sid64 c) /\
    exists f, hd_error (cid_id i) = Some f /\ first_byte_ok c f.
Proof. exact create_decodes. Qed.
Print Assumptions C26_decodes.

(** Once it was accepted while connections exist, no later request for another length
    or another configuration changes this: connection ids created later have the
    configured length and the same server id. *)
Theorem C26_stays_decodable : forall k q c q' rs app random, cipher_ok k -> config_typed c -> c_sid_len c <= 16 ->
  q_has_cnx q = true -> lb_configure q c = Some (q', true) -> blen random = c_cid_len c -> bytes_ok random ->
  exists q2 i, ask_all q' rs = Some q2 /\ q_cid_len q2 = c_cid_len c /\ create_local_cnx_id k q2 app random = Some i /\
    cid_len i = c_cid_len c /\
    be_value (balancer k c (firstn (N.to_nat (cid_len i)) (cid_id i))) = c_sid64 c.
Proof. exact stays_decodable. Qed.
Print Assumptions C26_stays_decodable.

Example C26_stays_decodable_ex :
  let c := mk_cfg M_clear 0 false 2 0 7 258 (repeat 0 16) in
  match lb_configure (mk_quic true 7 No_callback) c with
  | Some (q', true) => ask_all q' [Set_length 8; Configure (mk_cfg M_clear 0 false 3 0 7 5 (repeat 0 16))] = Some q'
  | _ => False
  end.
Proof. vm_compute. reflexivity. Qed.

(** Encoding loses none of the free bytes: two equal connection ids come from
    random values that agree on the nonce and on the bytes for server use. *)
Theorem C26_distinct : forall k q c q' app r1 r2 i1 i2, cipher_ok k -> config_typed c ->
  c_sid_len c <= 16 -> lb_configure q c = Some (q', true) ->
  blen r1 = c_cid_len c -> bytes_ok r1 -> blen r2 = c_cid_len c -> bytes_ok r2 ->
  create_local_cnx_id k q' app r1 = Some i1 -> create_local_cnx_id k q' app r2 = Some i2 ->
  firstn (N.to_nat (c_cid_len c)) (cid_id i1) = firstn (N.to_nat (c_cid_len c)) (cid_id i2) ->
  forall i, free_byte c i -> nth_error r1 (N.to_nat i) = nth_error r2 (N.to_nat i).
Proof. exact create_distinct. Qed.
Print Assumptions C26_distinct.

(** Configuration writes inside its structures when the server id has at most 16
    bytes, which the two encrypted methods enforce. *)
Theorem C26_config_safe_partial : forall q c,
  (c_sid_len c <= 16 -> lb_configure q c <> None) /\
  (config_ok c = true -> c_method c <> M_clear -> c_sid_len c <= 16).
Proof. exact (fun q c => conj (configure_defined q c) (encrypted_fits c)). Qed.
Print Assumptions C26_config_safe_partial.

(** The clear method accepts longer server ids: the loop then writes outside
    [server_id[16]]. *)
Theorem C26_config_overflow_refuted :
  exists q c, config_typed c /\ config_ok c = true /\ lb_configure q c = None.
Proof. exact config_overflow. Qed.
Print Assumptions C26_config_overflow_refuted.

(** Nothing stops the application from changing the length of connection ids
    after the load balancer is configured; later ids do not decode. *)
Theorem C26_length_change_refuted : exists q c q' x i random, config_typed c /\ c_sid_len c <= 16 /\
  lb_configure q c = Some (q', true) /\ q_callback q' = Lb_callback x /\
  let q'' := set_default_cid_length q' 8 in
  q_callback q'' = Lb_callback x /\
  blen random = q_cid_len q'' /\
  forall k app, create_local_cnx_id k q'' app random = Some i /\
    lb_verify k x i <> Some (c_sid64 c).
Proof. exact length_change. Qed.
Print Assumptions C26_length_change_refuted.

(** Parsing a zero-terminated text never reads outside it, and what it accepts
    satisfies the hypotheses of the theorems above. *)
Theorem C26_parse_safe : forall txt len, len < blen txt -> bytes_ok txt ->
  exists r, lb_config_parse txt len = Some r /\
    forall c, r = Some c -> config_typed c /\ 1 <= c_sid_len c /\ c_sid_len c <= 8 /\
      c_sid64 c < 256 ^ c_sid_len c /\
      (c_cid_len c <> 0 -> 1 + c_sid_len c + c_nonce_len c <= c_cid_len c) /\
      c_method c <> M_other.
Proof. exact config_parse_ok. Qed.
Print Assumptions C26_parse_safe.

(** Without a byte after the text, the parser reads one byte too far. *)
Theorem C26_parse_unterminated_refuted : exists txt, lb_config_parse txt (blen txt) = None.
Proof. exact parse_unterminated. Qed.
Print Assumptions C26_parse_unterminated_refuted.

(** Every configuration that the text format can express is parsed back. *)
Theorem C26_parse_round_trip : forall c, config_textual c ->
  lb_config_parse (config_text c ++ [0]) (blen (config_text c)) = Some (Some c).
Proof. exact config_round_trip. Qed.
Print Assumptions C26_parse_round_trip.

(** A toy cipher, to run the model. *)
Definition xor_cipher : cipher :=
  mk_cipher (fun k b => xor2 b (map u8 k)) (fun k b => xor2 b (map u8 k)).

(** Its key. *)
Definition ex_key : list N := [1; 2; 3; 4; 5; 6; 7; 8; 9; 10; 11; 12; 13; 14; 15; 16].

Definition ex_config (m : method) (sl nl cl : N) : lb_config := mk_cfg m 2 true sl nl cl 258 ex_key.

Example C26_ex_cipher : cipher_ok xor_cipher.
Proof.
  intros key b Hk Hb Ho. cbn [ecb_enc ecb_dec xor_cipher].
  assert (Hm : length (map u8 key) = 16%nat) by (rewrite map_length; exact Hk).
  split; [ rewrite xor2_length; lia | ].
  split; [ apply xor2_ok; [ exact Ho | ] | apply xor2_involutive; lia ].
  clear. induction key; constructor; [ unfold is_byte, u8; apply N.mod_lt; lia | assumption ].
Qed.

Definition ex_run (m : method) (sl nl cl : N) : option (N * option N) :=
  match lb_configure (mk_quic false 8 No_callback) (ex_config m sl nl cl) with
  | Some (mk_quic _ _ (Lb_callback x) as q, true) =>
    match create_local_cnx_id xor_cipher q (fun c => c) (mem_fill 77 cl) with
    | Some i => Some (be_value (balancer xor_cipher (ex_config m sl nl cl)
                                  (firstn (N.to_nat cl) (cid_id i))),
                      lb_verify xor_cipher x i)
    | None => None
    end
  | _ => None
  end.

Example C26_ex : ex_run M_clear 2 0 8 = Some (258, Some 258) /\
  ex_run M_stream 3 8 13 = Some (258, Some 258) /\
  ex_run M_block 4 0 18 = Some (258, Some 258) /\
  free_byte (ex_config M_stream 3 8 13) 4 /\
  lb_config_parse (config_text (ex_config M_stream 3 8 13) ++ [0])
    (blen (config_text (ex_config M_stream 3 8 13))) = Some (Some (ex_config M_stream 3 8 13)).
Proof.
  split; [ vm_compute; reflexivity | ]. split; [ vm_compute; reflexivity | ].
  split; [ vm_compute; reflexivity | ]. split; [ | vm_compute; reflexivity ].
  unfold free_byte, ex_config; cbn [c_method c_cid_len c_nonce_len c_sid_len]. split; [ lia | left; lia ].
Qed.

Example C26_ex_textual : config_textual (ex_config M_stream 3 8 13).
Proof.
  unfold config_textual, config_typed, ex_config.
  cbn [c_method c_rotation c_sid_len c_nonce_len c_cid_len c_sid64 c_key].
  repeat split; try lia.
  unfold ex_key, bytes_ok. repeat (apply Forall_cons; [ unfold is_byte; lia | ]). apply Forall_nil.
Qed.
