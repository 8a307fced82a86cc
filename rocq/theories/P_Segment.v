(** C22, C23, C44: what a server does with the datagrams of unknown connections: stateless
    resets, creation of connections, replies. *)
From Verif Require Import Base Varint_model Varint_spec Mem PacketNumber_model Header_model Header_spec Protect_model Protect_spec
  Protect_proofs Protect3_proofs Rtoken_model Rtoken_spec Rtoken_proofs Rtoken2_proofs Ports_model
  Segment_model Segment_spec Segment_proofs Segment2_proofs Segment3_proofs Segment4_proofs Segment5_proofs Segment6_proofs.

(** C22: every stateless reset answers a short header packet with an unknown connection id,
    is strictly shorter than that packet, has at least 39 bytes, ends with the 16 bytes of
    the secret of the connection id, is inside of the packet buffer, and is the last thing
    done with the datagram. *)
Theorem C22_shape : forall cf known st rns pe now bytes st' a1 b a2,
  (forall d, blen (sf_secret cf d) = 16) ->
  incoming_packet cf known st rns pe now bytes = Some (st', a1 ++ AReset b :: a2) ->
  a2 = [] /\ addr_refused cf pe = false /\ st_next_reset st <= now /\ st_next_reset st' = u64 (now + sf_interval cf) /\
  39 <= blen b < blen bytes /\ blen b <= 1536 /\
  exists pre b0 dcid tail first random, bytes = pre ++ b0 :: dcid ++ tail /\ N.land b0 128 <> 128 /\
    0 < blen dcid /\ blen dcid = lk_cid_len (st_lk st) /\ lk_by_id (st_lk st) dcid = None /\
    blen b < blen (b0 :: dcid ++ tail) /\
    b = first :: random ++ sf_secret cf dcid /\ 64 <= first < 128.
Proof. exact reset_inv. Qed.
Print Assumptions C22_shape.

Definition ex_cf (busy force : bool) : sconf :=
  mk_sconf false busy 100 10 force true 100000 false toy_aead (fun _ _ => (toy, toy)) (fun _ _ => repeat 3 16)
    (fun _ => repeat 7 16) (fun _ => false).
Definition ex_st : sstate := mk_sstate (mk_lookup 8 None (fun _ => None) (fun _ => None)) 0 0 [] 0.
Definition ex_rns (n : nat) : nat -> rnd := fun _ => mk_rnd (fun _ => 17) 5 [0; 4042322160] (repeat 21 n) [1;2;3;4;5;6;7;8].
Definition ex_pe : peer := mk_peer (Inet4 16 1) [251; 0; 0; 1].
Lemma ex_env : forall busy force n lk, lk_cid_len lk = N.of_nat n -> (n <= 20)%nat -> env_ok (ex_cf busy force) lk (ex_rns n).
Proof.
  intros busy force n lk Hl Hn. split; cbn [ex_cf ex_rns sf_keys fst snd sf_ticket sf_retry_tag sf_secret rn_cid rn_nonce rn_vns]; intros;
    try exact toy_ok; try exact toy_aead_ok; try reflexivity; try lia.
  - unfold blen. rewrite repeat_length, Hl. reflexivity.
  - split; [reflexivity|repeat constructor].
  - destruct (N.eq_dec vn 168430090) as [-> |H].
    + exists 4042322160. split; [right; left; reflexivity|discriminate].
    + exists 0. split; [left; reflexivity|]. change (N.lor (N.land 0 4042322160) 168430090) with 168430090. congruence.
Qed.
Example C22_shape_ex : (forall d, blen (sf_secret (ex_cf false false) d) = 16) /\
  match incoming_packet (ex_cf false false) (fun _ => false) ex_st (ex_rns 8) ex_pe 5000 (64 :: repeat 9 60) with
  | Some (st', [AReset b]) => blen b = 55 /\ skipn 39 b = repeat 7 16 /\ st_next_reset st' = 105000
  | _ => False
  end /\
  incoming_packet (ex_cf false false) (fun _ => false) ex_st (ex_rns 8) ex_pe 5000 (64 :: repeat 9 38) = Some (ex_st, []).
Proof. split; [reflexivity|]. vm_compute. repeat split. Qed.

(** In every history of datagrams, from any time of next reset, with any change of the
    connections in between, the resets are at least the configured interval apart. *)
Theorem C22_interval : forall cf, (forall d, blen (sf_secret cf d) = 16) ->
  forall l next log, history cf next l = Some log ->
  (forall a, In a l -> ar_now a + sf_interval cf < two64) ->
  spaced (sf_interval cf) (reset_times log) /\ (forall t r, reset_times log = t :: r -> next <= t).
Proof. exact history_resets. Qed.
Print Assumptions C22_interval.

Definition ex_arrival (t : N) : arrival :=
  mk_arrival (fun _ => false) (ex_rns 8) ex_pe t (64 :: repeat 9 60) (st_lk ex_st) 0 0 [].
Example C22_interval_ex :
  match history (ex_cf false false) 0 (map ex_arrival [1000; 2000; 90000; 101000; 200999; 201000; 150]) with
  | Some log => reset_times log = [1000; 101000; 201000]
  | None => False
  end.
Proof. vm_compute. reflexivity. Qed.

(** Finding: the reset is one byte shorter than the datagram at most, and the datagram may
    be longer than the buffer of 1536 bytes in which the reset is written. *)
Theorem C22_oversize_refuted : exists cf known st rns pe now bytes ph,
  env_ok cf (st_lk st) rns /\ bytes_ok bytes /\ blen bytes = 1538 /\
  parse_header (st_lk st) bytes None true = Some (POk ph None) /\ ph_type ph = Pt1rtt /\
  process_unexpected cf st (rns 0%nat) (blen bytes) now ph = None /\
  incoming_packet cf known st rns pe now bytes = None.
Proof.
  exists (mk_sconf false false 100 10 false true 100000 false toy_aead (fun _ _ => (toy, toy)) (fun _ _ => repeat 3 16)
    (fun _ => repeat 7 16) (fun _ => false)), (fun _ => false), ex_st,
    (fun _ => mk_rnd (fun _ => 17) 0 [0; 4042322160] (repeat 21 8) [1;2;3;4;5;6;7;8]), ex_pe, 5000, (64 :: repeat 9 1537).
  eexists. split; [|split; [|split; [|split; [|split; [|split]]]]].
  - pose proof (ex_env false false 8 (st_lk ex_st) eq_refl ltac:(lia)) as [? ? ? ? ? A B C D]. split; auto.
  - constructor; [reflexivity|]. apply Forall_forall. intros x Hx. apply repeat_spec in Hx. subst x. reflexivity.
  - reflexivity.
  - vm_compute. reflexivity.
  - reflexivity.
  - vm_compute. reflexivity.
  - vm_compute. reflexivity.
Qed.
Print Assumptions C22_oversize_refuted.

(** C23: a connection is created only if the datagram has at least 1200 bytes, the server
    accepts connections, the destination id has 8 to 20 bytes and is unknown, the packet is
    authentic under the Initial keys of its version and id, and the address is validated
    by a token if it must be. *)
Theorem C23_create : forall cf known st rns pe now bytes st' a1 dcid v od a2,
  bytes_ok bytes -> blen bytes <= 1536 ->
  incoming_packet cf known st rns pe now bytes = Some (st', a1 ++ ACreate dcid v od :: a2) ->
  1200 <= blen bytes /\ 8 <= blen dcid <= 20 /\ sf_client_only cf = false /\ sf_busy cf = false /\
  st_conns st + created a1 < sf_max_conns cf /\
  find_long (st_lk st) PtInitial dcid = None /\ ~ In dcid (created_ids a1) /\
  exists pre seg vi vn scid token head plen pn, bytes = pre ++ seg /\ initial_at seg vi vn dcid scid token head plen /\
    authentic (fst (sf_keys cf vi dcid)) seg head plen pn /\
    validation cf pe now (st_half st + created a1) dcid token pn v od.
Proof. exact create_inv. Qed.
Print Assumptions C23_create.

(** Connections are counted, and never more than allowed. *)
Theorem C23_count : forall cf known st rns pe now bytes st' acts,
  incoming_packet cf known st rns pe now bytes = Some (st', acts) ->
  st_conns st' = st_conns st + created acts /\
  (st_conns st <= sf_max_conns cf -> st_conns st' <= sf_max_conns cf).
Proof. exact create_count. Qed.
Print Assumptions C23_count.

(** Conversely, an Initial packet sealed by a client with the Initial keys, in a datagram
    of 1200 to 1536 bytes, creates a connection when no validation is required. *)
Theorem C23_accept : forall c cf known st rns pe now seq payload hl loss room pkt vn v2,
  let dcid := dest_of c PtInitial in let cy := fst (sf_keys cf (sc_version_index c) dcid) in
  sender_ok c vn v2 -> ciphers_ok cy -> hl = predict_long_header_length c PtInitial ->
  protect_packet c cy PtInitial seq payload hl loss room = Some pkt -> 1200 <= blen pkt <= 1536 -> 8 <= blen dcid ->
  find_long (st_lk st) PtInitial dcid = None -> in_window 4 seq 0 -> server_ready cf st ->
  sc_token c = [] -> wants_token cf st pe = false ->
  exists st', incoming_packet cf known st rns pe now pkt = Some (st', [ACreate dcid false []]) /\
    st_conns st' = st_conns st + 1 /\ find_long (st_lk st') PtInitial dcid <> None.
Proof. exact client_plain. Qed.
Print Assumptions C23_accept.

Definition ex_client (token : list N) (dcid : list N) : sctx := mk_sctx true false false 0 0 dcid [] [9;9;9;9] [] token 0 None.
Definition ex_initial (token dcid : list N) (seq : N) : list N :=
  match protect_packet (ex_client token dcid) toy PtInitial seq (repeat 0 1180) (predict_long_header_length (ex_client token dcid) PtInitial) None 1536 with
  | Some p => p | None => [] end.
Definition ex_dcid : list N := [1;2;3;4;5;6;7;8].
Example C23_accept_ex : sender_ok (ex_client [] ex_dcid) 1 false /\ in_window 4 0 0 /\ server_ready (ex_cf false false) ex_st /\
  wants_token (ex_cf false false) ex_st ex_pe = false /\ blen (ex_initial [] ex_dcid 0) = 1222 /\
  match incoming_packet (ex_cf false false) (fun _ => true) ex_st (ex_rns 8) ex_pe 5000 (ex_initial [] ex_dcid 0) with
  | Some (st', acts) => acts = [ACreate ex_dcid false []] /\ st_conns st' = 1 /\ st_half st' = 1 /\
      match incoming_packet (ex_cf false false) (fun _ => true) st' (ex_rns 8) ex_pe 5000 (ex_initial [] ex_dcid 0) with
      | Some (st2, acts2) => acts2 = [] /\ st_conns st2 = 1
      | None => False
      end
  | None => False
  end /\
  match incoming_packet (ex_cf false false) (fun _ => true) ex_st (ex_rns 8) ex_pe 5000
          (firstn 1220 (ex_initial [] ex_dcid 0) ++ [1; 7]) with
  | Some (_, acts) => acts = []
  | None => False
  end.
Proof.
  split; [split; try reflexivity; try (vm_compute; discriminate); left; reflexivity|].
  split; [unfold in_window, two62, two64; vm_compute; repeat split; discriminate|].
  split; [vm_compute; repeat split|]. split; [reflexivity|]. vm_compute. repeat split.
Qed.

(** With a token made by the server for this address, not expired and not used, a
    connection is created even when validation is required, and its address is validated. *)
Theorem C23_token : forall c cf known st rns pe now seq payload hl loss room pkt vn v2 time odcid rcid pn,
  let dcid := dest_of c PtInitial in let cy := fst (sf_keys cf (sc_version_index c) dcid) in
  sender_ok c vn v2 -> ciphers_ok cy -> hl = predict_long_header_length c PtInitial ->
  protect_packet c cy PtInitial seq payload hl loss room = Some pkt -> 1200 <= blen pkt <= 1536 -> 8 <= blen dcid ->
  find_long (st_lk st) PtInitial dcid = None -> in_window 4 seq 0 -> server_ready cf st ->
  aead_ok (sf_ticket cf) -> bytes_ok (sc_token c) ->
  issued (sf_ticket cf) (pe_ip pe) time odcid rcid pn (sc_token c) ->
  now <= expiry time odcid -> ~ In (expiry time odcid, last8 (sc_token c)) (st_reg st) ->
  (odcid <> [] -> rcid = dcid /\ pn < seq) ->
  exists st', incoming_packet cf known st rns pe now pkt = Some (st', [ACreate dcid true odcid]) /\
    st_conns st' = st_conns st + 1 /\ find_long (st_lk st') PtInitial dcid <> None.
Proof. exact client_token. Qed.
Print Assumptions C23_token.

Definition ex_tok : list N :=
  match prepare_retry_token toy_aead (pe_ip ex_pe) 1000 [1;2;3;4;5;6;7;8] (repeat 21 8) 0 [200;1;2;3;4;5;6;7] 256 with
  | Some (Some t) => t | _ => [] end.
Example C23_token_ex : bytes_ok ex_tok /\ issued toy_aead (pe_ip ex_pe) 1000 ex_dcid (repeat 21 8) 0 ex_tok /\
  wants_token (ex_cf false true) ex_st ex_pe = true /\
  match incoming_packet (ex_cf false true) (fun _ => true) ex_st (ex_rns 8) ex_pe 5000 (ex_initial ex_tok (repeat 21 8) 1) with
  | Some (st', acts) => acts = [ACreate (repeat 21 8) true ex_dcid] /\ st_conns st' = 1
  | None => False
  end /\
  match incoming_packet (ex_cf false true) (fun _ => true) ex_st (ex_rns 8) ex_pe 5000 (ex_initial [] (repeat 21 8) 1) with
  | Some (st', [ARetry b]) => blen b = 86 /\ st_conns st' = 0
  | _ => False
  end.
Proof.
  split.
  { unfold bytes_ok. apply Forall_forall. intros x Hx. unfold is_byte.
    assert (A : forallb (fun b => b <? 256) ex_tok = true) by (vm_compute; reflexivity).
    rewrite forallb_forall in A. apply N.ltb_lt, A, Hx. }
  split.
  { split; [|vm_compute; repeat split; discriminate].
    exists [200;1;2;3;4;5;6;7]. split; [reflexivity|]. split; [repeat constructor|vm_compute; reflexivity]. }
  split; [reflexivity|]. vm_compute. repeat split.
Qed.

(** C44: every version negotiation, Retry or busy packet answers a datagram of at least
    1200 bytes from an acceptable port, is short, and only busy packets are followed by
    something. *)
Theorem C44_reply : forall cf known st rns pe now bytes st' a1 a a2 b,
  env_ok cf (st_lk st) rns -> bytes_ok bytes -> now + 200000000 < two64 ->
  incoming_packet cf known st rns pe now bytes = Some (st', a1 ++ a :: a2) -> is_reply a -> reply_of a = Some b ->
  1200 <= blen bytes /\ addr_refused cf pe = false /\ blen b <= 573 /\ (is_busy a = true -> blen b <= 74) /\
  (is_busy a = false -> a2 = []) /\ (forall x, In x a1 -> is_busy x = true \/ is_create x = true).
Proof. exact reply_inv. Qed.
Print Assumptions C44_reply.

(** Apart from busy packets, fewer bytes are sent than received, resets included. *)
Theorem C44_no_amplification : forall cf known st rns pe now bytes st' acts,
  env_ok cf (st_lk st) rns -> bytes_ok bytes -> now + 200000000 < two64 -> bytes <> [] ->
  incoming_packet cf known st rns pe now bytes = Some (st', acts) ->
  bytes_out (filter not_busy acts) < blen bytes.
Proof. exact replies_small. Qed.
Print Assumptions C44_no_amplification.

(** Busy packets amount to at most 74/17 of the datagram. *)
Theorem C44_busy_bound : forall cf known rns pe now plen, forall fuel st raw prev st' acts,
  env_ok cf (st_lk st) rns -> bytes_ok raw ->
  incoming_segments fuel cf known st rns pe now raw plen prev = Some (st', acts) ->
  17 * bytes_out (filter is_busy acts) <= 74 * blen raw.
Proof. exact busy_out. Qed.
Print Assumptions C44_busy_bound.

Example C44_reply_ex : env_ok (ex_cf true false) (st_lk ex_st) (ex_rns 8) /\
  match incoming_packet (ex_cf true false) (fun _ => true) ex_st (ex_rns 8) ex_pe 5000 (ex_initial [] ex_dcid 0) with
  | Some (st', [ABusy b]) => blen b = 46 /\ st_conns st' = 0
  | _ => False
  end /\
  match incoming_packet (ex_cf true false) (fun _ => true) ex_st (ex_rns 8) ex_pe 5000 (192 :: 1 :: skipn 2 (ex_initial [] ex_dcid 0)) with
  | Some (_, [AVersion b]) => blen b = 75
  | _ => False
  end /\
  incoming_packet (ex_cf true false) (fun _ => true) ex_st (ex_rns 8) (mk_peer (Inet4 0 53) [251; 0; 0; 1]) 5000 (ex_initial [] ex_dcid 0) <> None.
Proof. split; [apply ex_env; [reflexivity|lia]|]. split; [vm_compute; repeat split|]. split; [vm_compute; reflexivity|]. vm_compute. discriminate. Qed.

(** Finding: a busy packet is sent for each coalesced Initial packet of a datagram, so that
    more than three times the bytes received can be sent to an address that is not
    validated (RFC 9000 section 8.1 allows three times). *)
Definition tiny_initial : list N := [192; 0; 0; 0; 1; 8; 1; 2; 3; 4; 5; 6; 7; 8; 0; 0; 0].
Theorem C44_busy_amplification_refuted : exists cf known st rns pe now bytes st' acts,
  env_ok cf (st_lk st) rns /\ bytes_ok bytes /\ 1200 <= blen bytes <= 1536 /\
  incoming_packet cf known st rns pe now bytes = Some (st', acts) /\ 3 * blen bytes < bytes_out acts.
Proof.
  exists (ex_cf true false), (fun _ => false), (mk_sstate (mk_lookup 20 None (fun _ => None) (fun _ => None)) 0 0 [] 0), (ex_rns 20), ex_pe, 5000,
    (concat (repeat tiny_initial 71)).
  do 2 eexists. split; [apply ex_env; [reflexivity|lia]|]. split.
  { apply Forall_forall. intros x Hx. apply in_concat in Hx. destruct Hx as (l & Hl & Hx). apply repeat_spec in Hl. subst l.
    cbn [tiny_initial In] in Hx. unfold is_byte. intuition (subst; reflexivity). }
  split; [vm_compute; split; discriminate|]. split; [vm_compute; reflexivity|]. vm_compute. reflexivity.
Qed.
Print Assumptions C44_busy_amplification_refuted.

(** Every datagram of at most 1536 bytes is handled without any access outside of the
    datagram or of a packet buffer, and the loop over its segments ends, provided that the
    server uses connection ids and that no token is forged. *)
Theorem C44_safe : forall cf known st rns pe now bytes,
  env_ok cf (st_lk st) rns -> bytes_ok bytes -> blen bytes <= 1536 -> now + 200000000 < two64 ->
  tokens_ok cf pe bytes -> 0 < lk_cid_len (st_lk st) -> lk_by_icid (st_lk st) [] = None ->
  exists r, incoming_packet cf known st rns pe now bytes = Some r.
Proof. exact packet_safe. Qed.
Print Assumptions C44_safe.

Lemma ex_tokens : forall busy force bytes, forallb (fun b => negb (b =? 251)) bytes = true -> tokens_ok (ex_cf busy force) ex_pe bytes.
Proof.
  intros busy force bytes Hb a c b n text E Hd. exfalso. cbn [ex_cf sf_ticket toy_aead ae_dec ex_pe pe_ip] in Hd.
  destruct (blen c <? 16); [discriminate|]. cbv zeta in Hd.
  destruct (list_eq_dec N.eq_dec (skipn (length c - 16) c) _) as [Es|_] in Hd; [|discriminate].
  cbn [toy_seal] in Es. rewrite forallb_forall in Hb.
  assert (Hin : In 251 bytes).
  { rewrite E. apply in_or_app. right. apply in_or_app. left. rewrite <- (firstn_skipn (length c - 16) c). apply in_or_app. right.
    rewrite Es. right. right. right. left. reflexivity. }
  specialize (Hb _ Hin). discriminate.
Qed.
Example C44_safe_ex : tokens_ok (ex_cf false true) ex_pe (ex_initial [5;6;7;8;9;10;11;12;13] ex_dcid 3) /\
  blen (ex_initial [5;6;7;8;9;10;11;12;13] ex_dcid 3) = 1231 /\ lk_by_icid (st_lk ex_st) [] = None /\
  match incoming_packet (ex_cf false true) (fun _ => true) ex_st (ex_rns 8) ex_pe 5000 (ex_initial [5;6;7;8;9;10;11;12;13] ex_dcid 3) with
  | Some (st', acts) => st_conns st' = 0 /\ acts = []
  | None => False
  end.
Proof. split; [apply ex_tokens; vm_compute; reflexivity|]. split; [vm_compute; reflexivity|]. split; [reflexivity|]. vm_compute. split; reflexivity. Qed.

(** Finding: without connection ids, after a segment whose destination id is empty, a
    second segment with an unknown version is handled as if it started the datagram, and
    the lengths of its ids are used without verification (packet.c 988-1020). *)
Theorem C44_overread_refuted : exists cf known st rns pe now bytes,
  env_ok cf (st_lk st) rns /\ bytes_ok bytes /\ blen bytes <= 1536 /\ tokens_ok cf pe bytes /\
  lk_by_icid (st_lk st) [] = None /\
  incoming_packet cf known st rns pe now bytes = None /\
  exists b1 b2 ph c, bytes = b1 ++ b2 /\ blen b2 = 6 /\
    parse_header (st_lk st) bytes None true = Some (POk ph (Some c)) /\ ph_offset ph + ph_payload ph = blen b1 /\
    parse_header (st_lk st) b2 None true = Some (PBadVersion 286331153) /\
    version_negotiation (st_lk st) (rns 0%nat) 286331153 b2 = None.
Proof.
  exists (ex_cf false false), (fun _ => true),
    (mk_sstate (mk_lookup 0 (Some (mk_cdata false 0 false false false 4)) (fun _ => None) (fun _ => None)) 1 0 [] 0),
    (ex_rns 0), ex_pe, 5000,
    ([224; 0; 0; 0; 1; 0; 0; 68; 176] ++ repeat 9 1200 ++ [192; 17; 17; 17; 17; 255]).
  split; [apply ex_env; [reflexivity|lia]|]. split.
  { apply Forall_forall. intros x Hx. unfold is_byte.
    assert (A : forallb (fun b => b <? 256) ([224; 0; 0; 0; 1; 0; 0; 68; 176] ++ repeat 9 1200 ++ [192; 17; 17; 17; 17; 255]) = true) by (vm_compute; reflexivity).
    rewrite forallb_forall in A. apply N.ltb_lt, A, Hx. }
  split; [vm_compute; discriminate|]. split; [apply ex_tokens; vm_compute; reflexivity|].
  split; [reflexivity|]. split; [vm_compute; reflexivity|].
  exists ([224; 0; 0; 0; 1; 0; 0; 68; 176] ++ repeat 9 1200), [192; 17; 17; 17; 17; 255]. do 2 eexists.
  split; [vm_compute; reflexivity|]. split; [reflexivity|]. split; [vm_compute; reflexivity|]. split; [vm_compute; reflexivity|].
  split; vm_compute; reflexivity.
Qed.
Print Assumptions C44_overread_refuted.
