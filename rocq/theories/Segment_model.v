(** Model of what a server does with datagrams for which it has no connection (definitions
    only): picoquic/packet.c 85-197 (screening of Initial packets), 968-1289 (version
    negotiation, stateless reset, Retry and busy packets) and 2048-2396 (segments and
    datagrams).  What is done with a packet of a known connection is not modelled here: an
    oracle tells whether the rest of the datagram is examined.  Allocation is assumed to
    succeed. *)
From Verif Require Import Base Varint_model Mem PacketNumber_model Header_model Protect_model Rtoken_model Ports_model.

(** The settings of the context (picoquic_quic_t, picoquic/picoquic_internal.h 570-760) and
    its keys: [sf_keys] are the Initial keys for a version index and a destination id
    (reading side, then writing side), [sf_retry_tag] the 16 bytes of integrity of a Retry
    packet (picoquic/tls_api.c 2983-3061; all the supported versions have a key),
    [sf_secret] the reset secret of a connection id (tls_api.c 2647-2671), [sf_by_secret]
    whether a connection is found by that secret and the address (quicctx.c 4977). *)
Record sconf := mk_sconf {
  sf_client_only : bool;        (* enforce_client_only *)
  sf_busy : bool;               (* server_busy *)
  sf_max_conns : N;             (* tentative_max_number_connections *)
  sf_max_half_open : N;         (* max_half_open_before_retry *)
  sf_force_token : bool;        (* force_check_token *)
  sf_ports_open : bool;         (* is_port_blocking_disabled *)
  sf_interval : N;              (* stateless_reset_min_interval *)
  sf_grease : bool;             (* default do_grease_quic_bit *)
  sf_ticket : aead;
  sf_keys : N -> list N -> crypto * crypto;
  sf_retry_tag : N -> list N -> list N;
  sf_secret : list N -> list N;
  sf_by_secret : list N -> bool
}.

(** The part of the context that changes: the tables of connections,
    current_number_connections, current_number_half_open, token_reuse_tree,
    stateless_reset_next_time. *)
Record sstate := mk_sstate {
  st_lk : lookup; st_conns : N; st_half : N; st_reg : registry; st_next_reset : N
}.

(** The sender of a datagram: its socket address and its IP address (4 or 16 bytes). *)
Record peer := mk_peer { pe_sock : sockaddr; pe_ip : list N }.

(** Random values drawn for a segment: bytes, number for the padding of a reset, draws of
    version numbers, the connection id created by picoquic_create_local_cnx_id
    (quicctx.c 1516-1524), the nonce of a token. *)
Record rnd := mk_rnd {
  rn_byte : N -> N; rn_pad : N; rn_vns : list N; rn_cid : list N; rn_nonce : list N
}.

(** picoquic_public_random (picoquic/tls_api.c 2116-2127): n random bytes. *)
Definition random_bytes (r : rnd) (n : N) : list N :=
  map (fun i => u8 (rn_byte r (N.of_nat i))) (seq 1 (N.to_nat n)).

(** What the server does, in order: creation of a connection (id of the packet, whether the
    address is validated, original id), or a stateless packet. *)
Inductive action :=
| ACreate (dcid : list N) (validated : bool) (odcid : list N)
| AVersion (bytes : list N)
| ARetry (bytes : list N)
| ABusy (bytes : list N)
| AReset (bytes : list N).

(** Return code of the screening. *)
Inductive scode :=
| ScTooShort | ScCidShort | ScBusy | ScAead | ScBadToken | ScRetry
| ScCreated (validated : bool) (odcid : list N).

(** Whether the address is refused (packet.c 157, 2150, 2158, 2166, 2174). *)
Definition addr_refused (cf : sconf) (pe : peer) : bool :=
  negb (sf_ports_open cf) && check_addr_blocked (pe_sock pe).

(** The decryption of the first Initial packet, packet.c 119-140; [Some None]: return code
    PICOQUIC_ERROR_AEAD_CHECK.  A packet too short for the sample is treated as
    undecipherable (the code then decrypts with authenticated data left uninitialised). *)
Definition screen_open (cf : sconf) (bytes : list N) (ph : phdr) : option (option N) :=
  match ph_vi ph with
  | None => None
  | Some vi =>
    let cy := fst (sf_keys cf vi (ph_dcid ph)) in
    o <~ remove_header_protection cy bytes (ph_offset ph + ph_payload ph) ph false 0 1536 ;;
    match o with
    | None => Some None
    | Some op =>
      cipher <~ mem_read (op_payload_offset op) (op_payload_length op) bytes ;;
      if 1536 <? op_payload_offset op + (op_payload_length op - 16) then None
      else
        Some (match cy_dec cy (op_pn64 op) (op_header op) cipher with
              | None => None
              | Some _ => Some (op_pn64 op)
              end)
    end
  end.

(** picoquic_create_cnx (quicctx.c 3845-4080) for a server, as far as the tables are
    concerned: the connection is found by the destination id of its first packet and, when
    there are no connection ids, by the address; the counters are incremented (1324, 4019).
    The local id of the connection, random, is not entered here. *)
Definition create_cnx (cf : sconf) (st : sstate) (ph : phdr) (reg : registry) : sstate :=
  let c := mk_cdata false (match ph_vi ph with Some i => i | None => 0 end) (sf_grease cf) false false (blen (ph_scid ph)) in
  let lk := st_lk st in
  mk_sstate
    (mk_lookup (lk_cid_len lk) (if lk_cid_len lk =? 0 then Some c else lk_by_net lk) (lk_by_id lk)
       (fun id => if list_eq_dec N.eq_dec id (ph_dcid ph) then Some c else lk_by_icid lk id))
    (st_conns st + 1) (st_half st + 1) reg (st_next_reset st).

(** picoquic/packet.c 85-197, picoquic_screen_initial_packet.  The test of
    has_reserved_bit_set (107) is omitted: the flag is 0 before the header protection is
    removed. *)
Definition screen_initial (cf : sconf) (st : sstate) (pe : peer) (now : N) (bytes : list N) (packet_length : N)
    (ph : phdr) : option (sstate * scode) :=
  if packet_length <? 1200 then Some (st, ScTooShort)
  else if blen (ph_dcid ph) <? 8 then Some (st, ScCidShort)
  else if sf_client_only cf then Some (st, ScBusy)
  else if sf_busy cf || (sf_max_conns cf <=? st_conns st) then Some (st, ScBusy)
  else
    o <~ screen_open cf bytes ph ;;
    match o with
    | None => Some (st, ScAead)
    | Some pn64 =>
      t <~ (if 0 <? blen (ph_token ph) then
              v <~ verify_retry_token (sf_ticket cf) (st_reg st) (pe_ip pe) now (ph_dcid ph) (u32 pn64) (ph_token ph) true ;;
              Some (v_ok v, negb (v_ok v), match v_new v with Some b => b | None => false end, v_odcid v, v_reg v)
            else Some (false, false, false, [], st_reg st)) ;;
      let '(good, bad, is_new, odcid, reg) := t in
      let st1 := mk_sstate (st_lk st) (st_conns st) (st_half st) reg (st_next_reset st) in
      if bad && negb is_new then Some (st1, ScBadToken)
      else if negb good && (sf_force_token cf || (sf_max_half_open cf <=? st_half st) || addr_refused cf pe)
      then Some (st1, ScRetry)
      else Some (create_cnx cf st1 ph reg, ScCreated good (if good then odcid else []))
    end.

(** picoquic/packet.c 1067-1112, picoquic_process_unexpected_cnxid: the reset packet,
    written in a buffer of 1536 bytes ([None]: beyond its end). *)
Definition process_unexpected (cf : sconf) (st : sstate) (rn : rnd) (length now : N) (ph : phdr)
    : option (sstate * list action) :=
  if (39 <? length) && ptype_eqb (ph_type ph) Pt1rtt && (st_next_reset st <=? now) then
    let pad0 := length - 16 - 2 in
    let pad := if 22 <? pad0 then pad0 - (rn_pad rn mod (pad0 - 22)) else pad0 in
    let bytes := N.lor 64 (N.land (rn_byte rn 0) 63) :: random_bytes rn pad ++ sf_secret cf (ph_dcid ph) in
    if 1536 <? blen bytes then None
    else Some (mk_sstate (st_lk st) (st_conns st) (st_half st) (st_reg st) (u64 (now + sf_interval cf)), [AReset bytes])
  else Some (st, []).

(** The loop of packet.c 1025-1028 that draws a reserved version number.  [None]: the
    draws are exhausted. *)
Fixpoint draw_vn (vn : N) (draws : list N) : option N :=
  match draws with
  | [] => None
  | d :: r => let g := N.lor (N.land d 4042322160) 168430090 in
              if g =? vn then draw_vn vn r else Some g
  end.

(** picoquic/packet.c 968-1049, picoquic_prepare_version_negotiation; [raw] is what is left
    of the datagram, reading beyond it is undefined. *)
Definition version_negotiation (lk : lookup) (rn : rnd) (vn : N) (raw : list N) : option (list action) :=
  dl <~ mem_get 5 raw ;;
  sl <~ mem_get (6 + dl) raw ;;
  found <~ (if dl <=? 20 then
              dcid <~ mem_read 6 dl raw ;;
              Some (match (if dl =? lk_cid_len lk
                           then if lk_cid_len lk =? 0 then lk_by_net lk else lk_by_id lk dcid else None) with
                    | Some c => Some c
                    | None => lk_by_icid lk dcid
                    end)
            else Some None) ;;
  match found with
  | Some _ => Some []
  | None =>
    scid <~ mem_read (6 + dl + 1) sl raw ;;
    dcid <~ mem_read 6 dl raw ;;
    grease <~ draw_vn vn (rn_vns rn) ;;
    let bytes := N.lor (u8 (rn_byte rn 0)) 128 :: format_32 0 ++ (sl :: scid) ++ (dl :: dcid) ++
                 flat_map (fun e => format_32 (fst e)) supported_versions ++ format_32 grease in
    if 1536 <? blen bytes then None else Some [AVersion bytes]
  end.

(** picoquic/packet.c 1118-1212, picoquic_queue_retry_packet and
    picoquic_queue_stateless_retry, with picoquic/tls_api.c 3034-3061: the token is dropped if
    it does not fit, and so is the checksum. *)
Definition retry_packet (cf : sconf) (rn : rnd) (pe : peer) (now : N) (ph : phdr) : option (list action) :=
  t <~ prepare_retry_token (sf_ticket cf) (pe_ip pe) (u64 (now + 120000000)) (ph_dcid ph) (rn_cid rn) 0 (rn_nonce rn) 256 ;;
  match t with
  | None => Some []
  | Some token =>
    h <~ create_long_header PtRetry (ph_scid ph) (rn_cid rn) false (ph_vn ph) (ph_vi ph) 0 token 1536 ;;
    let h1 := fst (fst h) in
    let h2 := if blen h1 + blen token <? 1536 then h1 ++ token else h1 in
    let h3 := if (blen h2 + 16 <? 1536) && (blen h2 + blen (ph_dcid ph) + 1 <? 1536)
              then h2 ++ sf_retry_tag cf (match ph_vi ph with Some i => i | None => 0 end)
                          (blen (ph_dcid ph) :: ph_dcid ph ++ h2) else h2 in
    Some [ARetry h3]
  end.

(** picoquic/packet.c 1214-1289, picoquic_queue_busy_packet: an Initial packet with a
    CONNECTION_CLOSE frame of error SERVER_BUSY. *)
Definition busy_packet (cf : sconf) (rn : rnd) (ph : phdr) : option (list action) :=
  match ph_vi ph with
  | None => None
  | Some vi =>
    h <~ create_long_header PtInitial (ph_scid ph) (rn_cid rn) false (ph_vn ph) (ph_vi ph) 0 [] 1536 ;;
    let '(hb, pn_offset, pn_length) := h in
    let cy := snd (sf_keys cf vi (ph_dcid ph)) in
    let h_length := blen hb in
    hb2 <~ update_payload_length hb pn_offset (h_length - pn_length) (h_length + 4 + 16) ;;
    packet <~ protect_packet_header cy (hb2 ++ cy_enc cy 0 hb2 [28; 2; 0; 0]) pn_offset 15 ;;
    if 1536 <? blen packet then None else Some [ABusy packet]
  end.

(** picoquic/packet.c 2078-2110: a segment after the first one is for the same id.  An empty
    id makes the next segment a first one. *)
Definition same_dest (prev dcid : list N) : bool :=
  match prev with [] => true | _ => if list_eq_dec N.eq_dec prev dcid then true else false end.

(** picoquic/packet.c 2048-2354, picoquic_incoming_segment (with 760-876): the actions, the
    id of the first segment and, if the rest of the datagram is examined, the number of
    bytes consumed.  [known] decides whether a packet of a known connection lets the rest
    be examined. *)
Definition incoming_segment (cf : sconf) (known : phdr -> bool) (st : sstate) (rn : rnd) (pe : peer) (now : N)
    (raw : list N) (packet_length : N) (prev : list N) : option (sstate * list action * list N * option N) :=
  r <~ parse_header (st_lk st) raw None true ;;
  match r with
  | PFail => Some (st, [], prev, None)
  | PBadVersion vn =>
    match prev with
    | [] =>
      if (1200 <=? packet_length) && negb (addr_refused cf pe) then
        acts <~ version_negotiation (st_lk st) rn vn raw ;;
        Some (st, acts, prev, None)
      else Some (st, [], prev, None)
    | _ => Some (st, [], prev, None)
    end
  | POk ph cnx =>
    let same := same_dest prev (ph_dcid ph) in
    let prev1 := match prev with [] => ph_dcid ph | _ => prev end in
    let consumed := ph_offset ph + ph_payload ph in
    match ph_type ph with
    | PtVersion | PtRetry | PtError =>
      if 1536 <? blen raw then None else Some (st, [], prev1, None)
    | pt =>
      match cnx with
      | Some _ => Some (st, [], prev1, if same && known ph then Some consumed else None)
      | None =>
        match pt with
        | PtInitial =>
          s <~ screen_initial cf st pe now raw packet_length ph ;;
          let '(st1, code) := s in
          match code with
          | ScTooShort | ScCidShort | ScBadToken => Some (st1, [], prev1, None)
          | ScAead => Some (st1, [], prev1, Some consumed)
          | ScBusy =>
            acts <~ (if (1200 <=? packet_length) && negb (addr_refused cf pe) then busy_packet cf rn ph else Some []) ;;
            Some (st1, acts, prev1, Some consumed)
          | ScRetry =>
            acts <~ (if (1200 <=? packet_length) && negb (addr_refused cf pe) then retry_packet cf rn pe now ph else Some []) ;;
            Some (st1, acts, prev1, None)
          | ScCreated v od =>
            Some (st1, [ACreate (ph_dcid ph) v od], prev1, if same && known ph then Some consumed else None)
          end
        | Pt1rtt =>
          if (39 <=? consumed) && sf_by_secret cf (skipn (length (firstn (N.to_nat consumed) raw) - 16) (firstn (N.to_nat consumed) raw))
          then Some (st, [], prev1, None)
          else if negb same then Some (st, [], prev1, None)
          else if (0 <? blen (ph_dcid ph)) && negb (addr_refused cf pe) then
            u <~ process_unexpected cf st rn (blen raw) now ph ;;
            let '(st1, acts) := u in Some (st1, acts, prev1, None)
          else Some (st, [], prev1, None)
        | _ => Some (st, [], prev1, None)
        end
      end
    end
  end.

(** picoquic/packet.c 2356-2396, the loop of picoquic_incoming_packet_ex.  [fuel] bounds the
    number of segments: [None] when it is exhausted. *)
Fixpoint incoming_segments (fuel : nat) (cf : sconf) (known : phdr -> bool) (st : sstate) (rns : nat -> rnd) (pe : peer)
    (now : N) (raw : list N) (packet_length : N) (prev : list N) : option (sstate * list action) :=
  match raw with
  | [] => Some (st, [])
  | _ =>
    match fuel with
    | O => None
    | S fuel' =>
      r <~ incoming_segment cf known st (rns fuel') pe now raw packet_length prev ;;
      let '(st1, acts, prev1, next) := r in
      match next with
      | None => Some (st1, acts)
      | Some consumed =>
        if consumed =? 0 then Some (st1, acts)
        else
          r2 <~ incoming_segments fuel' cf known st1 rns pe now (skipn (N.to_nat consumed) raw) packet_length prev1 ;;
          let '(st2, acts2) := r2 in Some (st2, acts ++ acts2)
      end
    end
  end.

(** One datagram. *)
Definition incoming_packet (cf : sconf) (known : phdr -> bool) (st : sstate) (rns : nat -> rnd) (pe : peer) (now : N)
    (bytes : list N) : option (sstate * list action) :=
  incoming_segments (length bytes) cf known st rns pe now bytes (blen bytes) [].
