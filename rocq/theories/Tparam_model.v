(** Model of the transport parameters (definitions only): picoquic/transport.c, called from
    picoquic/tls_api.c 872-935. *)
From Verif Require Import Base Varint_model Header_model Rtoken_model Stream_model.

(** The numeric fields of picoquic_tp_t, picoquic/picoquic.h 308-332, in the order of the
    structure (without prefered_address and version_negotiation, the latter unused). *)
Inductive tpf :=
| FDataBidiLocal | FDataBidiRemote | FDataUni | FMaxData | FStreamsBidi | FStreamsUni | FIdle | FPacketSize
| FAckDelay | FCidLimit | FExponent | FNoMigration | FDatagram | FLossBit | FTimeStamp | FMinAckDelay
| FGrease | FBdp | FMultipath | FMaxPathId | FAddress.

(** Equality of field names (of the model only; no code). *)
Definition tpf_eqb (a b : tpf) : bool :=
  match a, b with
  | FDataBidiLocal, FDataBidiLocal | FDataBidiRemote, FDataBidiRemote | FDataUni, FDataUni | FMaxData, FMaxData
  | FStreamsBidi, FStreamsBidi | FStreamsUni, FStreamsUni | FIdle, FIdle | FPacketSize, FPacketSize
  | FAckDelay, FAckDelay | FCidLimit, FCidLimit | FExponent, FExponent | FNoMigration, FNoMigration
  | FDatagram, FDatagram | FLossBit, FLossBit | FTimeStamp, FTimeStamp | FMinAckDelay, FMinAckDelay
  | FGrease, FGrease | FBdp, FBdp | FMultipath, FMultipath | FMaxPathId, FMaxPathId | FAddress, FAddress => true
  | _, _ => false
  end.

(** picoquic_tp_prefered_address_t, picoquic/picoquic.h 289-297 (when is_defined is set). *)
Record pref := mk_pref { pa_ip4 : list N; pa_port4 : N; pa_ip6 : list N; pa_port6 : N; pa_cid : list N; pa_token : list N }.

(** picoquic_tp_t, picoquic/picoquic.h 308-332: the numeric fields by name, and the
    preferred address when it is defined.  Flags and enumerations are numbers. *)
Record tpar := mk_tp { tp_n : tpf -> N; tp_pref : option pref }.

(** Assignment of a field of picoquic_tp_t (picoquic/picoquic.h 308-332). *)
Definition tp_set (p : tpar) (f : tpf) (v : N) : tpar :=
  mk_tp (fun g => if tpf_eqb g f then v else tp_n p g) (tp_pref p).

(** picoquic/picoquic_internal.h 568-594, the types of parameters. *)
Definition ty_original_cid : N := 0.
Definition ty_idle : N := 1.
Definition ty_reset_token : N := 2.
Definition ty_packet_size : N := 3.
Definition ty_max_data : N := 4.
Definition ty_data_bidi_local : N := 5.
Definition ty_data_bidi_remote : N := 6.
Definition ty_data_uni : N := 7.
Definition ty_streams_bidi : N := 8.
Definition ty_streams_uni : N := 9.
Definition ty_exponent : N := 10.
Definition ty_ack_delay : N := 11.
Definition ty_no_migration : N := 12.
Definition ty_preferred : N := 13.
Definition ty_cid_limit : N := 14.
Definition ty_handshake_cid : N := 15.
Definition ty_retry_cid : N := 16.
Definition ty_version : N := 17.
Definition ty_datagram : N := 32.
Definition ty_large : N := 3127.
Definition ty_loss_bit : N := 4183.
Definition ty_grease : N := 10930.
Definition ty_time_stamp : N := 29016.
Definition ty_bdp : N := 60377.
Definition ty_min_ack_delay : N := 4278509083.
Definition ty_address : N := 2676072822.
Definition ty_max_path_id : N := 1113404765106498829.

(** What the code reads of the connection (picoquic/picoquic_internal.h 1330-1420):
    client_mode, local id and remote id of the first path, initial_cnxid, original_cnxid,
    desired_version, grease_transport_parameters, test_large_chello; and of the context:
    test_large_server_flight, one_way_grease_quic_bit, and the reset secret of a
    connection id (picoquic_create_cnxid_reset_secret, picoquic/tls_api.c 2647-2671). *)
Record tcfg := mk_cfg {
  g_client : bool; g_local_cid : list N; g_remote_cid : list N; g_initial : list N; g_original : list N;
  g_desired : N; g_grease : bool; g_large : bool; g_large_flight : bool; g_one_way : bool;
  g_secret : list N -> list N }.

(** What it reads and writes: local_parameters, remote_parameters, version_index,
    is_hcid_verified, do_version_negotiation, is_ack_frequency_negotiated, the reset secret
    stored with the remote id, local_error when the handshake failed, maxdata_remote,
    max_stream_id_bidir_remote, max_stream_id_unidir_remote, max_stream_data_remote. *)
Record tst := mk_st {
  s_local : tpar; s_remote : tpar; s_vi : N; s_hcid : bool; s_do_vn : bool; s_af : bool; s_reset : list N;
  s_error : option N; s_maxdata : N; s_bidir : N; s_uni : N; s_sdr : N; s_provider : bool; s_receiver : bool }.

(** Assignment of [s_remote]. *)
Definition with_remote (s : tst) (p : tpar) : tst :=
  mk_st (s_local s) p (s_vi s) (s_hcid s) (s_do_vn s) (s_af s) (s_reset s) (s_error s) (s_maxdata s) (s_bidir s)
    (s_uni s) (s_sdr s) (s_provider s) (s_receiver s).
(** Assignment of a numeric field of remote_parameters. *)
Definition set_rem (s : tst) (f : tpf) (v : N) : tst := with_remote s (tp_set (s_remote s) f v).

(** picoquic/quicctx.c 4695-4727, picoquic_connection_error_ex, in a state of the handshake:
    the first error is recorded and the state is picoquic_state_handshake_failure. *)
Definition conn_error (s : tst) (code : N) : tst :=
  mk_st (s_local s) (s_remote s) (s_vi s) (s_hcid s) (s_do_vn s) (s_af s) (s_reset s)
    (match s_error s with None => Some code | e => e end) (s_maxdata s) (s_bidir s) (s_uni s) (s_sdr s)
    (s_provider s) (s_receiver s).

(** Assignments of single fields of the connection, used below. *)
Definition with_vi (s : tst) (vi : N) : tst :=
  mk_st (s_local s) (s_remote s) vi (s_hcid s) (s_do_vn s) (s_af s) (s_reset s) (s_error s) (s_maxdata s) (s_bidir s)
    (s_uni s) (s_sdr s) (s_provider s) (s_receiver s).
Definition with_hcid (s : tst) : tst :=
  mk_st (s_local s) (s_remote s) (s_vi s) true (s_do_vn s) (s_af s) (s_reset s) (s_error s) (s_maxdata s) (s_bidir s)
    (s_uni s) (s_sdr s) (s_provider s) (s_receiver s).
Definition with_vn (s : tst) : tst :=
  mk_st (s_local s) (s_remote s) (s_vi s) (s_hcid s) true (s_af s) (s_reset s) (s_error s) (s_maxdata s) (s_bidir s)
    (s_uni s) (s_sdr s) (s_provider s) (s_receiver s).
Definition with_af (s : tst) : tst :=
  mk_st (s_local s) (s_remote s) (s_vi s) (s_hcid s) (s_do_vn s) true (s_reset s) (s_error s) (s_maxdata s) (s_bidir s)
    (s_uni s) (s_sdr s) (s_provider s) (s_receiver s).
Definition with_reset (s : tst) (r : list N) : tst :=
  mk_st (s_local s) (s_remote s) (s_vi s) (s_hcid s) (s_do_vn s) (s_af s) r (s_error s) (s_maxdata s) (s_bidir s)
    (s_uni s) (s_sdr s) (s_provider s) (s_receiver s).
Definition with_limits (s : tst) (maxdata bidir uni sdr : N) : tst :=
  mk_st (s_local s) (s_remote s) (s_vi s) (s_hcid s) (s_do_vn s) (s_af s) (s_reset s) (s_error s) maxdata bidir
    uni sdr (s_provider s) (s_receiver s).
Definition with_address (s : tst) (provider receiver : bool) : tst :=
  mk_st (s_local s) (s_remote s) (s_vi s) (s_hcid s) (s_do_vn s) (s_af s) (s_reset s) (s_error s) (s_maxdata s) (s_bidir s)
    (s_uni s) (s_sdr s) provider receiver.
Definition with_local (s : tst) (p : tpar) : tst :=
  mk_st p (s_remote s) (s_vi s) (s_hcid s) (s_do_vn s) (s_af s) (s_reset s) (s_error s) (s_maxdata s) (s_bidir s)
    (s_uni s) (s_sdr s) (s_provider s) (s_receiver s).

(** * Sending *)

(** No write, the pointer is unchanged (used for absent parameters). *)
Definition wnil : writer := fun _ => Some [].
(** [if (condition) { bytes = ... }]. *)
Definition wif (b : bool) (w : writer) : writer := if b then w else wnil.

(** picoquic/transport.c 43-57, picoquic_transport_param_varint_encode. *)
Definition tp_varint_encode (n64 : N) : writer := fun room =>
  if room <? 1 then None
  else match frames_varint_encode n64 (room - 1) with
       | None => None
       | Some b => Some (u8 (blen b) :: b)
       end.

(** picoquic/transport.c 59-67, picoquic_transport_param_type_varint_encode. *)
Definition tp_type_varint (t n64 : N) : writer := frames_varint_encode t >>> tp_varint_encode n64.

(** picoquic/transport.c 69-76, picoquic_transport_param_type_flag_encode. *)
Definition tp_type_flag (t : N) : writer := frames_varint_encode t >>> frames_varint_encode 0.

(** picoquic/transport.c 78-86, picoquic_transport_param_cid_encode. *)
Definition tp_cid (t : N) (cid : list N) : writer := frames_varint_encode t >>> frames_cid_encode cid.

(** picoquic/transport.c 98-128, picoquic_encode_transport_param_prefered_address: both ports
    are written from ipv4Port. *)
Definition tp_pref_encode (p : pref) : writer :=
  frames_varint_encode ty_preferred >>> frames_varint_encode (25 + blen (pa_cid p) + 16) >>>
  (fun room => if room <? 25 + blen (pa_cid p) + 16 then None
   else Some (pa_ip4 p ++ format_16 (pa_port4 p) ++ pa_ip6 p ++ format_16 (pa_port4 p) ++ [u8 (blen (pa_cid p))] ++
              format_cid (room - 25) (pa_cid p) ++ pa_token p)).

(** The version of an index, picoquic/quicctx.c 121-241; the index is always in the table. *)
Definition version_of (vi : N) : N := match version_entry vi with Some (v, _) => v | None => 0 end.

(** picoquic/transport.c 180-224, picoquic_encode_transport_param_version_negotiation: the two
    bytes of the length are written at the end. *)
Definition tp_version_encode (server : bool) (vi desired : N) : writer :=
  frames_varint_encode ty_version >>> (fun room =>
    match (frames_uint16_encode 0 >>> frames_uint32_encode (version_of vi) >>>
           (if server then fold_right (fun e w => frames_uint32_encode (fst e) >>> w) wnil supported_versions
            else wif (negb (desired =? 0) && negb (desired =? version_of vi)) (frames_uint32_encode desired)
                 >>> frames_uint32_encode (version_of vi))) room with
    | None => None
    | Some b =>
      let len := blen b - 2 in
      if 16383 <? len then None
      else Some (N.lor (u8 (N.land (N.shiftr len 8) 63)) 64 :: u8 (N.land len 255) :: skipn 2 b)
    end).

(** picoquic/transport.c 391-404: type, length, then the secret; at least one more byte must
    be left. *)
Definition tp_reset_encode (secret : list N) : writer :=
  frames_varint_encode ty_reset_token >>> frames_varint_encode 16 >>>
  (fun room => if 16 <? room then Some secret else None).

(** picoquic/transport.c 417-427: 1200 bytes 'Q'. *)
Definition tp_large_encode (n : N) : writer :=
  frames_varint_encode ty_large >>> frames_varint_encode n >>> put_bytes (repeat 81 (N.to_nat n)).

(** picoquic/transport.c 469-484: all the space but some bytes. *)
Definition tp_flight_encode : writer := fun room => tp_large_encode (if 24 <? room then room - 24 else 1) room.

(** picoquic/transport.c 406-415: type and value derived from initial_cnxid. *)
Definition grease_type (g : tcfg) : N :=
  let n := 31 * (nth 0 (g_initial g) 0 + (if g_client g then 1 else 0)) + 27 in
  if n =? ty_large then n + 31 else n.
Definition grease_value (g : tcfg) : N := nth 1 (g_initial g) 0 * 256 + nth 2 (g_initial g) 0.

(** picoquic/transport.c 306-497, picoquic_prepare_transport_extensions, up to line 389:
    the parameters of RFC 9000. *)
Definition prepare_base (g : tcfg) (s : tst) : writer :=
  let p := tp_n (s_local s) in
  tp_type_varint ty_data_bidi_local (p FDataBidiLocal) >>>
  tp_type_varint ty_max_data (p FMaxData) >>>
  wif (0 <? p FStreamsBidi) (tp_type_varint ty_streams_bidi (p FStreamsBidi)) >>>
  wif (0 <? p FIdle) (tp_type_varint ty_idle (p FIdle)) >>>
  tp_type_varint ty_packet_size (p FPacketSize) >>>
  wif (negb (p FExponent =? 3)) (tp_type_varint ty_exponent (p FExponent)) >>>
  wif (0 <? p FStreamsUni) (tp_type_varint ty_streams_uni (p FStreamsUni)) >>>
  match tp_pref (s_local s) with Some a => tp_pref_encode a | None => wnil end >>>
  wif (negb (p FNoMigration =? 0)) (tp_type_flag ty_no_migration) >>>
  wif (0 <? p FDataBidiRemote) (tp_type_varint ty_data_bidi_remote (p FDataBidiRemote)) >>>
  wif (0 <? p FDataUni) (tp_type_varint ty_data_uni (p FDataUni)) >>>
  wif (0 <? p FCidLimit) (tp_type_varint ty_cid_limit (p FCidLimit)) >>>
  wif (negb (p FAckDelay =? 25000)) (tp_type_varint ty_ack_delay (u32 (p FAckDelay + 999) / 1000)) >>>
  tp_cid ty_handshake_cid (g_local_cid g) >>>
  (if g_client g then wnil
   else (if 0 <? blen (g_original g) then
           tp_cid ty_original_cid (g_original g) >>> tp_cid ty_retry_cid (g_initial g)
         else wif (s_hcid s) (tp_cid ty_original_cid (g_initial g))) >>>
        tp_reset_encode (g_secret g (g_local_cid g))).

(** picoquic/transport.c 400-404: a server supports datagrams if the client does. *)
Definition server_datagram (g : tcfg) (s : tst) : tst :=
  if negb (g_client g) && (tp_n (s_local s) FDatagram =? 0) && (0 <? tp_n (s_remote s) FDatagram)
  then with_local s (tp_set (s_local s) FDatagram 1536) else s.

(** picoquic/transport.c 400-484: the extensions. *)
Definition prepare_extensions (g : tcfg) (s : tst) : writer :=
  let p := tp_n (s_local s) in
  wif (0 <? p FDatagram) (tp_type_varint ty_datagram (p FDatagram)) >>>
  wif (g_grease g) (tp_type_varint (grease_type g) (grease_value g)) >>>
  wif (g_large g) (tp_large_encode 1200) >>>
  wif (0 <? p FLossBit) (tp_type_varint ty_loss_bit (if 1 <? p FLossBit then 1 else 0)) >>>
  wif (0 <? p FMinAckDelay) (tp_type_varint ty_min_ack_delay (p FMinAckDelay)) >>>
  wif (0 <? p FTimeStamp) (tp_type_varint ty_time_stamp (p FTimeStamp)) >>>
  wif (negb (p FGrease =? 0)) (tp_type_flag ty_grease) >>>
  wif (s_do_vn s) (tp_version_encode (negb (g_client g)) (s_vi s) (g_desired g)) >>>
  wif (0 <? p FBdp) (tp_type_varint ty_bdp (p FBdp)) >>>
  wif (0 <? p FMultipath) (tp_type_varint ty_max_path_id (p FMaxPathId)) >>>
  wif (0 <? p FAddress) (tp_type_varint ty_address (p FAddress - 1)) >>>
  wif (negb (g_client g) && negb (g_large g) && g_large_flight g) tp_flight_encode.

(** picoquic/transport.c 306-497: [None] is PICOQUIC_ERROR_EXTENSION_BUFFER_TOO_SMALL.  The
    extension mode is 1 on servers (picoquic/tls_api.c 879). *)
Definition prepare (g : tcfg) (s : tst) (room : N) : option (list N) :=
  (prepare_base g s >>> prepare_extensions g (server_datagram g s)) room.

(** * Receiving *)

(** picoquic/transport.c 30-41, picoquic_transport_param_varint_decode: the value, whether
    [ret] is still 0, and the connection. *)
Definition tp_varint_decode (s : tst) (ok : bool) (v : list N) : N * bool * tst :=
  match varint_decode v with
  | Ok (l, n) => if (l =? 0) || negb (l =? blen v) then (n, false, conn_error s 8) else (n, ok, s)
  | _ => (0, false, s)
  end.

(** picoquic/transport.c 88-96, picoquic_transport_param_cid_decode, with
    picoquic_parse_connection_id (picoquic/util.c 333-343): the id, and whether it is valid. *)
Definition tp_cid_decode (v : list N) : list N * bool :=
  let len := u8 (blen v) in
  if len <=? 20 then (firstn (N.to_nat len) v, len =? blen v) else ([], 0 =? blen v).

(** picoquic/transport.c 130-163, picoquic_decode_transport_param_prefered_address: the
    length read (0 when invalid) and the address.  When the address is not valid the fields
    that are written without setting is_defined are not kept. *)
Definition tp_pref_decode (v : list N) : N * option pref :=
  if blen v <? 41 then (0, None)
  else
    let rd16 := fun l => match frames_uint16_decode l with Some (x, _) => x | None => 0 end in
    let cl := nth 24 v 0 in
    if (0 <? cl) && (cl <=? 20) && (25 + cl + 16 <=? blen v) then
      (25 + cl + 16,
       Some (mk_pref (firstn 4 v) (rd16 (skipn 4 v)) (firstn 16 (skipn 6 v)) (rd16 (skipn 22 v))
               (firstn (N.to_nat cl) (skipn 25 v)) (firstn 16 (skipn (N.to_nat (25 + cl)) v))))
    else (0, None).

(** picoquic/transport.c 241-262: the versions proposed by a client, the first one that is
    supported, then the end of the list is not read; [None] is the decoding error. *)
Fixpoint first_supported (fuel : nat) (l : list N) : option (option (N * N)) :=
  match fuel with
  | O => None
  | S fuel =>
    match l with
    | [] => Some None
    | _ =>
      match frames_uint32_decode l with
      | None => None
      | Some (vn, l') =>
        match get_version_index vn with
        | Some i => Some (Some (vn, i))
        | None => first_supported fuel l'
        end
      end
    end
  end.

(** picoquic/transport.c 263-276: the list of a server is read to the end. *)
Fixpoint all_read (fuel : nat) (l : list N) : bool :=
  match fuel with
  | O => false
  | S fuel =>
    match l with
    | [] => true
    | _ => match frames_uint32_decode l with None => false | Some (_, l') => all_read fuel l' end
    end
  end.

(** picoquic/transport.c 226-281, picoquic_process_tp_version_negotiation: the error, or
    the version negotiated with its index. *)
Definition tp_version_decode (from_server : bool) (envelop : N) (v : list N) : N + option (N * N) :=
  match frames_uint32_decode v with
  | None => inl 8
  | Some (current, l) =>
    if negb (current =? envelop) then inl 17
    else if from_server then (if all_read (S (length l)) l then inr None else inl 8)
    else match first_supported (S (length l)) l with None => inl 8 | Some r => inr r end
  end.

(** picoquic/quicctx.c 115-148: upgrade_from of the versions of indexes 1 and 2 is the
    list [PICOQUIC_V1_VERSION; 0], of the others NULL. *)
Definition upgrade_from (vi : N) : option (list N) := if (vi =? 1) || (vi =? 2) then Some [1; 0] else None.

(** Result of the loop of picoquic_process_version_upgrade. *)
Inductive upgrade := UYes | UNo | UFuel.

(** picoquic/quicctx.c 5249-5264: the index [i] stays 0. *)
Fixpoint upgrade_loop (fuel : nat) (l : list N) (i : nat) (old : N) : upgrade :=
  match fuel with
  | O => UFuel
  | S fuel =>
    if nth i l 0 =? 0 then UNo
    else if nth i l 0 =? old then UYes
    else upgrade_loop fuel l i old
  end.

(** picoquic/quicctx.c 5241-5267, picoquic_process_version_upgrade.  The installation of the
    initial keys of the new version is assumed to succeed. *)
Definition process_version_upgrade (fuel : nat) (old new : N) : upgrade :=
  if new =? old then UYes
  else match upgrade_from new with None => UNo | Some l => upgrade_loop fuel l 0 (version_of old) end.

(** The local variables of picoquic_receive_transport_extensions (picoquic/transport.c
    531-536) with the connection: present_flag as the list of the types below 64, and the
    three connection ids. *)
Record rx := mk_rx { r_s : tst; r_present : list N; r_ocid : list N; r_hcid : list N; r_rcid : list N }.
(** Assignment of the connection. *)
Definition rx_s (r : rx) (s : tst) : rx := mk_rx s (r_present r) (r_ocid r) (r_hcid r) (r_rcid r).

(** One parameter: the new state and whether [ret] is 0, or no result (endless loop). *)
Inductive rres := RNext (r : rx) (ok : bool) | RHang.

(** The cases that store a varint in a field, picoquic/transport.c 578-600, 615-618, 645-648,
    703-711: [f] converts the value to the type of the field. *)
Definition rx_store (r : rx) (ok : bool) (v : list N) (fld : tpf) (conv : N -> N) : rres :=
  match tp_varint_decode (r_s r) ok v with
  | (n, ok, s) => RNext (rx_s r (set_rem s fld (conv n))) ok
  end.

(** picoquic/transport.c 574-851, the switch on the type of the parameter.  The list of
    streams (picoquic_update_stream_initial_remote, picoquic_add_output_streams) is not
    represented.  max_ack_delay is the product of two 32-bit numbers. *)
Definition rx_switch (fuel : nat) (g : tcfg) (from_server : bool) (r : rx) (ok : bool) (t : N) (v : list N) : rres :=
  if t =? ty_data_bidi_local then rx_store r ok v FDataBidiLocal (fun n => n)
  else if t =? ty_data_bidi_remote then rx_store r ok v FDataBidiRemote (fun n => n)
  else if t =? ty_data_uni then rx_store r ok v FDataUni (fun n => n)
  else if t =? ty_max_data then
    match tp_varint_decode (r_s r) ok v with
    | (n, ok, s) => RNext (rx_s r (with_limits (set_rem s FMaxData n) n (s_bidir s) (s_uni s) (s_sdr s))) ok
    end
  else if t =? ty_streams_bidi then
    match tp_varint_decode (r_s r) ok v with
    | (n, ok, s) =>
      RNext (rx_s r (with_limits (set_rem s FStreamsBidi n) (s_maxdata s)
                       (id_of_rank (if n =? 4294967295 then 0 else n) (g_client g) false) (s_uni s)
                       (tp_n (s_remote s) FDataBidiRemote))) ok
    end
  else if t =? ty_idle then rx_store r ok v FIdle (fun n => n)
  else if t =? ty_packet_size then
    match tp_varint_decode (r_s r) ok v with
    | (n, true, s) =>
      if (n <? 1200) || (65527 <? n) then RNext (rx_s r (conn_error s 8)) false
      else RNext (rx_s r (set_rem s FPacketSize n)) true
    | (_, false, s) => RNext (rx_s r s) false
    end
  else if t =? ty_reset_token then
    if negb from_server then RNext (rx_s r (conn_error (r_s r) 8)) false
    else if negb (blen v =? 16) then RNext (rx_s r (conn_error (r_s r) 8)) false
    else RNext (rx_s r (with_reset (r_s r) v)) ok
  else if t =? ty_exponent then rx_store r ok v FExponent u8
  else if t =? ty_streams_uni then
    match tp_varint_decode (r_s r) ok v with
    | (n, ok, s) =>
      RNext (rx_s r (with_limits (set_rem s FStreamsUni n) (s_maxdata s) (s_bidir s)
                       (id_of_rank (if n =? 4294967295 then 0 else n) (g_client g) true) (s_sdr s))) ok
    end
  else if t =? ty_preferred then
    let (len, a) := tp_pref_decode v in
    let s := match a with
             | Some _ => with_remote (r_s r) (mk_tp (tp_n (s_remote (r_s r))) a)
             | None => r_s r
             end in
    if negb (len =? blen v) then RNext (rx_s r (conn_error s 8)) false else RNext (rx_s r s) ok
  else if t =? ty_no_migration then
    if negb (blen v =? 0) then RNext (rx_s r (conn_error (r_s r) 8)) false
    else RNext (rx_s r (set_rem (r_s r) FNoMigration 1)) ok
  else if t =? ty_ack_delay then
    match tp_varint_decode (r_s r) ok v with
    | (n, ok, s) =>
      let d := u32 (u32 n * 1000) in
      let s := set_rem s FAckDelay d in
      if 16384000 <? d then RNext (rx_s r (conn_error s 8)) false else RNext (rx_s r s) ok
    end
  else if t =? ty_original_cid then
    let (cid, good) := tp_cid_decode v in
    RNext (mk_rx (if good then r_s r else conn_error (r_s r) 8) (r_present r) cid (r_hcid r) (r_rcid r)) good
  else if t =? ty_retry_cid then
    let (cid, good) := tp_cid_decode v in
    RNext (mk_rx (if good then r_s r else conn_error (r_s r) 8) (r_present r) (r_ocid r) (r_hcid r) cid) good
  else if t =? ty_handshake_cid then
    let (cid, good) := tp_cid_decode v in
    if good then
      if list_eq_dec N.eq_dec (g_remote_cid g) cid then
        RNext (mk_rx (with_hcid (r_s r)) (r_present r) (r_ocid r) cid (r_rcid r)) true
      else RNext (mk_rx (conn_error (r_s r) 8) (r_present r) (r_ocid r) cid (r_rcid r)) false
    else RNext (mk_rx (conn_error (r_s r) 8) (r_present r) (r_ocid r) cid (r_rcid r)) false
  else if t =? ty_cid_limit then rx_store r ok v FCidLimit u32
  else if t =? ty_datagram then rx_store r ok v FDatagram u32
  else if t =? ty_loss_bit then
    match tp_varint_decode (r_s r) ok v with
    | (n, true, s) =>
      if n =? 0 then RNext (rx_s r (set_rem s FLossBit 1)) true
      else if n =? 1 then RNext (rx_s r (set_rem s FLossBit 2)) true
      else RNext (rx_s r (conn_error s 8)) false
    | (_, false, s) => RNext (rx_s r s) false
    end
  else if t =? ty_min_ack_delay then
    match tp_varint_decode (r_s r) ok v with
    | (n, ok, s) =>
      let s := set_rem s FMinAckDelay n in
      if ok && ((n =? 0) || (16777215 <? n)) then RNext (rx_s r (conn_error s 10)) false
      else RNext (rx_s r (if 0 <? tp_n (s_local s) FMinAckDelay then with_af s else s)) ok
    end
  else if t =? ty_time_stamp then
    match tp_varint_decode (r_s r) ok v with
    | (n, true, s) =>
      if (n <? 1) || (3 <? n) then RNext (rx_s r (conn_error s 8)) false
      else RNext (rx_s r (set_rem s FTimeStamp n)) true
    | (_, false, s) => RNext (rx_s r s) false
    end
  else if t =? ty_grease then
    if negb (blen v =? 0) then RNext (rx_s r (conn_error (r_s r) 8)) false
    else RNext (rx_s r (set_rem (r_s r) FGrease 1)) ok
  else if t =? ty_max_path_id then
    match tp_varint_decode (set_rem (r_s r) FMultipath 1) ok v with
    | (n, ok, s) => RNext (rx_s r (set_rem s FMaxPathId n)) ok
    end
  else if t =? ty_version then
    match tp_version_decode from_server (version_of (s_vi (r_s r))) v with
    | inl e => RNext (rx_s r (conn_error (r_s r) e)) false
    | inr o =>
      let s := with_vn (r_s r) in
      match o with
      | Some (vn, i) =>
        if negb (vn =? 0) && negb (s_vi s =? i) then
          match process_version_upgrade fuel (s_vi s) i with
          | UYes => RNext (rx_s r (with_vi s i)) true
          | UNo => RNext (rx_s r s) false
          | UFuel => RHang
          end
        else RNext (rx_s r s) ok
      | None => RNext (rx_s r s) ok
      end
    end
  else if t =? ty_bdp then
    match tp_varint_decode (r_s r) ok v with
    | (n, true, s) =>
      if 1 <? n then RNext (rx_s r (conn_error s 8)) false else RNext (rx_s r (set_rem s FBdp n)) true
    | (_, false, s) => RNext (rx_s r s) false
    end
  else if t =? ty_address then
    match tp_varint_decode (r_s r) ok v with
    | (n, true, s) =>
      if 2 <? n then RNext (rx_s r (conn_error s 8)) false
      else
        let loc := tp_n (s_local s) FAddress in
        RNext (rx_s r (with_address (set_rem s FAddress (n + 1))
                         (negb (N.land (n + 1) 2 =? 0) && negb (N.land loc 1 =? 0))
                         (negb (N.land (n + 1) 1 =? 0) && negb (N.land loc 2 =? 0)))) true
    | (_, false, s) => RNext (rx_s r s) false
    end
  else RNext r ok.

(** picoquic/transport.c 561-573: the test of duplicates, for types below 64. *)
Definition rx_param (fuel : nat) (g : tcfg) (from_server : bool) (r : rx) (t : N) (v : list N) : rres :=
  if t <? 64 then
    if existsb (N.eqb t) (r_present r) then
      rx_switch fuel g from_server (rx_s r (conn_error (r_s r) 8)) false t v
    else rx_switch fuel g from_server (mk_rx (r_s r) (t :: r_present r) (r_ocid r) (r_hcid r) (r_rcid r)) true t v
  else rx_switch fuel g from_server r true t v.

(** picoquic/transport.c 546-851, the loop: [fuel] bounds the number of parameters.  After
    the type, the length is read where the type ends (at the same place when the type is
    truncated). *)
Fixpoint rx_loop (n fuel : nat) (g : tcfg) (from_server : bool) (r : rx) (bytes : list N) : rres :=
  match n with
  | O => RHang
  | S n =>
    match bytes with
    | [] => RNext r true
    | _ =>
      if blen bytes <? 2 then RNext (rx_s r (conn_error (r_s r) 8)) false
      else
        match varint_decode bytes with
        | Ok (lt, t) =>
          let b1 := skipn (N.to_nat lt) bytes in
          match varint_decode b1 with
          | Ok (ll, len) =>
            let b2 := skipn (N.to_nat ll) b1 in
            if (lt =? 0) || (ll =? 0) || (blen b2 <? len) then RNext (rx_s r (conn_error (r_s r) 8)) false
            else
              match rx_param fuel g from_server r t (firstn (N.to_nat len) b2) with
              | RNext r true => rx_loop n fuel g from_server r (skipn (N.to_nat len) b2)
              | res => res
              end
          | _ => RHang
          end
        | _ => RHang
        end
    end
  end.

(** What is computed from the parameters (picoquic/transport.c 842-982): idle_timeout,
    keep_alive_interval, is_multipath_enabled, max_path_id_acknowledged, max_path_id_remote,
    max_path_id_local, is_loss_bit_enabled_outgoing and _incoming, send_receive_bdp_frame,
    is_time_stamp_enabled, is_time_stamp_sent, do_grease_quic_bit. *)
Record tneg := mk_neg {
  n_idle : N; n_keep : N; n_multi : bool; n_mp_acked : N; n_mp_remote : N; n_mp_local : N;
  n_loss_out : bool; n_loss_in : bool; n_bdp : bool; n_ts_on : bool; n_ts_sent : bool; n_grease : bool }.

(** Result of the reception: the connection, what is negotiated, whether [ret] is 0; or no
    result. *)
Inductive tres := TDone (s : tst) (n : tneg) (ok : bool) | THang.

(** picoquic/transport.c 499-526, 543-546: the values before the parameters are read. *)
Definition rx_start (s : tst) : tst :=
  mk_st (s_local s) (mk_tp (fun f => match f with FExponent => 3 | _ => 0 end) None)
    (s_vi s) (s_hcid s) (s_do_vn s) (s_af s) (s_reset s) (s_error s) 0 0 0 (s_sdr s) (s_provider s) (s_receiver s).

(** Whether a parameter was present ([present_flag & (1ull << t)]). *)
Definition seen (r : rx) (t : N) : bool := existsb (N.eqb t) (r_present r).
(** picoquic/util.c 353-365, picoquic_compare_connection_id != 0. *)
Definition cid_differs (a b : list N) : bool := if list_eq_dec N.eq_dec a b then false else true.

(** picoquic/transport.c 861-873: defaults. *)
Definition rx_defaults (g : tcfg) (r : rx) (ok : bool) : tst :=
  let s := r_s r in
  let s := if ok && negb (seen r ty_ack_delay) then set_rem s FAckDelay 25000 else s in
  if ok && negb (seen r ty_cid_limit) then set_rem s FCidLimit (if blen (g_local_cid g) =? 0 then 0 else 2) else s.

(** picoquic/transport.c 875-936: the parameters that a client must not send, then the
    mandatory ones.  [true] when there is no error. *)
Definition rx_required (g : tcfg) (from_server : bool) (r : rx) (vi : N) : bool :=
  if negb from_server && (seen r ty_reset_token || seen r ty_preferred || seen r ty_original_cid || seen r ty_retry_cid)
  then false
  else if negb (version_of vi =? 4278190107) && negb (seen r ty_handshake_cid) then false
  else if negb from_server then true
  else if seen r ty_handshake_cid then
    if negb (blen (g_original g) =? 0) then
      negb (negb (seen r ty_retry_cid) || negb (seen r ty_original_cid) || cid_differs (g_original g) (r_ocid r)
            || cid_differs (g_initial g) (r_rcid r))
    else negb (seen r ty_retry_cid || negb (seen r ty_original_cid) || cid_differs (g_initial g) (r_ocid r))
  else if version_of vi =? 4278190107 then
    negb (negb (blen (g_original g) =? 0) && (negb (seen r ty_original_cid) || cid_differs (g_original g) (r_ocid r)))
  else true.

(** picoquic/transport.c 842-860, the idle timeout (milliseconds to microseconds, 64 bits;
    no limit is UINT64_MAX) and the keep alive interval. *)
Definition rx_idle (s : tst) : N :=
  let l := tp_n (s_local s) FIdle in
  let m := tp_n (s_remote s) FIdle in
  let t := if (l =? 0) || ((0 <? m) && (m <? l)) then u64 (m * 1000) else u64 (l * 1000) in
  if t =? 0 then max64 else t.
Definition rx_keep (keep idle : N) : N :=
  if negb (idle =? max64) && negb (keep =? 0) && (idle / 2 <? keep) then idle / 2 else keep.

(** picoquic/transport.c 938-982: negotiation of the extensions.  [neg] holds the values
    before; on a server the local parameters follow those of the client. *)
Definition rx_negotiate (g : tcfg) (neg : tneg) (s : tst) (idle : N) (ok : bool) : tst * tneg :=
  let l := tp_n (s_local s) in
  let m := tp_n (s_remote s) in
  let both := negb (m FMultipath =? 0) && negb (l FMultipath =? 0) in
  let multi := if ok then both else n_multi neg in
  let on := ok && both in
  let local1 := if ok && negb both && negb (g_client g) then tp_set (s_local s) FMultipath 0 else s_local s in
  let ts_on := if g_client g then negb (N.land (l FTimeStamp) 1 =? 0) && negb (N.land (m FTimeStamp) 2 =? 0)
               else n_ts_on neg || negb (N.land (m FTimeStamp) 2 =? 0) in
  let ts_sent := if g_client g then negb (N.land (l FTimeStamp) 2 =? 0) && negb (N.land (m FTimeStamp) 1 =? 0)
                 else n_ts_sent neg || negb (N.land (m FTimeStamp) 1 =? 0) in
  let local2 := if negb (g_client g) && negb (m FTimeStamp =? 0) then
                  tp_set local1 FTimeStamp (N.lor (if negb (N.land (m FTimeStamp) 1 =? 0) then 2 else 0)
                                              (if negb (N.land (m FTimeStamp) 2 =? 0) then 1 else 0))
                else local1 in
  let local3 := if g_client g then local2
                else tp_set local2 FGrease (if negb (m FGrease =? 0) && negb (g_one_way g) then 1 else 0) in
  let local4 := if negb (g_client g) && negb (s_af s) then tp_set local3 FMinAckDelay 0 else local3 in
  (with_local s local4,
   mk_neg idle (rx_keep (n_keep neg) idle) multi
     (if on then l FMaxPathId else n_mp_acked neg) (if on then m FMaxPathId else n_mp_remote neg)
     (if on then l FMaxPathId else n_mp_local neg)
     ((1 <? l FLossBit) && (0 <? m FLossBit)) ((0 <? l FLossBit) && (1 <? m FLossBit))
     ((0 <? l FBdp) && (0 <? m FBdp)) ts_on ts_sent
     (if g_client g then negb (l FGrease =? 0) && negb (m FGrease =? 0) else negb (m FGrease =? 0))).

(** picoquic/transport.c 528-984, picoquic_receive_transport_extensions.  The parameters come
    from the server if this endpoint is the client (picoquic/tls_api.c 918).  The caller
    ignores the return value (picoquic/tls_api.c 920-921).  [consumed] is not represented. *)
Definition receive (fuel : nat) (g : tcfg) (s : tst) (neg : tneg) (bytes : list N) : tres :=
  let from_server := g_client g in
  match rx_loop (S (length bytes)) fuel g from_server (mk_rx (rx_start s) [] [] [] []) bytes with
  | RHang => THang
  | RNext r ok =>
    let idle := rx_idle (r_s r) in
    let s1 := rx_defaults g r ok in
    let good := rx_required g from_server r (s_vi s1) in
    let s2 := if ok && negb good then conn_error s1 8 else s1 in
    let (s3, n) := rx_negotiate g neg s2 idle (ok && good) in
    TDone s3 n (ok && good)
  end.
