(** Model of packet headers (definitions only): picoquic/sender.c 511-790 on the sending
    side, picoquic/packet.c 38-488 on the receiving side. *)
From Verif Require Import Base Varint_model Mem PacketNumber_model.

(** picoquic/picoquic_internal.h 265-274, picoquic_packet_type_enum. *)
Inductive ptype := PtError | PtVersion | PtInitial | PtRetry | PtHandshake | Pt0rtt | Pt1rtt.

(** Equality of packet types (comparisons of the enum). *)
Definition ptype_eqb (a b : ptype) : bool :=
  match a, b with
  | PtError, PtError | PtVersion, PtVersion | PtInitial, PtInitial | PtRetry, PtRetry
  | PtHandshake, PtHandshake | Pt0rtt, Pt0rtt | Pt1rtt, Pt1rtt => true
  | _, _ => false
  end.

(** picoquic/quicctx.c 121-241, picoquic_supported_versions, and the version numbers of
    picoquic/picoquic_internal.h 212-224: the version, and whether
    [packet_type_version] is PICOQUIC_V2_VERSION (otherwise PICOQUIC_V1_VERSION). *)
Definition supported_versions : list (N * bool) :=
  [ (1, false); (1798521807, true); (1889161412, true); (4278190114, false); (4278190113, false);
    (4278190112, false); (4278190111, false); (4278190109, false); (4278190110, false);
    (4278190108, false); (4278190107, false); (1346588977, false); (1346588976, false) ].

(** picoquic/quicctx.c 1491-1503, picoquic_get_version_index; [None] is -1. *)
Fixpoint version_index_from (l : list (N * bool)) (i vn : N) : option N :=
  match l with
  | [] => None
  | (v, _) :: r => if v =? vn then Some i else version_index_from r (i + 1) vn
  end.
Definition get_version_index (vn : N) : option N := version_index_from supported_versions 0 vn.

(** The entry of the table; an index out of the table is undefined. *)
Definition version_entry (vi : N) : option (N * bool) := nth_error supported_versions (N.to_nat vi).

(** * Sending *)

(** picoquic/sender.c 520-573, picoquic_create_long_packet_type. *)
Definition create_long_packet_type (pt : ptype) (version_index : option N) : option N :=
  match version_entry (match version_index with None => 0 | Some i => i end) with
  | None => None
  | Some (_, false) =>
    Some (match pt with PtInitial => 195 | Pt0rtt => 211 | PtHandshake => 227 | PtRetry => 240 | _ => 255 end)
  | Some (_, true) =>
    Some (match pt with PtInitial => 211 | Pt0rtt => 227 | PtHandshake => 243 | PtRetry => 192 | _ => 255 end)
  end.

(** picoquic/util.c 321-331, picoquic_format_connection_id. *)
Definition format_cid (bytes_max : N) (cid : list N) : list N :=
  if bytes_max <? blen cid then [] else cid.

(** picoquic/sender.c 575-643, picoquic_create_long_header: the bytes written, pn_offset
    and pn_length.  [room] is the real size of the buffer: writing beyond it is undefined
    ([None]); the code itself assumes PICOQUIC_MAX_PACKET_SIZE (1536) bytes. *)
Definition create_long_header (pt : ptype) (dcid scid : list N) (grease : bool) (version : N)
    (version_index : option N) (sequence : N) (token : list N) (room : N) : option (list N * N * N) :=
  b0 <~ create_long_packet_type pt version_index ;;
  let first := if grease then N.land b0 191 else b0 in
  let h1 := first :: format_32 version ++ [u8 (blen dcid)] in
  let h2 := h1 ++ format_cid (1536 - blen h1) dcid ++ [u8 (blen scid)] in
  let h3 := h2 ++ format_cid (1536 - blen h2) scid in
  let h4 := if ptype_eqb pt PtInitial
            then h3 ++ varint_encode (1536 - blen h3) (blen token) ++ token else h3 in
  let r := if ptype_eqb pt PtRetry then (h4, 0, 0)
           else (h4 ++ [0; 0] ++ format_32 (u32 sequence), blen h4 + 2, 4) in
  if room <? blen (fst (fst r)) then None else Some r.

(** picoquic/sender.c 511-518, picoquic_update_payload_length, on a packet. *)
Definition update_payload_length (bytes : list N) (pnum_index header_length packet_length : N) : option (list N) :=
  b0 <~ mem_get 0 bytes ;;
  if negb (N.land b0 128 =? 0) && (6 <? header_length) && (header_length <? packet_length) && (packet_length <? 16384)
  then mem_write (pnum_index - 2) (varint_encode_16 (u16 (packet_length - header_length))) bytes
  else Some bytes.

(** What the sender takes from the connection for a header. *)
Record sctx := mk_sctx {
  sc_client : bool;            (* client_mode *)
  sc_key_phase : bool;         (* key_phase_enc *)
  sc_grease : bool;            (* do_grease_quic_bit *)
  sc_grease_byte : N;          (* the random byte of sender.c 670 *)
  sc_spin : N;                 (* result of spinbit_outgoing, picoquic/spinbit.c 36-81: 0 or 0x20 *)
  sc_initial_cid : list N;     (* initial_cnxid *)
  sc_remote0 : list N;         (* remote id of the first tuple of the path *)
  sc_local0 : list N;          (* local id of the first tuple of the path *)
  sc_remote : list N;          (* remote id of the tuple *)
  sc_token : list N;           (* retry_token *)
  sc_version_index : N;
  sc_proposed : option N       (* proposed_version, if the state is client_init or client_init_sent *)
}.

(** picoquic/sender.c 645-724, picoquic_create_packet_header.  In the short header case
    all the writes are inside of [room] or undefined. *)
Definition create_packet_header (c : sctx) (pt : ptype) (sequence header_length room : N) : option (list N * N * N) :=
  if ptype_eqb pt Pt1rtt then
    let k := if sc_key_phase c then 4 else 0 in
    let q := if sc_grease c then N.land 64 (sc_grease_byte c) else 64 in
    let flags := N.lor (N.lor k q) (sc_spin c) in
    let cid := format_cid 1535 (sc_remote c) in
    let pn_l := create_pn_l header_length (blen cid) in
    let h := short_first_byte flags pn_l :: cid ++ pn_bytes pn_l sequence in
    if room <? blen h then None else Some (h, 1 + blen cid, pn_l)
  else
    e <~ version_entry (sc_version_index c) ;;
    let dcid := if sc_client c && (ptype_eqb pt PtInitial || ptype_eqb pt Pt0rtt) && (blen (sc_remote0 c) =? 0)
                then sc_initial_cid c else sc_remote0 c in
    let version := match sc_proposed c with
                   | Some v => if ptype_eqb pt PtInitial then v else fst e
                   | None => fst e
                   end in
    create_long_header pt dcid (sc_local0 c) (sc_grease c) version (Some (sc_version_index c)) sequence (sc_token c) room.

(** picoquic/sender.c 763-787, picoquic_predict_packet_header_length for long headers
    (the short header is [predict_header_length] of PacketNumber_model). *)
Definition predict_long_header_length (c : sctx) (pt : ptype) : N :=
  let dcid := if sc_client c && (ptype_eqb pt PtInitial || ptype_eqb pt Pt0rtt) && (blen (sc_remote0 c) =? 0)
              then sc_initial_cid c else sc_remote0 c in
  1 + 4 + 2 + blen dcid + blen (sc_local0 c) + (2 + 4) +
  (if ptype_eqb pt PtInitial then blen (varint_encode 16 (blen (sc_token c))) + blen (sc_token c) else 0).

(** * Receiving *)

(** The connection data used when parsing: client_mode and version_index,
    local_parameters.do_grease_quic_bit, is_loss_bit_enabled_incoming and _outgoing, and
    the length of the remote id of the first tuple of path 0. *)
Record cdata := mk_cdata {
  cd_client : bool; cd_version_index : N; cd_grease : bool; cd_loss_in : bool; cd_loss_out : bool; cd_remote_len : N
}.

(** The context: local_cnxid_length and the three ways of finding a connection
    (picoquic_cnx_by_net, picoquic_cnx_by_id, picoquic_cnx_by_icid, picoquic/quicctx.c
    4910-4970), which depend on the tables of the context; the address is fixed. *)
Record lookup := mk_lookup {
  lk_cid_len : N;
  lk_by_net : option cdata;
  lk_by_id : list N -> option cdata;
  lk_by_icid : list N -> option cdata
}.

(** picoquic/picoquic_internal.h 281-311, picoquic_packet_header after the parsing of the
    clear text (pn, pnmask, pn64 and has_reserved_bit_set are then 0; l_cid is not
    modelled).  Epochs: initial 0, 0-RTT 1, handshake 2, 1-RTT 3; packet contexts:
    application 0, handshake 1, initial 2. *)
Record phdr := mk_ph {
  ph_type : ptype; ph_vn : N; ph_vi : option N; ph_dcid : list N; ph_scid : list N; ph_token : list N;
  ph_offset : N; ph_pn_offset : N; ph_payload : N; ph_pl_val : N; ph_epoch : N; ph_pc : N;
  ph_key_phase : bool; ph_spin : bool; ph_has_spin : bool; ph_has_loss : bool; ph_loss_l : bool; ph_loss_q : bool;
  ph_qbit_zero : bool
}.

(** Result of the parsing: return code -1 ([PFail]), PICOQUIC_ERROR_VERSION_NOT_SUPPORTED
    with the version, or 0 with the header and the connection.  What the header contains
    in the first two cases is not modelled, except the version. *)
Inductive presult := PFail | PBadVersion (vn : N) | POk (ph : phdr) (cnx : option cdata).

(** picoquic/packet.c 38-83, picoquic_parse_long_packet_type. *)
Definition parse_long_packet_type (flags vi : N) : option ptype :=
  match version_entry vi with
  | None => None
  | Some (_, v2) =>
    let t := N.land (N.shiftr flags 4) 3 in
    Some (if v2 then
            if t =? 1 then PtInitial else if t =? 2 then Pt0rtt else if t =? 3 then PtHandshake else PtRetry
          else
            if t =? 0 then PtInitial else if t =? 1 then Pt0rtt else if t =? 2 then PtHandshake else PtRetry)
  end.

(** picoquic/util.c 830-845, picoquic_frames_cid_decode on a header filled with zeros. *)
Definition cid_decode : reader (list N) := fun l =>
  match l with
  | [] => None
  | n :: r => if (20 <? n) || (blen r <? n) then None else Some (firstn (N.to_nat n) r, skipn (N.to_nat n) r)
  end.

(** picoquic/packet.c 347-363, the connection of a well formed long header packet. *)
Definition find_long (lk : lookup) (pt : ptype) (dcid : list N) : option cdata :=
  if lk_cid_len lk =? 0 then lk_by_net lk
  else
    match (if blen dcid =? lk_cid_len lk then lk_by_id lk dcid else None) with
    | Some c => Some c
    | None => if ptype_eqb pt PtInitial || ptype_eqb pt Pt0rtt then lk_by_icid lk dcid else None
    end.

(** picoquic/packet.c 235-243 and 372-381, the connection of a version negotiation packet
    or of a malformed one. *)
Definition find_other (lk : lookup) (dcid : list N) : option cdata :=
  if lk_cid_len lk =? 0 then lk_by_net lk
  else if blen dcid =? lk_cid_len lk then lk_by_id lk dcid else None.

(** *pcnx is looked for only if it is not known. *)
Definition or_find (cnx found : option cdata) : option cdata :=
  match cnx with Some _ => cnx | None => found end.

(** [length > offset ? length - offset : 0], cast to uint16_t. *)
Definition rest_16 (length offset : N) : N := u16 (if offset <? length then length - offset else 0).

(** picoquic/packet.c 200-384, picoquic_parse_long_packet_header.  [None] is an access
    outside of the version table. *)
Definition parse_long (lk : lookup) (bytes : list N) (cnx : option cdata) : option presult :=
  let length := blen bytes in
  match frames_uint8_decode bytes with
  | None => Some PFail
  | Some (flags, r1) =>
    match frames_uint32_decode r1 with
    | None => Some PFail
    | Some (vn, r2) =>
      let vi := get_version_index vn in
      match (if vn =? 0 then Some None else match vi with None => None | Some i => Some (Some i) end) with
      | None => Some (PBadVersion vn)
      | Some ovi =>
        match cid_decode r2 with
        | None => Some PFail
        | Some (dcid, r3) =>
          match cid_decode r3 with
          | None => Some PFail
          | Some (scid, r4) =>
            let offset := length - blen r4 in
            match ovi with
            | None =>
              let payload := rest_16 length offset in
              Some (POk (mk_ph PtVersion vn None dcid scid [] offset 0 payload payload 0 2
                           false false false false false false false)
                        (or_find cnx (find_other lk dcid)))
            | Some i =>
              pt <~ parse_long_packet_type flags i ;;
              let qzero := N.land flags 64 =? 0 in
              (* type, context, token, what is left and the offset after the switch *)
              let '(pt2, pc, epoch, token, r5, offset2) :=
                match pt with
                | PtInitial =>
                  match frames_varlen_decode r4 with
                  | None => (PtError, 0, 0, [], [], length)
                  | Some (tok_len, r) =>
                    if blen r <? tok_len then (PtError, 0, 0, [], [], length)
                    else (PtInitial, 2, 0, firstn (N.to_nat tok_len) r, skipn (N.to_nat tok_len) r,
                          length - blen (skipn (N.to_nat tok_len) r))
                  end
                | Pt0rtt => (Pt0rtt, 0, 1, [], r4, offset)
                | PtHandshake => (PtHandshake, 1, 2, [], r4, offset)
                | _ => (pt, 2, 0, [], r4, offset)
                end in
              (* type, payload length of the packet, its field if it is set on error, rest *)
              let '(pt3, plen, perr, r6) :=
                match pt2 with
                | PtRetry => if offset2 <? length then (PtRetry, length - offset2, 0, r5) else (PtError, 0, 0, r5)
                | PtError => (PtError, 0, 0, r5)
                | _ =>
                  match frames_varlen_decode r5 with
                  | None => (PtError, 0, rest_16 length offset2, r5)
                  | Some (n, r) => if blen r <? n then (PtError, 0, rest_16 length offset2, r) else (pt2, n, 0, r)
                  end
                end in
              if ptype_eqb pt3 PtError then
                Some (POk (mk_ph PtError vn (Some i) dcid scid token offset2 0 perr perr epoch pc
                             false false false false false false qzero)
                          (or_find cnx (find_other lk dcid)))
              else
                let offset3 := length - blen r6 in
                let found := or_find cnx (find_long lk pt3 dcid) in
                let pt4 := if qzero && match found with Some c => negb (cd_grease c) | None => false end
                           then PtError else pt3 in
                Some (POk (mk_ph pt4 vn (Some i) dcid scid token offset3 offset3 (u16 plen) (u16 plen) epoch pc
                             false false false false false false qzero) found)
            end
          end
        end
      end
    end
  end.

(** picoquic/util.c 333-343, picoquic_parse_connection_id: the id and its length. *)
Definition parse_cid (bytes : list N) (len : N) : option (list N) :=
  if len <=? 20 then mem_read 0 len bytes else Some [].

(** One bit of a byte. *)
Definition bit (b n : N) : bool := negb (N.land (N.shiftr b n) 1 =? 0).

(** picoquic/packet.c 386-463, picoquic_parse_short_packet_header.  Casts to int of the
    length are exact for datagrams. *)
Definition parse_short (lk : lookup) (bytes : list N) (cnx : option cdata) (receiving : bool) : option presult :=
  let length := blen bytes in
  let cid_len := match cnx with
                 | Some c => if receiving then lk_cid_len lk else cd_remote_len c
                 | None => lk_cid_len lk
                 end in
  b0 <~ mem_get 0 bytes ;;
  r1 <~ (if 1 + cid_len <=? length then
           dcid <~ parse_cid (skipn 1 bytes) cid_len ;;
           Some (dcid, 1 + blen dcid,
                 or_find cnx (if 0 <? lk_cid_len lk then lk_by_id lk dcid else lk_by_net lk))
         else Some ([], length, cnx)) ;;
  let '(dcid, offset, found) := r1 in
  match found with
  | Some c =>
    let loss := if receiving then cd_loss_in c else cd_loss_out c in
    let qzero := N.land b0 64 =? 0 in
    if negb (negb qzero || cd_grease c) || (length <? offset) then Some PFail
    else
      Some (POk (mk_ph Pt1rtt 0 (Some (cd_version_index c)) dcid [] [] offset offset (u16 (length - offset)) 0 3 0
                   (bit b0 2) (bit b0 5) true loss (loss && bit b0 3) (loss && bit b0 4) qzero) found)
  | None =>
    Some (POk (mk_ph Pt1rtt 0 None dcid [] [] offset 0 (rest_16 length offset) 0 0 0
                 false false false false false false false) None)
  end.

(** picoquic/packet.c 465-487, picoquic_parse_packet_header. *)
Definition parse_header (lk : lookup) (bytes : list N) (cnx : option cdata) (receiving : bool) : option presult :=
  b0 <~ mem_get 0 bytes ;;
  if N.land b0 128 =? 128 then parse_long lk bytes cnx else parse_short lk bytes cnx receiving.
