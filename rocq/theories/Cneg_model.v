(** Model of what a client does with the version negotiation and Retry packets of the
    server (definitions only): picoquic/packet.c 889-960 and 1496-1588, tls_api.c
    3063-3080. *)
From Verif Require Import Base Varint_model Mem Header_model.

(** cnx_state (picoquic/picoquic.h 165-184), as far as it is tested. *)
Inductive cphase := CInitSent | CInitResent | COther.

(** The fields of the connection of the client that are used: state, local id of the first
    tuple, initial_cnxid, original_cnxid, proposed_version, version_index, retry_token. *)
Record cstate := mk_cstate {
  ct_phase : cphase; ct_local : list N; ct_initial : list N; ct_original : list N;
  ct_proposed : N; ct_vi : N; ct_token : list N
}.

(** picoquic/util.c 353-365, picoquic_compare_connection_id(...) == 0. *)
Definition same_id (a b : list N) : bool := if list_eq_dec N.eq_dec a b then true else false.

(** The loop of packet.c 927-945 over the proposed versions: their number among those that
    are supported; [None]: PICOQUIC_ERROR_DETECTED. *)
Fixpoint count_versions (proposed : N) (bytes : list N) (nb : N) : option N :=
  match bytes with
  | [] => Some nb
  | _ :: _ :: _ :: _ :: rest =>
    match frames_uint32_decode bytes with
    | None => None
    | Some (vn, _) =>
      if (vn =? proposed) || (vn =? 0) then None
      else count_versions proposed rest (match get_version_index vn with Some _ => nb + 1 | None => nb end)
    end
  | _ => None
  end.

(** The result of picoquic_incoming_version_negotiation: ignored because of the state,
    PICOQUIC_ERROR_DETECTED, or the application is told about [versions] and the connection
    is closed with PICOQUIC_ERROR_VERSION_NEGOTIATION. *)
Inductive vn_result := VnIgnored | VnDetected | VnAbort (versions : list N).

(** picoquic/packet.c 889-960, picoquic_incoming_version_negotiation; [bytes] is the whole
    datagram (a copy). *)
Definition incoming_version_negotiation (ct : cstate) (bytes : list N) (ph : phdr) : vn_result :=
  match ct_phase ct with
  | CInitSent =>
    if negb (same_id (ph_dcid ph) (ct_local ct)) || negb (ph_vn ph =? 0) then VnDetected
    else if negb (same_id (ph_scid ph) (ct_initial ct)) || negb (ph_vn ph =? 0) then VnDetected
    else
      let versions := skipn (N.to_nat (ph_offset ph)) bytes in
      match count_versions (ct_proposed ct) versions 0 with
      | None => VnDetected
      | Some nb => if nb =? 0 then VnDetected else VnAbort versions
      end
  | _ => VnIgnored
  end.

(** picoquic/tls_api.c 3020-3032 and 3063-3080, picoquic_verify_retry_protection: the
    length without the checksum, if the checksum is right.  The AEAD is used with an empty
    text: its output is a checksum of 16 bytes, and the verification recomputes it. *)
Definition verify_retry_protection (tag : N -> list N -> list N) (vi : N) (bytes : list N) (length byte_index : N)
    (odcid : list N) : option (option N) :=
  if byte_index + 16 <? length then
    let l := length - 16 in
    if l + blen odcid + 1 <? 1536 then
      head <~ mem_read 0 l bytes ;;
      sum <~ mem_read l 16 bytes ;;
      if same_id sum (tag vi (blen odcid :: odcid ++ head)) then Some (Some l) else Some None
    else Some None
  else Some None.

(** The result of picoquic_incoming_retry: PICOQUIC_ERROR_UNEXPECTED_PACKET,
    PICOQUIC_ERROR_AEAD_CHECK, or PICOQUIC_ERROR_RETRY with the new state. *)
Inductive retry_result := RtUnexpected | RtAead | RtOk (ct : cstate).

(** picoquic/packet.c 1496-1588, picoquic_incoming_retry.  ph->pn64 is 0 for a Retry
    packet; all the supported versions have a retry key (the branch for those without is
    omitted).  Of picoquic_reset_cnx (quicctx.c 4634-4692) nothing is modelled: the packet
    numbers go on. *)
Definition incoming_retry (tag : N -> list N -> list N) (ct : cstate) (bytes : list N) (ph : phdr) : option retry_result :=
  match ct_phase ct with
  | COther => Some RtUnexpected
  | _ =>
    if negb (blen (ct_original ct) =? 0) then Some RtUnexpected
    else
      e <~ version_entry (ct_vi ct) ;;
      if negb (ph_vn ph =? fst e) then Some RtUnexpected
      else
        o <~ verify_retry_protection tag (ct_vi ct) bytes (ph_offset ph + ph_payload ph) (ph_offset ph) (ct_initial ct) ;;
        match o with
        | None => Some RtAead
        | Some data_length =>
          token <~ mem_read (ph_offset ph) (data_length - ph_offset ph) bytes ;;
          Some (RtOk (mk_cstate (ct_phase ct) (ct_local ct) (ph_scid ph) (ct_initial ct) (ct_proposed ct) (ct_vi ct) token))
        end
  end.

(** What a client does with one of these two packets: the parsing of the header
    (packet.c 465-487) and the dispatch of packet.c 2182-2185 and 2229-2231. *)
Inductive client_result := CrNone | CrVersion (r : vn_result) | CrRetry (r : retry_result).
Definition client_receive (lk : lookup) (tag : N -> list N -> list N) (ct : cstate) (bytes : list N) : option client_result :=
  r <~ parse_header lk bytes None true ;;
  match r with
  | POk ph (Some _) =>
    match ph_type ph with
    | PtVersion => if 1536 <? blen bytes then None else Some (CrVersion (incoming_version_negotiation ct bytes ph))
    | PtRetry =>
      if 1536 <? blen bytes then None
      else r <~ incoming_retry tag ct bytes ph ;; Some (CrRetry r)
    | _ => Some CrNone
    end
  | _ => Some CrNone
  end.
