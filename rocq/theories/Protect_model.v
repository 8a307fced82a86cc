(** Model of packet protection (definitions only): picoquic/sender.c 808-930 and
    picoquic/packet.c 519-605 and 760-876, for one key.  The header protection cipher and
    the AEAD are parameters; the multipath nonce, key rotation and fuzzing are not
    modelled here. *)
From Verif Require Import Base Varint_model Mem PacketNumber_model Header_model.

(** The ciphers: [cy_mask] computes the five bytes of mask from a sample
    (picoquic_pn_encrypt), [cy_enc] and [cy_dec] take the packet number, the authenticated
    data and the text (picoquic_aead_encrypt_generic and _decrypt_generic; [None] is a
    returned length larger than the input). *)
Record crypto := mk_crypto {
  cy_mask : list N -> list N;
  cy_enc : N -> list N -> list N -> list N;
  cy_dec : N -> list N -> list N -> option (list N)
}.

(** Exclusive or of two areas. *)
Fixpoint xor_bytes (a m : list N) : list N :=
  match a, m with
  | x :: r, y :: s => N.lxor x y :: xor_bytes r s
  | _, _ => a
  end.

(** picoquic/sender.c 808-829, picoquic_protect_packet_header, with a sample of 16
    bytes. *)
Definition protect_packet_header (cy : crypto) (buf : list N) (pn_offset first_mask : N) : option (list N) :=
  sample <~ mem_read (pn_offset + 4) 16 buf ;;
  let mask := cy_mask cy sample in
  b0 <~ mem_get 0 buf ;;
  let pn_l := N.land b0 3 + 1 in
  buf1 <~ mem_write 0 [N.lxor b0 (N.land (nth 0 mask 0) first_mask)] buf ;;
  pn <~ mem_read pn_offset pn_l buf1 ;;
  mem_write pn_offset (xor_bytes pn (firstn (N.to_nat pn_l) (skipn 1 mask))) buf1.

(** picoquic/sender.c 430-440, picoquic_pad_to_target_length: the payload is what follows
    the (predicted) header. *)
Definition pad_payload (payload : list N) (header_length target : N) : list N :=
  if header_length + blen payload <? target
  then payload ++ mem_fill 0 (target - (header_length + blen payload)) else payload.

(** picoquic/sender.c 831-930, picoquic_protect_packet, with a checksum of 16 bytes: the
    datagram.  [loss] are the values of the loss bits Q and L, if they are enabled
    (sender.c 873-886); [room] is the size of the send buffer. *)
Definition protect_packet (c : sctx) (cy : crypto) (pt : ptype) (sequence : N) (payload : list N)
    (header_length : N) (loss : option (bool * bool)) (room : N) : option (list N) :=
  h <~ create_packet_header c pt sequence header_length room ;;
  let '(hb, pn_offset, pn_length) := h in
  let h_length := blen hb in
  let payload1 := pad_payload payload header_length (pn_offset + 4 + 16 - 16) in
  b0 <~ mem_get 0 hb ;;
  let b0' := if ptype_eqb pt Pt1rtt then
               match loss with
               | Some (q, l) => N.lor (N.lor b0 (if q then 16 else 0)) (if l then 8 else 0)
               | None => b0
               end
             else b0 in
  let first_mask := if ptype_eqb pt Pt1rtt then match loss with Some _ => 7 | None => 31 end else 15 in
  hb1 <~ mem_write 0 [b0'] hb ;;
  hb2 <~ update_payload_length hb1 pn_offset (h_length - pn_length) (header_length + blen payload1 + 16) ;;
  let packet := hb2 ++ cy_enc cy sequence hb2 payload1 in
  if room <? blen packet then None else protect_packet_header cy packet pn_offset first_mask.

(** Result of removing the header protection: the header bytes (which are authenticated),
    the truncated and the full packet number, the payload, the key phase and whether a
    reserved bit is set. *)
Record opened := mk_opened {
  op_header : list N; op_pn64 : N; op_payload_offset : N; op_payload_length : N;
  op_key_phase : bool; op_reserved : bool
}.

(** picoquic/packet.c 519-605, picoquic_remove_header_protection_inner with a key
    ([bytes] has [length] bytes in the packet): [None] is an access outside of an array,
    [Some None] the case where the sample does not fit (the packet number is then not
    set and the authenticated data are left uninitialised; it is treated as undecipherable).
    [room] is the size of [decrypted_bytes] (1536). *)
Definition remove_header_protection (cy : crypto) (bytes : list N) (length : N) (ph : phdr) (loss_in : bool)
    (sack_list_last room : N) : option (option opened) :=
  let pn_offset := ph_pn_offset ph in
  let sample_offset := pn_offset + 4 in
  if length <? sample_offset + 16 then Some None
  else
    b0 <~ mem_get 0 bytes ;;
    let first_mask := if N.land b0 128 =? 128 then 15 else if loss_in then 7 else 31 in
    sample <~ mem_read sample_offset 16 bytes ;;
    let mask := cy_mask cy sample in
    head <~ mem_read 0 pn_offset bytes ;;
    let first := N.lxor b0 (N.land (nth 0 mask 0) first_mask) in
    let pn_l := N.land first 3 + 1 in
    pn <~ mem_read (ph_offset ph) pn_l bytes ;;
    let pn_clear := xor_bytes pn (firstn (N.to_nat pn_l) (skipn 1 mask)) in
    if room <? ph_offset ph + pn_l then None
    else
      pn64 <~ restore_pn first sack_list_last pn_clear ;;
      Some (Some (mk_opened
        (match head with [] => pn_clear | _ :: r => (first :: r) ++ pn_clear end)
        pn64 (ph_offset ph + pn_l) (ph_payload ph - pn_l)
        (if ptype_eqb (ph_type ph) Pt1rtt then bit first 2 else ph_key_phase ph)
        (if N.land first 128 =? 0 then negb loss_in && negb (N.land first 24 =? 0) else negb (N.land first 12 =? 0)))).

(** What comes out of a packet. *)
Inductive unprotected :=
| UnFail                                        (* no packet, or not deciphered *)
| UnClear (ph : phdr)                           (* version negotiation, retry, malformed *)
| UnUnknown (ph : phdr)                         (* no connection *)
| UnOk (ph : phdr) (o : opened) (text : list N) (consumed : N).

(** picoquic/packet.c 760-876, picoquic_parse_header_and_decrypt, for a packet of a
    connection of which the keys are [cy]: header, protection, decryption.  Not modelled
    here: the screening of the first Initial packet of a connection (packet.c 793-797,
    see Segment_model), the minimal size of later ones (798-801), the version upgrade of a client
    (806-813; a packet of another version is refused), the choice of keys by
    picoquic_remove_packet_protection (626-758), duplicates and stateless resets.  [room]
    is the size of [decrypted_data->data]. *)
Definition unprotect_packet (lk : lookup) (cy : crypto) (bytes : list N) (sack_list_last room : N) : option unprotected :=
  r <~ parse_header lk bytes None true ;;
  match r with
  | PFail | PBadVersion _ => Some UnFail
  | POk ph cnx =>
    match ph_type ph with
    | PtVersion | PtRetry | PtError => if room <? blen bytes then None else Some (UnClear ph)
    | _ =>
      match cnx with
      | None => Some (UnUnknown ph)
      | Some c =>
        if negb (match ph_vi ph with Some i => i =? cd_version_index c | None => false end) then Some UnFail
        else
          let length := ph_offset ph + ph_payload ph in
          o <~ remove_header_protection cy bytes length ph (cd_loss_in c) sack_list_last room ;;
          match o with
          | None => Some UnFail
          | Some op =>
            cipher <~ mem_read (op_payload_offset op) (op_payload_length op) bytes ;;
            if room <? op_payload_offset op + (op_payload_length op - 16) then None
            else
              match cy_dec cy (op_pn64 op) (op_header op) cipher with
              | None => Some UnFail
              | Some text => Some (UnOk ph op text length)
              end
          end
      end
    end
  end.
