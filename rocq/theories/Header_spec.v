(** Specification of packet headers, from RFC 9000 section 17 and RFC 9369 section 3.2,
    independent of the model's reading and writing functions. *)
From Verif Require Import Base Varint_spec Header_model.

(** The four bytes of a 32-bit number, most significant first. *)
Definition be32 (v : N) : list N :=
  [v / 16777216 mod 256; v / 65536 mod 256; v / 256 mod 256; v mod 256].

(** The types of packets that carry a length and a packet number. *)
Definition numbered (pt : ptype) : Prop := pt = PtInitial \/ pt = Pt0rtt \/ pt = PtHandshake.

(** RFC 9000 table 5 and RFC 9369 section 3.2: the two type bits. *)
Definition type_bits (v2 : bool) (pt : ptype) : N :=
  match v2, pt with
  | false, PtInitial => 0 | false, Pt0rtt => 1 | false, PtHandshake => 2 | false, _ => 3
  | true, PtInitial => 1 | true, Pt0rtt => 2 | true, PtHandshake => 3 | true, _ => 0
  end.

(** Encryption level and number space of each type: RFC 9000 section 12.3, with the
    numbers used by the code (picoquic_epoch_enum, picoquic_packet_context_enum). *)
Definition epoch_of (pt : ptype) : N := match pt with PtInitial => 0 | Pt0rtt => 1 | PtHandshake => 2 | _ => 3 end.
Definition space_of (pt : ptype) : N := match pt with PtInitial => 2 | PtHandshake => 1 | _ => 0 end.

(** RFC 9000 section 17.2: a long header up to and including the source connection id,
    with the fixed bit [q] and the low four bits [low]. *)
Definition long_start (v2 : bool) (pt : ptype) (q : bool) (low vn : N) (dcid scid : list N) : list N :=
  (128 + (if q then 64 else 0) + 16 * type_bits v2 pt + low) ::
  be32 vn ++ [blen dcid] ++ dcid ++ [blen scid] ++ scid.

(** RFC 9000 sections 17.2.2 to 17.2.4: the rest of the header up to the packet number,
    with some encodings of the lengths. *)
Definition long_rest (pt : ptype) (token : list N) (plen : N) (rest : list N) : Prop :=
  exists t p, rest = t ++ p /\ is_varint plen p /\
    match pt with
    | PtInitial => exists l, t = l ++ token /\ is_varint (blen token) l
    | _ => t = []
    end.

(** What is taken as a valid fixed bit: a clear bit is only accepted by connections that
    have negotiated it (RFC 9287), or if there is no connection yet. *)
Definition fixed_bit_ok (q : bool) (cnx : option cdata) : bool :=
  q || match cnx with Some c => cd_grease c | None => true end.

(** The destination id and the version that a sender puts in a long header, as in RFC
    9000 sections 7.2 and 5.2 (stated apart from the model's [create_packet_header]). *)
Definition dest_of (c : sctx) (pt : ptype) : list N :=
  match sc_remote0 c with
  | [] => if sc_client c then match pt with PtInitial | Pt0rtt => sc_initial_cid c | _ => [] end else []
  | l => l
  end.

Record sender_ok (c : sctx) (vn : N) (v2 : bool) : Prop := {
  so_version : version_entry (sc_version_index c) = Some (vn, v2);
  so_proposed : sc_proposed c = None \/ sc_proposed c = Some vn;
  so_remote0 : blen (sc_remote0 c) <= 20;
  so_local0 : blen (sc_local0 c) <= 20;
  so_initial : blen (sc_initial_cid c) <= 20;
  so_remote : blen (sc_remote c) <= 20;
  so_token : blen (sc_token c) < two62
}.

(** The first byte of a short header, RFC 9000 section 17.3.1. *)
Definition short_first (q spin key : bool) (low : N) : N :=
  (if q then 64 else 0) + (if spin then 32 else 0) + (if key then 4 else 0) + low.

(** The fixed bit of a short header. *)
Definition fixed_bit (c : sctx) : bool := if sc_grease c then N.testbit (sc_grease_byte c) 6 else true.

(** The connection that the receiver finds for a short header. *)
Definition find_short (lk : lookup) (dcid : list N) : option cdata :=
  match dcid with [] => lk_by_net lk | _ => lk_by_id lk dcid end.

(** The result of reading a header designates a packet inside of the datagram, with
    connection ids that fit in their structures. *)
Definition header_in (bytes : list N) (r : presult) : Prop :=
  match r with
  | POk ph cnx => blen (ph_dcid ph) <= 20 /\ blen (ph_scid ph) <= 20 /\
      ph_pn_offset ph <= ph_offset ph /\ ph_offset ph + ph_payload ph <= blen bytes /\
      (numbered (ph_type ph) \/ ph_type ph = Pt1rtt /\ cnx <> None -> 1 <= ph_offset ph /\ ph_pn_offset ph = ph_offset ph)
  | _ => True
  end.
