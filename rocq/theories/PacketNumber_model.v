(** Model of packet number truncation and restoration (definitions only). *)
From Verif Require Import Base Varint_model.

(** picoquic/packet.c 491-514, picoquic_get_packet_number64.  All the
    arithmetic is on uint64_t, so every operation wraps at 2^64;
    [not_mask_plus_one] is [(~mask) + 1]. *)
Definition get_packet_number64 (highest mask pn : N) : N :=
  let expected := u64 (highest + 1) in
  let not_mask_plus_one := u64 ((max64 - mask) + 1) in
  let pn64 := N.lor (N.land expected mask) pn in
  if pn64 <? expected then
    let delta1 := expected - pn64 in
    let delta2 := u64 (not_mask_plus_one + two64 - delta1) in
    if delta2 <? delta1 then u64 (pn64 + not_mask_plus_one) else pn64
  else
    let delta1 := pn64 - expected in
    let delta2 := u64 (not_mask_plus_one + two64 - delta1) in
    if (delta2 <=? delta1) && (0 <? N.land pn64 mask)
    then u64 (pn64 + two64 - not_mask_plus_one) else pn64.

(** picoquic/packet.c 556-567, the loop of picoquic_remove_header_protection_inner
    that reads [pn_l] bytes into the uint32_t [pn_val] and shifts [pnmask];
    the bytes are those obtained after removing the header protection mask
    (packet.c 563), which is abstracted.  [None] is a read past the end. *)
Fixpoint read_pn (pn_l : nat) (pn_val pnmask : N) (bytes : list N) : option (N * N) :=
  match pn_l with
  | O => Some (pn_val, pnmask)
  | S k =>
    match bytes with
    | [] => None
    | b :: r => read_pn k (u32 (u32 (N.shiftl pn_val 8) + b)) (u64 (N.shiftl pnmask 8)) r
    end
  end.

(** picoquic/packet.c 556-580: [pn_l = (first_byte & 3) + 1], the loop, and the
    restoration against the last number of the sack list. *)
Definition restore_pn (first_byte sack_list_last : N) (bytes : list N) : option N :=
  match read_pn (N.to_nat (N.land first_byte 3 + 1)) 0 max64 bytes with
  | None => None
  | Some (pn, mask) => Some (get_packet_number64 sack_list_last mask pn)
  end.

(** picoquic/sender.c 742-757, picoquic_predict_packet_header_length for 1RTT
    packets: [delta] is an int64_t; [pending_first] is the sequence number at
    the head of the retransmission queue, if any. *)
Definition predict_pn_l (send_sequence : N) (pending_first : option N) : N :=
  let delta := match pending_first with
               | None => Z.of_N send_sequence
               | Some p => (Z.of_N send_sequence - Z.of_N p)%Z
               end in
  if (delta <? 262144)%Z then
    if send_sequence <? 1024 then
      if send_sequence <? 16 then 1 else 2
    else 3
  else 4.

(** picoquic/sender.c 760: predicted header length; [cid0_len] is the length of
    the remote connection id of the first tuple of path 0. *)
Definition predict_header_length (cid0_len send_sequence : N) (pending_first : option N) : N :=
  1 + cid0_len + predict_pn_l send_sequence pending_first.

(** picoquic/sender.c 672-683, picoquic_create_packet_header for 1RTT packets:
    the packet number length deduced from the predicted header length;
    [cid_len] is the length of the remote connection id of the tuple used. *)
Definition create_pn_l (header_length cid_len : N) : N :=
  let length := 1 + cid_len in
  if (length <? header_length) && (header_length <? length + 4)
  then header_length - length else 4.

(** picoquic/sender.c 684-697: the truncated packet number. *)
Definition pn_bytes (pn_l sequence_number : N) : list N :=
  if pn_l =? 1 then [u8 sequence_number]
  else if pn_l =? 2 then format_16 (u16 sequence_number)
  else if pn_l =? 3 then format_24 (u32 sequence_number)
  else format_32 (u32 sequence_number).

(** picoquic/sender.c 666 and 683: the first byte of a short header; [flags]
    stands for the key phase, QUIC and spin bits, which leave the two low bits
    clear. *)
Definition short_first_byte (flags pn_l : N) : N := N.lor flags (pn_l - 1).
