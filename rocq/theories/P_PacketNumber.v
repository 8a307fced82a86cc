(** Property C09: truncated packet numbers are restored exactly. *)
From Verif Require Import Base PacketNumber_model PacketNumber_proofs.

(** For every encoding length of 1 to 4 bytes: if the true number [n] is within
    half a window of the next expected number [last + 1], the receiver restores
    [n] from the bytes that the sender wrote ([flags]: the other bits of the
    first byte). *)
Theorem C09_restore_exact : forall flags pn_l n last rest,
  N.land flags 3 = 0 -> 1 <= pn_l <= 4 -> n < 2 ^ 62 -> last < 2 ^ 64 - 1 ->
  last + 1 <= n + 256 ^ pn_l / 2 -> n < last + 1 + 256 ^ pn_l / 2 ->
  restore_pn (short_first_byte flags pn_l) last (pn_bytes pn_l n ++ rest) = Some n.
Proof. exact restore_pn_correct. Qed.
Print Assumptions C09_restore_exact.

Example C09_restore_exact_ex :
  2821815754 + 1 <= 2821848374 + 256 ^ 2 / 2 /\ 2821848374 < 2821815754 + 1 + 256 ^ 2 / 2 /\
  restore_pn (short_first_byte 64 2) 2821815754 (pn_bytes 2 2821848374) = Some 2821848374.
Proof. vm_compute. repeat split; discriminate. Qed.

(** The length chosen by the sender is sufficient for every receiver whose
    highest received number is at most 2^22 packets below the oldest packet
    still waiting for an acknowledgement, and at most 2^31 below the new
    packet; in particular for every receiver when less than 2^22 packets were
    sent. *)
Theorem C09_sender_length_sufficient : forall flags cid_len s pending_first last rest,
  N.land flags 3 = 0 -> s < 2 ^ 62 -> last <= s ->
  match pending_first with
  | None => s < last + 2 ^ 31
  | Some p => p <= s /\ p <= last + 2 ^ 22 /\ s < last + 2 ^ 31
  end ->
  let pn_l := create_pn_l (predict_header_length cid_len s pending_first) cid_len in
  restore_pn (short_first_byte flags pn_l) last (pn_bytes pn_l s ++ rest) = Some s.
Proof. exact sender_choice_sufficient. Qed.
Print Assumptions C09_sender_length_sufficient.

Example C09_sender_length_sufficient_ex :
  create_pn_l (predict_header_length 8 5000000 (Some 4999000)) 8 = 3 /\
  4999000 <= 4998999 + 2 ^ 22 /\ 5000000 < 4998999 + 2 ^ 31.
Proof. vm_compute. repeat split; discriminate. Qed.

(** Without that restriction the claim is false: the oldest pending packet
    advances also by packets declared lost, so that after a long run of losses
    the sender uses three bytes although the receiver is far behind. *)
Theorem C09_long_loss_run_refuted : exists flags cid_len s p last,
  N.land flags 3 = 0 /\ last <= s /\ p <= s /\
  let pn_l := create_pn_l (predict_header_length cid_len s (Some p)) cid_len in
  restore_pn (short_first_byte flags pn_l) last (pn_bytes pn_l s) <> Some s.
Proof. exact sender_choice_lost_run. Qed.
Print Assumptions C09_long_loss_run_refuted.

(** It is also false when the destination connection id in use is longer than
    the one of path 0: the header length is predicted with the latter and the
    packet number loses the difference, even though the receiver has received
    everything below the oldest pending packet. *)
Theorem C09_cid_length_mismatch_refuted : exists flags cid0_len cid_len s p last,
  N.land flags 3 = 0 /\ p <= s /\ p <= last + 1 /\ last <= s /\
  let pn_l := create_pn_l (predict_header_length cid0_len s (Some p)) cid_len in
  restore_pn (short_first_byte flags pn_l) last (pn_bytes pn_l s) <> Some s.
Proof. exact cid_length_mismatch. Qed.
Print Assumptions C09_cid_length_mismatch_refuted.
