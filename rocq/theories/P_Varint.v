(** Property C08: variable-length integers. *)
From Verif Require Import Base Varint_model Varint_spec Varint_proofs.

(** Encoding writes the shortest encoding when it fits the room, and fails
    exactly when not even the shortest encoding fits. *)
Theorem C08_encode_shortest : forall n room, n < 2 ^ 62 ->
  (exists p, frames_varint_encode n room = Some p /\ is_varint n p /\ blen p <= room /\
     (forall q, is_varint n q -> blen p <= blen q))
  \/ (frames_varint_encode n room = None /\ forall q, is_varint n q -> room < blen q).
Proof. exact frames_varint_encode_spec. Qed.
Print Assumptions C08_encode_shortest.

Example C08_encode_shortest_ex : 151288809941952652 < 2 ^ 62 /\
  frames_varint_encode 151288809941952652 100 = Some [194;25;124;94;255;20;232;140].
Proof. split; reflexivity. Qed.

(** Decoding what was encoded gives the value back and leaves exactly the
    bytes that follow. *)
Theorem C08_round_trip : forall n room rest, n < 2 ^ 62 ->
  forall p, frames_varint_encode n room = Some p ->
  frames_varint_decode (p ++ rest) = Some (n, rest).
Proof. exact varint_round_trip. Qed.
Print Assumptions C08_round_trip.

Example C08_round_trip_ex : 494878333 < 2 ^ 62 /\
  frames_varint_encode 494878333 4 = Some [157;127;62;125].
Proof. split; reflexivity. Qed.

(** Decoding succeeds exactly on the strings that begin with an encoding, with
    the encoded value, and consumes exactly it. *)
Theorem C08_decode_exact : forall l v rest, bytes_ok l ->
  (frames_varint_decode l = Some (v, rest) <-> exists p, l = p ++ rest /\ is_varint v p).
Proof. exact varint_decode_iff. Qed.
Print Assumptions C08_decode_exact.

Example C08_decode_exact_ex : frames_varint_decode [123; 189; 5] = Some (15293, [5]).
Proof. reflexivity. Qed.

(** The decoder never reads outside the buffer (for any byte values). *)
Theorem C08_decode_in_bounds : forall l, frames_varint_decode_o l <> UB.
Proof. exact frames_varint_decode_o_not_UB. Qed.
Print Assumptions C08_decode_in_bounds.

Example C08_decode_in_bounds_ex : frames_varint_decode_o [192; 1; 2] = Fail.
Proof. reflexivity. Qed.

(** Skipping consumes exactly one encoding, or fails when there is none. *)
Theorem C08_skip_exact : forall l rest, bytes_ok l ->
  (frames_varint_skip l = Some rest <-> exists v p, l = p ++ rest /\ is_varint v p).
Proof. exact frames_varint_skip_iff. Qed.
Print Assumptions C08_skip_exact.

Example C08_skip_exact_ex : frames_varint_skip [64; 1; 9] = Some [9].
Proof. reflexivity. Qed.

(** The second codec (intformat.c) writes the same bytes ... *)
Theorem C08_codecs_agree : forall n room, n < 2 ^ 62 ->
  varint_encode room n =
  match frames_varint_encode n room with Some p => p | None => [] end.
Proof. exact codecs_agree. Qed.
Print Assumptions C08_codecs_agree.

Example C08_codecs_agree_ex : varint_encode 2 15293 = [123; 189].
Proof. reflexivity. Qed.

(** ... and reads with the same meaning, returning the length consumed, or
    zero when the buffer does not begin with a complete encoding; it never
    reads past the end. *)
Theorem C08_second_decode : forall l, bytes_ok l ->
  (exists v p rest, l = p ++ rest /\ is_varint v p /\ varint_decode l = Ok (blen p, v))
  \/ ((forall v p rest, l = p ++ rest -> ~ is_varint v p) /\ varint_decode l = Ok (0, 0)).
Proof. exact varint_decode_spec. Qed.
Print Assumptions C08_second_decode.

Example C08_second_decode_ex : varint_decode [123; 189; 5] = Ok (2, 15293).
Proof. reflexivity. Qed.

(** Outside the range: values of 2^62 and above are silently altered, the
    encoder has no error path for them. *)
Theorem C08_large_values_refuted : exists n p v,
  2 ^ 62 <= n /\ n < 2 ^ 64 /\ frames_varint_encode n 8 = Some p /\
  frames_varint_decode p = Some (v, []) /\ v <> n.
Proof. exact large_varint_lossy. Qed.
Print Assumptions C08_large_values_refuted.

(** The two-byte form used for lengths is an encoding of every value below 2^14. *)
Theorem C08_two_bytes : forall n, n < 16384 ->
  is_varint n (varint_encode_16 n) /\ blen (varint_encode_16 n) = 2.
Proof. exact encode_16_spec. Qed.
Print Assumptions C08_two_bytes.

Example C08_two_bytes_ex : varint_encode_16 1250 = [68; 226] /\ varint_encode_16 37 = [64; 37].
Proof. split; reflexivity. Qed.
