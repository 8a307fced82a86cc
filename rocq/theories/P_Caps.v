(** Property C58: the capsules of a web transport control stream are received the same however
    the stream is cut; what is heard and refused; and what follows a capsule. *)
From Verif Require Import Base Varint_spec Varint_proofs Qpack_model H3_model H3_spec Caps_model Caps_spec Caps_proofs Capsb_proofs.

(** Examples: CLOSE_WEBTRANSPORT_SESSION with code 258 and message "ok", a datagram, and an
    allocator that gives up to 1000 bytes. *)
Definition ex_close : list N := [104; 67; 6; 0; 0; 1; 2; 111; 107].
Definition ex_alloc (n : N) : bool := n <=? 1000.

(** The events and the result depend only on the bytes of the stream, not on how they were cut. *)
Theorem C58_cut : forall alloc cs1 cs2 l, stream cs1 l -> stream cs2 l ->
  cresult_of (receive_pieces alloc cs1 capsule0) = cresult_of (receive_pieces alloc cs2 capsule0).
Proof. exact caps_cut. Qed.
Print Assumptions C58_cut.

Example C58_cut_ex :
  stream [ex_close] ex_close /\ stream (map (fun b => [b]) ex_close) ex_close /\
  cresult_of (receive_pieces ex_alloc [ex_close] capsule0) = Heard [WEnd 10307 258 [111; 107]] /\
  cresult_of (receive_pieces ex_alloc (map (fun b => [b]) ex_close) capsule0) = Heard [WEnd 10307 258 [111; 107]].
Proof.
  split; [split; [reflexivity |]; split; [repeat constructor | reflexivity] |].
  split; [split; [reflexivity |]; split; [repeat constructor | reflexivity] |].
  split; vm_compute; reflexivity.
Qed.

(** The beginning of a capsule is kept: no event, no error. *)
Theorem C58_waiting : forall alloc cs p, incomplete alloc p -> stream cs p ->
  cresult_of (receive_pieces alloc cs capsule0) = Heard [].
Proof. exact caps_waiting. Qed.
Print Assumptions C58_waiting.

Example C58_waiting_ex : incomplete ex_alloc [104; 67; 6; 0; 0; 1] /\ stream [[104]; [67; 6; 0]; [0; 1]] [104; 67; 6; 0; 0; 1].
Proof.
  split; [| split; [reflexivity |]; split; [repeat constructor | reflexivity]].
  apply (incomplete_value ex_alloc 10307 6 [104; 67] [6] [0; 0; 1]); [| | reflexivity | reflexivity].
  - exists 1. repeat split; repeat constructor.
  - exists 0. repeat split; repeat constructor.
Qed.

(** A datagram, or the end of a session with its code and message, is heard once. *)
Theorem C58_one : forall alloc cs ty x l e, frame_bytes (ty, x) l -> x <> [] -> alloc (blen x) = true -> means ty x e -> stream cs l ->
  cresult_of (receive_pieces alloc cs capsule0) = Heard [e].
Proof. exact caps_one. Qed.
Print Assumptions C58_one.

Example C58_one_ex : frame_bytes (10307, [0; 0; 1; 2; 111; 107]) ex_close /\ ex_alloc 6 = true /\
  means 10307 [0; 0; 1; 2; 111; 107] (WEnd 10307 258 [111; 107]) /\ stream [[104; 67; 6; 0; 0]; [1; 2; 111; 107]] ex_close.
Proof.
  split.
  { exists [104; 67], [6]. split; [exists 1; repeat split; repeat constructor |]. split; [exists 0; repeat split; repeat constructor | reflexivity]. }
  split; [reflexivity |]. split; [apply (means_end 10307 0 0 1 2); right; reflexivity |].
  split; [reflexivity |]. split; [repeat constructor | reflexivity].
Qed.

(** Refused: a capsule that is empty or for which there is no memory, as soon as its length is
    known; and a capsule that stands for no event, as soon as it is complete. *)
Theorem C58_refused : forall alloc cs l, refusable alloc l -> stream cs l ->
  cresult_of (receive_pieces alloc cs capsule0) = Refused [].
Proof. exact caps_refused. Qed.
Print Assumptions C58_refused.

Example C58_refused_ex : refusable ex_alloc [0; 71; 208; 1] /\ refusable ex_alloc [104; 67; 3; 0; 0; 1; 9] /\
  stream [[0; 71]; [208; 1]] [0; 71; 208; 1].
Proof.
  split; [apply (refusable_size ex_alloc 0 2000 [0] [71; 208] [1]); [exists 0 | exists 1 | right; reflexivity]; repeat split; repeat constructor |].
  split.
  { apply (refusable_type ex_alloc 10307 [0; 0; 1] [104; 67; 3; 0; 0; 1] [9]); [| discriminate | reflexivity |].
    - exists [104; 67], [3]. split; [exists 1; repeat split; repeat constructor |]. split; [exists 0; repeat split; repeat constructor | reflexivity].
    - intros e H. inversion H. }
  split; [reflexivity |]. split; [repeat constructor | reflexivity].
Qed.

(** Conversely, if there is no error then the stream holds the beginning of a capsule and
    nothing was heard, or exactly one capsule and its event was heard. *)
Theorem C58_heard : forall alloc cs l es, stream cs l -> cresult_of (receive_pieces alloc cs capsule0) = Heard es ->
  (es = [] /\ incomplete alloc l) \/ exists ty x e, es = [e] /\ frame_bytes (ty, x) l /\ x <> [] /\ means ty x e.
Proof. exact caps_heard. Qed.
Print Assumptions C58_heard.

Example C58_heard_ex : stream [[0]; [2; 5]; [6]] [0; 2; 5; 6] /\
  cresult_of (receive_pieces ex_alloc [[0]; [2; 5]; [6]] capsule0) = Heard [WDatagram [5; 6]].
Proof. split; [split; [reflexivity |]; split; [repeat constructor | reflexivity] | vm_compute; reflexivity]. Qed.

(** Receiving always ends, and there is no access outside of a buffer unless bytes follow a
    capsule that was accepted.  Missing: that case, see C58_second_refuted. *)
Theorem C58_defined_partial : forall alloc cs l, stream cs l ->
  match cresult_of (receive_pieces alloc cs capsule0) with
  | CStuck => False
  | CBroken => exists ty x lf e r, l = lf ++ r /\ frame_bytes (ty, x) lf /\ x <> [] /\ alloc (blen x) = true /\ means ty x e /\ r <> []
  | _ => True
  end.
Proof. exact caps_defined. Qed.
Print Assumptions C58_defined_partial.

Example C58_defined_partial_ex : stream [[255; 255]; [255; 255; 255; 255; 255; 255; 255; 255]] (repeat 255 10) /\
  cresult_of (receive_pieces ex_alloc [[255; 255]; [255; 255; 255; 255; 255; 255; 255; 255]] capsule0) = Heard [].
Proof. split; [split; [reflexivity |]; split; [repeat constructor | reflexivity] | vm_compute; reflexivity]. Qed.

(** The message that closes a session, if it was written, is heard with its code and message. *)
Theorem C58_close : forall alloc cs code msg l, code < 2 ^ 32 -> bytes_ok msg -> close_message code msg = Some l ->
  alloc (4 + blen msg) = true -> stream cs l -> cresult_of (receive_pieces alloc cs capsule0) = Heard [WEnd 10307 code msg].
Proof. exact caps_close. Qed.
Print Assumptions C58_close.

Example C58_close_ex : 258 < 2 ^ 32 /\ bytes_ok [111; 107] /\ close_message 258 [111; 107] = Some ex_close /\
  ex_alloc 6 = true /\ stream [[104; 67; 6]; [0; 0; 1; 2; 111; 107]] ex_close.
Proof.
  split; [reflexivity |]. split; [repeat constructor |]. split; [vm_compute; reflexivity |]. split; [reflexivity |].
  split; [reflexivity |]. split; [repeat constructor | reflexivity].
Qed.

(** As soon as the type and the length of a capsule have arrived, a buffer of that length is
    allocated, whatever the type, before any byte of the value. *)
Theorem C58_memory : forall alloc cs ty n a b, is_varint ty a -> is_varint n b -> n <> 0 -> alloc n = true -> stream cs (a ++ b) ->
  exists c, receive_pieces alloc cs capsule0 = Ret ([], c, true) /\ cp_size c = n /\ cp_vread c = 0 /\ exists buf, cp_buf c = Some buf /\ blen buf = n.
Proof. exact caps_memory. Qed.
Print Assumptions C58_memory.

Example C58_memory_ex : is_varint 33 [33] /\ is_varint 1000 [67; 232] /\ ex_alloc 1000 = true /\ stream [[33; 67]; [232]] ([33] ++ [67; 232]).
Proof.
  split; [exists 0; repeat split; repeat constructor |]. split; [exists 1; repeat split; repeat constructor |].
  split; [reflexivity |]. split; [reflexivity |]. split; [repeat constructor | reflexivity].
Qed.

(** FINDING: any byte after a capsule that was accepted, in the same piece or in a later one, is
    an access outside of the buffers.  h3zero_accumulate_capsule resets neither is_length_known
    nor value_read (h3zero_common.c 2011-2018), and picowt_receive_capsule does not release the
    capsule; so the length is 0 while value_read is still that of the last capsule, the number
    of bytes to copy is 0 - value_read modulo 2^64, and memcpy is called with almost 2^64 bytes
    behind the buffer.  A peer that sends two capsules crashes the other. *)
Theorem C58_second_refuted :
  (forall alloc cs ty x l e r, frame_bytes (ty, x) l -> x <> [] -> alloc (blen x) = true -> means ty x e -> r <> [] -> stream cs (l ++ r) ->
    cresult_of (receive_pieces alloc cs capsule0) = CBroken) /\
  exists cs l, stream cs l /\ l = [0; 1; 7] ++ ex_close /\ cresult_of (receive_pieces ex_alloc cs capsule0) = CBroken.
Proof.
  split; [exact caps_more |]. exists [[0; 1; 7]; ex_close], ([0; 1; 7] ++ ex_close).
  split; [split; [reflexivity |]; split; [repeat constructor | reflexivity] |]. split; [reflexivity | vm_compute; reflexivity].
Qed.
Print Assumptions C58_second_refuted.

(** FINDING: the DRAIN_WEBTRANSPORT_SESSION capsule that picowt_send_drain_session_message
    sends, of length 0 as the draft says, is refused by picowt_receive_capsule: no buffer is
    allocated for 0 bytes, and a missing buffer is an error. *)
Theorem C58_zero_refuted : frame_bytes (30894, []) drain_message /\ stream [drain_message] drain_message /\
  forall alloc, cresult_of (receive_pieces alloc [drain_message] capsule0) = Refused [].
Proof.
  assert (S : stream [drain_message] drain_message) by (split; [reflexivity |]; split; [repeat constructor | reflexivity]).
  assert (A : is_varint 30894 [128; 0; 120; 174]) by (exists 2; repeat split; repeat constructor).
  assert (B : is_varint 0 [0]) by (exists 0; repeat split; repeat constructor).
  split; [exists [128; 0; 120; 174], [0]; split; [exact A |]; split; [exact B | reflexivity] |]. split; [exact S |].
  intros alloc. apply (caps_refused alloc [drain_message] drain_message); [| exact S].
  apply (refusable_size alloc 30894 0 [128; 0; 120; 174] [0] []); [exact A | exact B | left; reflexivity].
Qed.
Print Assumptions C58_zero_refuted.

(** FINDING: capsules of unknown types are refused; RFC 9297, section 3.2, says that they must
    be skipped silently. *)
Theorem C58_unknown_refuted : exists cs l, stream cs l /\ frame_bytes (23, [1; 2]) l /\
  cresult_of (receive_pieces ex_alloc cs capsule0) = Refused [].
Proof.
  exists [[23; 2; 1; 2]], [23; 2; 1; 2]. split; [split; [reflexivity |]; split; [repeat constructor | reflexivity] |].
  split; [| vm_compute; reflexivity].
  exists [23], [2]. split; [exists 0; repeat split; repeat constructor |]. split; [exists 0; repeat split; repeat constructor | reflexivity].
Qed.
Print Assumptions C58_unknown_refuted.
