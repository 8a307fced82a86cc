(** Property C57: the control streams and the web transport streams opened by an HTTP/3 peer are
    read the same however they are cut; what is accepted, refused and handed over. *)
From Verif Require Import Base Varint_spec Varint_proofs Qpack_model H3_model H3_spec Ctl_model Ctl_spec Ctl_proofs Ctlb_proofs Ctlc_proofs.

(** Examples: a SETTINGS frame with QPACK_MAX_TABLE_CAPACITY 100 and ENABLE_CONNECT_PROTOCOL 1,
    and the sessions known. *)
Definition ex_settings : list N := [4; 5; 1; 64; 100; 8; 1].
Definition ex_known (id : N) : bool := id =? 4.

(** The data handed to the application, the session, STOP_SENDING with its code, and the
    settings depend only on the bytes of a unidirectional stream, not on how they were cut. *)
Theorem C57_cut : forall known cs1 cs2 l st, stream cs1 l -> stream cs2 l ->
  uresult_of (remote_pieces false known cs1 ustate0 st) = uresult_of (remote_pieces false known cs2 ustate0 st).
Proof. exact ctl_cut. Qed.
Print Assumptions C57_cut.

Example C57_cut_ex :
  let l := 0 :: ex_settings ++ [7; 1; 0; 64; 33; 2; 9] in
  stream [l] l /\ stream (map (fun b => [b]) l) l /\
  uresult_of (remote_pieces false ex_known [l] ustate0 settings0) = Going [] None (mk_set 0 100 0 1 0 true) /\
  uresult_of (remote_pieces false ex_known (map (fun b => [b]) l) ustate0 settings0) = Going [] None (mk_set 0 100 0 1 0 true).
Proof.
  split; [split; [reflexivity |]; split; [repeat constructor | reflexivity] |].
  split; [split; [reflexivity |]; split; [repeat constructor | reflexivity] |].
  split; vm_compute; reflexivity.
Qed.

(** No access outside of a buffer, and parsing always ends. *)
Theorem C57_defined : forall known cs l st, stream cs l ->
  match uresult_of (remote_pieces false known cs ustate0 st) with UBroken | UStuck => False | _ => True end.
Proof. exact ctl_defined. Qed.
Print Assumptions C57_defined.

Example C57_defined_ex : stream [[0; 4; 1]; [255]] [0; 4; 1; 255] /\
  uresult_of (remote_pieces false ex_known [[0; 4; 1]; [255]] ustate0 settings0) = Stopped [265] settings0.
Proof. split; [split; [reflexivity |]; split; [repeat constructor | reflexivity] | vm_compute; reflexivity]. Qed.

(** A control stream: a SETTINGS frame first, then frames that are ignored, then an incomplete
    frame.  Nothing is handed over, and the settings are the last ones given in the frame. *)
Theorem C57_read : forall known cs a fs lf p st st', is_varint 0 a -> frames fs lf -> control st fs st' -> control_tail st' p ->
  stream cs (a ++ lf ++ p) -> uresult_of (remote_pieces false known cs ustate0 st) = Going [] None st'.
Proof. exact ctl_read. Qed.
Print Assumptions C57_read.

Example C57_read_ex : let fs := [(4, [1; 64; 100; 8; 1]); (7, [0])] in let st' := mk_set 0 100 0 1 0 true in
  is_varint 0 [0] /\ frames fs (ex_settings ++ [7; 1; 0]) /\ control settings0 fs st' /\ control_tail st' [64; 33; 2; 9] /\
  stream [0 :: ex_settings ++ [7]; [1; 0; 64; 33]; [2; 9]] ([0] ++ (ex_settings ++ [7; 1; 0]) ++ [64; 33; 2; 9]).
Proof.
  assert (V0 : is_varint 0 [0]) by (exists 0; repeat split; repeat constructor).
  assert (V1 : is_varint 1 [1]) by (exists 0; repeat split; repeat constructor).
  assert (V2 : is_varint 2 [2]) by (exists 0; repeat split; repeat constructor).
  assert (V4 : is_varint 4 [4]) by (exists 0; repeat split; repeat constructor).
  assert (V5 : is_varint 5 [5]) by (exists 0; repeat split; repeat constructor).
  assert (V7 : is_varint 7 [7]) by (exists 0; repeat split; repeat constructor).
  assert (V8 : is_varint 8 [8]) by (exists 0; repeat split; repeat constructor).
  assert (V100 : is_varint 100 [64; 100]) by (exists 1; repeat split; repeat constructor).
  assert (V33 : is_varint 33 [64; 33]) by (exists 1; repeat split; repeat constructor).
  cbv zeta. split; [exact V0 |]. split.
  { apply (frames_cons (4, [1; 64; 100; 8; 1]) ex_settings); [exists [4], [5]; split; [exact V4 |]; split; [exact V5 | reflexivity] |].
    apply (frames_cons (7, [0]) [7; 1; 0] [] []); [exists [7], [1]; split; [exact V7 |]; split; [exact V1 | reflexivity] | constructor]. }
  split.
  { apply (control_settings settings0 [(1, 100); (8, 1)]); [reflexivity | | discriminate | vm_compute; discriminate |].
    - apply (pairs_cons 1 100 [1] [64; 100] [(8, 1)] [8; 1]); [exact V1 | exact V100 |].
      apply (pairs_cons 8 1 [8] [1] [] []); [exact V8 | exact V1 | constructor].
    - apply control_other; [discriminate | reflexivity |]. constructor. }
  split; [apply (control_tail_content _ 33 2 [64; 33] [2] [9]); [exact V33 | exact V2 | reflexivity | discriminate | reflexivity] |].
  split; [reflexivity |]. split; [repeat constructor | reflexivity].
Qed.

(** A frame that is refused: a first frame that is not SETTINGS (H3_MISSING_SETTINGS), a second
    SETTINGS frame (H3_FRAME_UNEXPECTED), a frame of other streams or a SETTINGS frame of more
    than 65536 bytes (H3_INTERNAL_ERROR), SETTINGS that are not pairs, or empty
    (H3_SETTINGS_ERROR): STOP_SENDING, once, with that code. *)
Theorem C57_refused : forall known cs a fs lf p st st1 c, is_varint 0 a -> frames fs lf -> control st fs st1 -> control_bad st1 p c ->
  stream cs (a ++ lf ++ p) ->
  exists st', uresult_of (remote_pieces false known cs ustate0 st) = Stopped [c] st' /\ se_received st' = se_received st1.
Proof. exact ctl_refused. Qed.
Print Assumptions C57_refused.

Example C57_refused_ex : is_varint 0 [0] /\ frames [] [] /\ control settings0 [] settings0 /\ control_bad settings0 [7; 1; 0] 266 /\
  stream [[0; 7]; [1; 0]] ([0] ++ [] ++ [7; 1; 0]).
Proof.
  split; [exists 0; repeat split; repeat constructor |]. split; [constructor |]. split; [constructor |].
  split; [apply (control_bad_type settings0 7 [7] [1; 0]); [exists 0; repeat split; repeat constructor | reflexivity] |].
  split; [reflexivity |]. split; [repeat constructor | reflexivity].
Qed.

(** Conversely, a control stream that goes on consists of such frames. *)
Theorem C57_accepted : forall known cs a r st d id st', is_varint 0 a -> stream cs (a ++ r) ->
  uresult_of (remote_pieces false known cs ustate0 st) = Going d id st' ->
  d = [] /\ id = None /\ exists fs lf p, r = lf ++ p /\ frames fs lf /\ control st fs st' /\ control_tail st' p.
Proof. exact ctl_accepted. Qed.
Print Assumptions C57_accepted.

Example C57_accepted_ex : is_varint 0 [64; 0] /\ stream [[64]; [0; 4; 5; 1]; [64; 100; 8; 1]] ([64; 0] ++ ex_settings) /\
  uresult_of (remote_pieces false ex_known [[64]; [0; 4; 5; 1]; [64; 100; 8; 1]] ustate0 settings0) = Going [] None (mk_set 0 100 0 1 0 true).
Proof.
  split; [exists 1; repeat split; repeat constructor |]. split; [split; [reflexivity |]; split; [repeat constructor | reflexivity] |].
  vm_compute. reflexivity.
Qed.

(** A control stream is stopped only for such a frame. *)
Theorem C57_stopped : forall known cs a r st cc st', is_varint 0 a -> stream cs (a ++ r) ->
  uresult_of (remote_pieces false known cs ustate0 st) = Stopped cc st' ->
  exists c fs lf p st1, cc = [c] /\ r = lf ++ p /\ frames fs lf /\ control st fs st1 /\ control_bad st1 p c.
Proof. exact ctl_stopped. Qed.
Print Assumptions C57_stopped.

Example C57_stopped_ex : is_varint 0 [0] /\ stream [0 :: ex_settings ++ [4]] ([0] ++ ex_settings ++ [4]) /\
  uresult_of (remote_pieces false ex_known [0 :: ex_settings ++ [4]] ustate0 settings0) = Stopped [261] (mk_set 0 100 0 1 0 true).
Proof.
  split; [exists 0; repeat split; repeat constructor |]. split; [split; [reflexivity |]; split; [repeat constructor | reflexivity] |].
  vm_compute. reflexivity.
Qed.

(** A unidirectional web transport stream (type 84): after the number of the session, all bytes
    are handed over; a session that is not known is refused. *)
Theorem C57_session : forall known cs a l st r, is_varint 84 a -> session_result known st l r -> stream cs (a ++ l) ->
  uresult_of (remote_pieces false known cs ustate0 st) = r.
Proof. exact ctl_session. Qed.
Print Assumptions C57_session.

Example C57_session_ex : is_varint 84 [64; 84] /\ session_result ex_known settings0 [4; 1; 2; 3] (Going [1; 2; 3] (Some 4) settings0) /\
  stream [[64]; [84; 4; 1]; [2; 3]] ([64; 84] ++ [4; 1; 2; 3]).
Proof.
  split; [exists 1; repeat split; repeat constructor |].
  split; [apply (session_data ex_known settings0 4 [4] [1; 2; 3]); [exists 0; repeat split; repeat constructor | reflexivity] |].
  split; [reflexivity |]. split; [repeat constructor | reflexivity].
Qed.

(** Streams of other types are ignored (RFC 9114, 6.2). *)
Theorem C57_ignored : forall known cs t a l st, is_varint t a -> t <> 0 -> t <> 84 -> stream cs (a ++ l) ->
  uresult_of (remote_pieces false known cs ustate0 st) = Going [] None st.
Proof. exact ctl_ignored. Qed.
Print Assumptions C57_ignored.

Example C57_ignored_ex : is_varint 2 [2] /\ stream [[2; 63]; [225; 31]] ([2] ++ [63; 225; 31]).
Proof. split; [exists 0; repeat split; repeat constructor |]. split; [reflexivity |]. split; [repeat constructor | reflexivity]. Qed.

(** A bidirectional web transport stream (type 65) opened by the server, if the first piece
    contains the whole type.  Missing: streams of which the type is cut, see
    [C57_bidir_refuted]. *)
Theorem C57_bidir_partial : forall known a c cs l st r, is_varint 65 a -> session_result known st l r ->
  stream ((a ++ c) :: cs) (a ++ l) -> uresult_of (remote_pieces true known ((a ++ c) :: cs) ustate0 st) = r.
Proof. exact bidir_result. Qed.
Print Assumptions C57_bidir_partial.

Example C57_bidir_partial_ex : is_varint 65 [64; 65] /\ session_result ex_known settings0 [4; 9] (Going [9] (Some 4) settings0) /\
  stream (([64; 65] ++ []) :: [[4]; [9]]) ([64; 65] ++ [4; 9]).
Proof.
  split; [exists 1; repeat split; repeat constructor |].
  split; [apply (session_data ex_known settings0 4 [4] [9]); [exists 0; repeat split; repeat constructor | reflexivity] |].
  split; [reflexivity |]. split; [repeat constructor | reflexivity].
Qed.

(** FINDING: a bidirectional web transport stream is refused if its type arrives in two pieces:
    h3zero_parse_remote_bidir_stream tests current_frame_type, which is zero, instead of
    stream_type to see whether the type is complete (h3zero_common.c 535). *)
Theorem C57_bidir_refuted : exists known cs1 cs2 l, stream cs1 l /\ stream cs2 l /\
  uresult_of (remote_pieces true known cs1 ustate0 settings0) = Going [9] (Some 4) settings0 /\
  uresult_of (remote_pieces true known cs2 ustate0 settings0) = Stopped [0] settings0.
Proof.
  exists ex_known, [[64; 65; 4; 9]], [[64]; [65; 4; 9]], [64; 65; 4; 9].
  split; [split; [reflexivity |]; split; [repeat constructor | reflexivity] |].
  split; [split; [reflexivity |]; split; [repeat constructor | reflexivity] |].
  split; vm_compute; reflexivity.
Qed.
Print Assumptions C57_bidir_refuted.

(** FINDING: an empty SETTINGS frame, which RFC 9114 (7.2.4) permits, is refused with
    H3_SETTINGS_ERROR: no buffer is allocated, and the parser of settings is given NULL
    (h3zero_common.c 456-477, 1937). *)
Theorem C57_empty_refuted : exists known cs lf, frames [(4, [])] lf /\ pairs [] [] /\ stream cs ([0] ++ lf) /\
  uresult_of (remote_pieces false known cs ustate0 settings0) = Stopped [265] settings0.
Proof.
  exists ex_known, [[0; 4; 0]], [4; 0].
  split.
  { apply (frames_cons (4, []) [4; 0] [] []); [| constructor].
    exists [4], [0]. split; [exists 0; repeat split; repeat constructor |]. split; [exists 0; repeat split; repeat constructor | reflexivity]. }
  split; [constructor |]. split; [split; [reflexivity |]; split; [repeat constructor | reflexivity] |].
  vm_compute. reflexivity.
Qed.
Print Assumptions C57_empty_refuted.

(** FINDING: the same setting twice, and a setting reserved for HTTP/2 (2 to 5), are accepted; RFC
    9114 (7.2.4 and 7.2.4.1) requires H3_SETTINGS_ERROR (the second is a MUST). *)
Theorem C57_settings_refuted : exists known cs ps x, pairs ps x /\ In (2, 0) ps /\ In (1, 10) ps /\ In (1, 20) ps /\
  stream cs ([0; 4; blen x] ++ x) /\
  uresult_of (remote_pieces false known cs ustate0 settings0) = Going [] None (mk_set 0 20 0 0 0 true).
Proof.
  exists ex_known, [[0; 4; 6; 2; 0; 1; 10; 1; 20]], [(2, 0); (1, 10); (1, 20)], [2; 0; 1; 10; 1; 20].
  split.
  { apply (pairs_cons 2 0 [2] [0] [(1, 10); (1, 20)] [1; 10; 1; 20]); [exists 0; repeat split; repeat constructor | exists 0; repeat split; repeat constructor |].
    apply (pairs_cons 1 10 [1] [10] [(1, 20)] [1; 20]); [exists 0; repeat split; repeat constructor | exists 0; repeat split; repeat constructor |].
    apply (pairs_cons 1 20 [1] [20] [] []); [exists 0; repeat split; repeat constructor | exists 0; repeat split; repeat constructor | constructor]. }
  split; [left; reflexivity |]. split; [right; left; reflexivity |]. split; [right; right; left; reflexivity |].
  split; [split; [reflexivity |]; split; [repeat constructor | reflexivity] |].
  vm_compute. reflexivity.
Qed.
Print Assumptions C57_settings_refuted.

(** FINDING: a second control stream is accepted, and its frames are read; RFC 9114 (6.2.1)
    requires H3_STREAM_CREATION_ERROR.  Its first frame needs not be SETTINGS. *)
Theorem C57_second_refuted : exists known cs1 cs2 st,
  uresult_of (remote_pieces false known cs1 ustate0 settings0) = Going [] None st /\ se_received st = true /\
  stream cs2 [0; 7; 1; 0] /\ uresult_of (remote_pieces false known cs2 ustate0 st) = Going [] None st.
Proof.
  exists ex_known, [0 :: ex_settings], [[0; 7; 1; 0]], (mk_set 0 100 0 1 0 true).
  split; [vm_compute; reflexivity |]. split; [reflexivity |].
  split; [split; [reflexivity |]; split; [repeat constructor | reflexivity] |].
  vm_compute. reflexivity.
Qed.
Print Assumptions C57_second_refuted.
