(** Property C56: the streams of HTTP/3 that carry requests and responses are read the same
    however they are cut; what is accepted, refused and handed over. *)
From Verif Require Import Base Varint_spec Varint_proofs Qpack_model H3_model H3_spec H3_proofs H3b_proofs H3c_proofs H3d_proofs H3e_proofs H3f_proofs.

(** Examples: a header frame with status 200, and one with a request. *)
Definition ex_200 : list N := [1; 3; 0; 0; 217].
Definition ex_103 : list N := [1; 3; 0; 0; 216].
Definition ex_get : list N := [1; 5; 0; 0; 209; 215; 193].

(** The data given to the application, the closure of the connection with its code, and what is
    known of header, trailer, session and missing content, depend only on the bytes of the
    stream, not on how they were cut in pieces, nor on the side. *)
Theorem C56_cut : forall data1 data2 cs1 cs2 l, side data1 -> side data2 -> stream cs1 l -> stream cs2 l ->
  result_of (pieces data1 cs1 dstate0) = result_of (pieces data2 cs2 dstate0).
Proof. exact cut. Qed.
Print Assumptions C56_cut.

Example C56_cut_ex :
  let cs1 := [ex_200 ++ [0; 3; 7]; [8; 9; 64]; [33; 1; 5]] in
  let cs2 := map (fun b => [b]) (ex_200 ++ [0; 3; 7; 8; 9; 64; 33; 1; 5]) in
  side client_data /\ side server_data /\ stream cs1 (ex_200 ++ [0; 3; 7; 8; 9; 64; 33; 1; 5]) /\
  stream cs2 (ex_200 ++ [0; 3; 7; 8; 9; 64; 33; 1; 5]) /\
  (exists n, result_of (pieces client_data cs1 dstate0) = Open [7; 8; 9] n /\ n_cut n = false).
Proof.
  split; [right; reflexivity |]. split; [left; reflexivity |].
  split; [split; [reflexivity |]; split; [repeat constructor | reflexivity] |].
  split; [split; [reflexivity |]; split; [repeat constructor | reflexivity] |].
  eexists. split; [vm_compute; reflexivity | reflexivity].
Qed.

(** Parsing always ends; the only undefined behaviour is that of the parser of header blocks
    (property C55). *)
Theorem C56_defined : forall data cs l, side data -> stream cs l ->
  match result_of (pieces data cs dstate0) with
  | Stuck => False
  | Broken => exists fs lf v p, l = lf ++ p /\ frames fs lf /\ message view0 fs v /\ wild v p
  | _ => True
  end.
Proof. exact defined. Qed.
Print Assumptions C56_defined.

Example C56_defined_ex : side server_data /\ stream [[1]; [64]] [1; 64] /\
  exists n, result_of (pieces server_data [[1]; [64]] dstate0) = Open [] n.
Proof.
  split; [left; reflexivity |]. split; [split; [reflexivity |]; split; [repeat constructor | reflexivity] |].
  eexists. vm_compute. reflexivity.
Qed.

(** The frames of a message, then an incomplete end: the data of the complete data frames, and
    of the incomplete one, are given; the header and the trailer are those of the frames. *)
Theorem C56_read : forall data cs fs l v p d id c, side data -> stream cs (l ++ p) -> frames fs l -> message view0 fs v ->
  tail v p d id c -> result_of (pieces data cs dstate0) = Open (v_data v ++ d) (mk_seen (v_header v) (v_trailer v) id c).
Proof. exact opened. Qed.
Print Assumptions C56_read.

Example C56_read_ex : exists p,
  let v := mk_v (Some p) [7; 8] None true in
  parse_header_frame [0; 0; 217] = Ret (true, p) /\
  frames [(1, [0; 0; 217]); (0, [7; 8])] (ex_200 ++ [0; 2; 7; 8]) /\
  message view0 [(1, [0; 0; 217]); (0, [7; 8])] v /\ tail v [0; 9; 5] [5] None true.
Proof.
  assert (V : forall x, In x [0; 1; 2; 3; 9] -> is_varint x [x]).
  { intros x H. exists 0. cbn [In] in H.
    destruct H as [<- | [<- | [<- | [<- | [<- | []]]]]]; repeat split; try reflexivity; repeat constructor. }
  eexists. cbv zeta. split; [vm_compute; reflexivity |]. split; [| split].
  - change (ex_200 ++ [0; 2; 7; 8]) with (([1] ++ [3] ++ [0; 0; 217]) ++ ([0] ++ [2] ++ [7; 8]) ++ []).
    constructor; [exists [1], [3]; split; [apply V; cbn; tauto |]; split; [apply (V 3); cbn; tauto | reflexivity] |].
    constructor; [exists [0], [2]; split; [apply V; cbn; tauto |]; split; [apply (V 2); cbn; tauto | reflexivity] | constructor].
  - econstructor; [discriminate | vm_compute; reflexivity |].
    econstructor; [discriminate | vm_compute; reflexivity | constructor].
  - refine (tail_content _ 0 9 [0] [9] [5] _ _ _ _ _); [apply V; cbn; tauto | apply V; cbn; tauto | discriminate | reflexivity | left; reflexivity].
Qed.

(** Conversely, a stream that is not refused consists of the frames of a message and an
    incomplete end. *)
Theorem C56_accepted : forall data cs l d n, side data -> stream cs l -> result_of (pieces data cs dstate0) = Open d n ->
  exists fs lf v p d' id c, l = lf ++ p /\ frames fs lf /\ message view0 fs v /\ tail v p d' id c /\
    d = v_data v ++ d' /\ n = mk_seen (v_header v) (v_trailer v) id c.
Proof. exact opened_inv. Qed.
Print Assumptions C56_accepted.

Example C56_accepted_ex : side client_data /\ stream [[64]; [65; 4; 9]] [64; 65; 4; 9] /\
  result_of (pieces client_data [[64]; [65; 4; 9]] dstate0) = Open [9] (mk_seen None None (Some 4) false).
Proof.
  split; [right; reflexivity |]. split; [split; [reflexivity |]; split; [repeat constructor | reflexivity] | vm_compute; reflexivity].
Qed.

(** A frame that is out of order, forbidden or too long, or a header block that is refused,
    closes the connection with the code of the error, after the data that came before. *)
Theorem C56_refused : forall data cs fs l v r c, side data -> stream cs (l ++ r) -> frames fs l -> message view0 fs v ->
  wrong v r c -> result_of (pieces data cs dstate0) = Closed (v_data v) [c].
Proof. exact wrong_closed. Qed.
Print Assumptions C56_refused.

Example C56_refused_ex : stream [[0]; [2; 5]] ([] ++ [0; 2; 5]) /\ wrong view0 [0; 2; 5] 261 /\
  result_of (pieces server_data [[0]; [2; 5]] dstate0) = Closed [] [261].
Proof.
  split; [split; [reflexivity |]; split; [repeat constructor | reflexivity] |]. split; [| vm_compute; reflexivity].
  refine (wrong_frame _ 0 2 [0] [2] [5] 261 _ _ _); [| | reflexivity];
    (exists 0; repeat split; try reflexivity; repeat constructor).
Qed.

(** Conversely, the connection is closed only for such a frame. *)
Theorem C56_closed : forall data cs l d c, side data -> stream cs l -> result_of (pieces data cs dstate0) = Closed d c ->
  exists fs lf v p k, l = lf ++ p /\ frames fs lf /\ message view0 fs v /\ wrong v p k /\ d = v_data v /\ c = [k].
Proof. exact closed_inv. Qed.
Print Assumptions C56_closed.

Example C56_closed_ex : side client_data /\ stream [ex_200; [0; 1; 6; 4; 0]] (ex_200 ++ [0; 1; 6; 4; 0]) /\
  result_of (pieces client_data [ex_200; [0; 1; 6; 4; 0]] dstate0) = Closed [6] [261].
Proof.
  split; [right; reflexivity |]. split; [split; [reflexivity |]; split; [repeat constructor | reflexivity] | vm_compute; reflexivity].
Qed.

(** A client tells its application that the request was accepted exactly if the header that was
    read has a status from 200 to 299, and that it was refused exactly if it has another
    status; without a header it tells nothing. *)
Theorem C56_answer : forall cs e s, pieces client_data cs dstate0 = Ret (e, s) -> closed e = false ->
  match n_header (seen_of s) with
  | Some p => forall b, In (Told b) e <-> b = success p
  | None => n_session (seen_of s) = None -> forall b, ~ In (Told b) e
  end.
Proof. exact answers. Qed.
Print Assumptions C56_answer.

Example C56_answer_ex : exists e s p, pieces client_data [ex_200; [0; 1]; [6]] dstate0 = Ret (e, s) /\ closed e = false /\
  n_header (seen_of s) = Some p /\ success p = true /\ In (Told true) e.
Proof. eexists _, _, _. split; [vm_compute; reflexivity |]. repeat split. left. reflexivity. Qed.

(** FINDING: the same response tells the application three times that the request was accepted
    if it arrives in one piece, and once if the header arrives alone: the flag
    header_required is computed before the loop and not cleared in it
    (picohttp/h3zero_common.c 1315, 1327-1339). *)
Theorem C56_told_once_refuted : exists cs1 cs2 e1 e2 s1 s2, concat cs1 = concat cs2 /\
  pieces client_data cs1 dstate0 = Ret (e1, s1) /\ pieces client_data cs2 dstate0 = Ret (e2, s2) /\
  e1 = [Told true; Told true; Told true; Data [7; 8]] /\ e2 = [Told true; Data [7; 8]].
Proof.
  exists [ex_200 ++ [0; 2; 7; 8]], [ex_200; [0; 2; 7; 8]]. eexists _, _, _, _.
  split; [reflexivity |]. split; [vm_compute; reflexivity |]. split; [vm_compute; reflexivity |]. split; reflexivity.
Qed.
Print Assumptions C56_told_once_refuted.

(** FINDING: the end of a stream within the type or length of a frame is not an error for a
    client, though the stream was cut (picohttp/h3zero_common.c 1367-1372 compares the
    counters of the frame before; RFC 9114, 7.1 requires H3_FRAME_ERROR). *)
Theorem C56_end_refuted : exists cs e s p, pieces client_data cs dstate0 = Ret (e, s) /\ closed e = false /\
  concat cs = ex_200 ++ p /\ p <> [] /\ (forall v, tail v p [] None false) /\ client_fin s = None.
Proof.
  exists [ex_200; [0; 64]]. eexists _, _, [0; 64]. split; [vm_compute; reflexivity |]. split; [reflexivity |].
  split; [reflexivity |]. split; [discriminate |]. split; [| reflexivity].
  intro v. refine (tail_start v [0; 64] [9] 0 9 [0] [64; 9] _ _ _ _); [| | discriminate | reflexivity].
  - exists 0; repeat split; try reflexivity; repeat constructor.
  - exists 1; repeat split; try reflexivity; repeat constructor.
Qed.
Print Assumptions C56_end_refuted.

(** FINDING: a server processes a request although content of a frame is missing at the end of
    the stream; it never tests this (picohttp/h3zero_common.c 1280-1298). *)
Theorem C56_server_end_refuted : exists cs e s, pieces server_data cs dstate0 = Ret (e, s) /\ closed e = false /\
  n_cut (seen_of s) = true /\ server_fin s = true.
Proof. exists [ex_get; [0; 9; 5]]. eexists _, _. split; [vm_compute; reflexivity |]. repeat split. Qed.
Print Assumptions C56_server_end_refuted.

(** FINDING: an interim response (RFC 9114, 4.1: any number of them may precede the final one)
    is told to the application as a refusal, and the final response after it closes the
    connection with H3_FRAME_UNEXPECTED (picohttp/h3zero_common.c 687-692, 1327-1339). *)
Theorem C56_interim_refuted : exists e s, pieces client_data [ex_103; ex_200] dstate0 = Ret (e, s) /\
  e = [Told false; Close 261] /\ exists p, parse_header_frame [0; 0; 216] = Ret (true, p) /\ p_status p = 103%Z.
Proof.
  eexists _, _. split; [vm_compute; reflexivity |]. split; [reflexivity |]. eexists. split; [vm_compute; reflexivity | reflexivity].
Qed.
Print Assumptions C56_interim_refuted.

(** FINDING: trailers that directly follow the header, without data, close the connection
    (RFC 9114, 4.1 allows a message without content). *)
Theorem C56_trailers_refuted : exists e s, pieces server_data [ex_get; [1; 2; 0; 0]] dstate0 = Ret (e, s) /\ e = [Close 261] /\
  exists p, parse_header_frame [0; 0] = Ret (true, p).
Proof.
  eexists _, _. split; [vm_compute; reflexivity |]. split; [reflexivity |]. eexists. vm_compute. reflexivity.
Qed.
Print Assumptions C56_trailers_refuted.

(** FINDING: if the last piece of the stream of a request other than POST contains the end of a
    data frame and another data frame, the application gets the mark of the end of the stream with the first part,
    and data, with another mark, after it (picohttp/h3zero_common.c 1263-1265). *)
Theorem C56_fin_last_refuted : exists l e s, server_data l dstate0 = Ret (e, s) /\ closed e = false /\
  marked true e = [([7], true); ([8], true)].
Proof. exists (ex_get ++ [0; 1; 7; 0; 1; 8]). eexists _, _. split; [vm_compute; reflexivity |]. split; reflexivity. Qed.
Print Assumptions C56_fin_last_refuted.
