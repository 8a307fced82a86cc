(** Property C65: a connection id written in hexadecimal is read back. *)
From Verif Require Import Base Lb_model Hexid_model Hexid_spec Hexid_proofs.

(** For every id and every size of the buffer, either the buffer is too small and an error is returned,
    or the text in lower case and its final zero are written within the buffer. *)
Theorem C65_print : forall n id, bytes_ok id ->
  (n < 2 * blen id + 1 /\ print_id n id = HErr) \/
  (2 * blen id + 1 <= n /\ exists s, print_id n id = HText (s ++ [0]) /\ spells s id /\ Forall lower_digit s /\ blen (s ++ [0]) <= n).
Proof. exact print_thm. Qed.
Print Assumptions C65_print.

Example C65_print_ex : bytes_ok [10; 255] /\ print_id 5 [10; 255] = HText [48; 97; 102; 102; 0] /\ print_id 4 [10; 255] = HErr.
Proof. split; [repeat (constructor; [reflexivity|]); constructor|]. split; vm_compute; reflexivity. Qed.

(** A text gives an id exactly when it spells that id, of 1 to 18 bytes, in either case; the rest of
    the array is zero. *)
Theorem C65_parse : forall s l, (parse_id s = (l ++ repeat 0 (20 - length l), blen l) /\ l <> []) <->
  (spells s l /\ 1 <= blen l <= 18).
Proof. exact parse_thm. Qed.
Print Assumptions C65_parse.

(** Every other text gives the empty id. *)
Theorem C65_reject : forall s, (forall l, spells s l -> l = [] \/ 18 < blen l) -> parse_id s = (repeat 0 20, 0).
Proof. exact reject_thm. Qed.
Print Assumptions C65_reject.

Example C65_parse_ex : parse_id [48; 65; 102; 70] = ([10; 255] ++ repeat 0 18, 2) /\ (forall l, ~ spells [48; 65; 102] l) /\
  parse_id [48; 65; 102] = (repeat 0 20, 0) /\ (forall l, ~ spells [48; 65; 102; 71] l) /\ parse_id [48; 65; 102; 71] = (repeat 0 20, 0).
Proof.
  split; [vm_compute; reflexivity|]. split.
  { intros l H. apply loop_iff in H. vm_compute in H. discriminate. }
  split; [vm_compute; reflexivity|]. split; [|vm_compute; reflexivity].
  intros l H. apply loop_iff in H. vm_compute in H. discriminate.
Qed.

(** An id of 1 to 18 bytes that was written is read back. *)
Theorem C65_round : forall n id s, bytes_ok id -> 1 <= blen id <= 18 -> print_id n id = HText (s ++ [0]) ->
  parse_id s = (id ++ repeat 0 (20 - length id), blen id).
Proof. exact round_thm. Qed.
Print Assumptions C65_round.

Example C65_round_ex : print_id 41 [1; 160; 9] = HText ([48; 49; 97; 48; 48; 57] ++ [0]) /\
  parse_id [48; 49; 97; 48; 48; 57] = ([1; 160; 9] ++ repeat 0 17, 3).
Proof. split; vm_compute; reflexivity. Qed.

(** Different ids have different texts (the names of the log files), whatever their lengths. *)
Theorem C65_inj : forall n m a b s, bytes_ok a -> bytes_ok b -> print_id n a = HText s -> print_id m b = HText s -> a = b.
Proof. exact inj_thm. Qed.
Print Assumptions C65_inj.

Example C65_inj_ex : print_id 41 [1; 2] = HText [48; 49; 48; 50; 0] /\ print_id 41 [0; 1; 2] = HText [48; 48; 48; 49; 48; 50; 0].
Proof. split; vm_compute; reflexivity. Qed.

(** FINDING: ids have up to 20 bytes, but those of 19 or 20 bytes are not read back. *)
Theorem C65_long_refuted : exists id s, bytes_ok id /\ blen id <= 20 /\ print_id 41 id = HText (s ++ [0]) /\ parse_id s = (repeat 0 20, 0).
Proof. exact long_refuted. Qed.
Print Assumptions C65_long_refuted.

(** FINDING: the text of the empty id, which is valid, cannot be told from an error. *)
Theorem C65_empty_refuted : exists s1 s2, print_id 41 [] = HText (s1 ++ [0]) /\ (forall l, ~ spells s2 l) /\ parse_id s1 = parse_id s2.
Proof. exact empty_refuted. Qed.
Print Assumptions C65_empty_refuted.
