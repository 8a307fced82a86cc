(** Property C59: the parameters of the query of a path are found, decoded and bounded as RFC 3986
    says; and the requests that the baton service accepts. *)
From Verif Require Import Base Qpack_model H3_model Uri_model Uri_spec Uri_proofs Urib_proofs.

(** Examples: the query "a=%41b&count=12&n=7", its components, and names. *)
Definition ex_query : list N := [97; 61; 37; 52; 49; 98; 38; 99; 111; 117; 110; 116; 61; 49; 50; 38; 110; 61; 55].
Definition ex_components : list (list N) := [[97; 61; 37; 52; 49; 98]; [99; 111; 117; 110; 116; 61; 49; 50]; [110; 61; 55]].

Lemma ex_without : forall c l, forallb (fun x => negb (x =? c)) l = true -> without c l.
Proof. intros c l H I. rewrite forallb_forall in H. specialize (H c I). rewrite N.eqb_refl in H. discriminate. Qed.

Lemma ex_is_query : query ex_components ex_query.
Proof.
  apply (query_more [97; 61; 37; 52; 49; 98]); [apply ex_without; reflexivity |].
  apply (query_more [99; 111; 117; 110; 116; 61; 49; 50]); [apply ex_without; reflexivity |].
  apply query_last. apply ex_without. reflexivity.
Qed.

Lemma ex_not_gives : forall id c, firstn (length id) c <> id -> forall v, ~ gives id c v.
Proof.
  intros id c H v [[-> _] | ->]; apply H; [apply firstn_all |]. rewrite firstn_app, firstn_all, Nat.sub_diag. apply app_nil_r.
Qed.

(** The query is what follows the first '?', if there is one. *)
Theorem C59_path : (forall p q, without 63 p -> query_offset (p ++ 63 :: q) = Ret (blen p + 1)) /\
  (forall p, without 63 p -> query_offset p = Ret (blen p)).
Proof. exact (conj offset_query offset_none). Qed.
Print Assumptions C59_path.

Example C59_path_ex : without 63 [47; 98] /\ query_offset ([47; 98] ++ 63 :: [97; 63; 98]) = Ret 3.
Proof. split; [apply ex_without; reflexivity | reflexivity]. Qed.

(** A parameter of type string is the decoded first value, if it fits in the buffer; a zero
    follows if there is room for it, and the other bytes are not touched. *)
Theorem C59_string : forall cs q id, query cs q -> id <> [] -> without 38 id ->
  forall v x buf parsed, first_value id cs (Some v) -> unescaped v x -> blen x <= blen buf ->
  exists r, buf = firstn (N.to_nat (blen x)) buf ++ r /\
  parameter_string q id buf parsed = Ret (true, x ++ (match r with [] => [] | _ :: t => 0 :: t end), blen x).
Proof. exact string_found. Qed.
Print Assumptions C59_string.

Example C59_string_ex : query ex_components ex_query /\ without 38 [97] /\ first_value [97] ex_components (Some [37; 52; 49; 98]) /\
  unescaped [37; 52; 49; 98] [65; 98] /\ parameter_string ex_query [97] [9; 9; 9; 9] 0 = Ret (true, [65; 98; 0; 9], 2).
Proof.
  split; [exact ex_is_query |]. split; [apply ex_without; reflexivity |].
  split; [apply first_here; right; reflexivity |].
  split; [apply (unescaped_hex 52 49 4 1); [unfold hex; lia | unfold hex; lia |]; apply unescaped_plain; [discriminate | constructor] |].
  vm_compute. reflexivity.
Qed.

(** A value with an incomplete escape, or longer than the buffer, is refused; only the buffer
    is written. *)
Theorem C59_string_refused : forall cs q id, query cs q -> id <> [] -> without 38 id ->
  forall v buf parsed, first_value id cs (Some v) -> (forall x, unescaped v x -> blen buf < blen x) ->
  exists buf' n, parameter_string q id buf parsed = Ret (false, buf', n) /\ blen buf' = blen buf /\ n <= blen buf.
Proof. exact string_refused. Qed.
Print Assumptions C59_string_refused.

Example C59_string_refused_ex : query [[97; 61; 37; 52; 103]] [97; 61; 37; 52; 103] /\
  first_value [97] [[97; 61; 37; 52; 103]] (Some [37; 52; 103]) /\ (forall x, unescaped [37; 52; 103] x -> blen [0; 0] < blen x) /\
  parameter_string [97; 61; 37; 52; 103] [97] [0; 0] 0 = Ret (false, [64; 0], 1).
Proof.
  split; [apply query_last; apply ex_without; reflexivity |]. split; [apply first_here; right; reflexivity |].
  split; [| vm_compute; reflexivity]. intros x U. inversion U as [| c l y NE | a b i j l y A B]; subst; [congruence |]. unfold hex in B. lia.
Qed.

(** A parameter of type number is the decimal number that the decoded first value is, or the
    default if there is no value or an empty one; numbers are below 18446744073709551610. *)
Theorem C59_number : forall cs q id, query cs q -> id <> [] -> without 38 id ->
  forall default n, parameter_number q id default = Ret (true, n) <-> asks id default cs n.
Proof. exact number_iff. Qed.
Print Assumptions C59_number.

Example C59_number_ex : query ex_components ex_query /\ without 38 name_count /\ asks name_count 1 ex_components 12 /\
  parameter_number ex_query name_count 1 = Ret (true, 12).
Proof.
  split; [exact ex_is_query |]. split; [apply ex_without; reflexivity |]. split; [| vm_compute; reflexivity].
  apply (asks_number name_count 1 ex_components [49; 50] [49; 50]); [| discriminate | | | reflexivity].
  - apply first_later; [apply ex_not_gives; discriminate |]. apply first_here. right. reflexivity.
  - repeat (constructor; [discriminate |]). constructor.
  - repeat constructor; discriminate.
Qed.

(** Anything else is refused, and the number is the default. *)
Theorem C59_number_refused : forall cs q id, query cs q -> id <> [] -> without 38 id ->
  forall default, (forall n, ~ asks id default cs n) -> parameter_number q id default = Ret (false, default).
Proof. exact number_refused. Qed.
Print Assumptions C59_number_refused.

Example C59_number_refused_ex : query [[97; 61; 49; 98]] [97; 61; 49; 98] /\ (forall n, ~ asks [97] 5 [[97; 61; 49; 98]] n).
Proof.
  split; [apply query_last; apply ex_without; reflexivity |]. intros n A. destruct A as [F | F | v x F Nv U D B].
  - inversion F as [| c cs w G | c cs r G F']; subst. apply (G [49; 98]). right. reflexivity.
  - inversion F as [| c cs w G | c cs r G F']; subst; [destruct G as [[E _] | E]; discriminate | apply (G [49; 98]); right; reflexivity].
  - inversion F as [| c cs w G | c cs r G F']; subst; [| apply (G [49; 98]); right; reflexivity].
    destruct G as [[E _] | E]; [discriminate |]. injection E as <-.
    assert (U' : unescaped [49; 98] [49; 98]) by (repeat (constructor; [discriminate |]); constructor).
    rewrite (unescaped_fun _ _ U _ U') in D. inversion D as [| c l _ D']; subst. inversion D' as [| c' l' H _]; subst. lia.
Qed.

(** Every text is a query, every name has a first value in it or none, and for all texts, names
    and buffers the functions end and stay within their buffers. *)
Theorem C59_total : (forall l, exists cs, query cs l) /\ (forall id cs, exists r, first_value id cs r).
Proof. exact (conj query_total first_total). Qed.
Print Assumptions C59_total.

Example C59_total_ex : query [[]; [97]; []] [38; 97; 38].
Proof.
  apply (query_more []); [intros [] |]. apply (query_more [97]); [apply ex_without; reflexivity |]. apply query_last. intros [].
Qed.

Theorem C59_defined : forall path q id buf parsed default,
  (exists o, query_offset path = Ret o /\ o <= blen path) /\
  (exists ok buf' n, parameter_string q id buf parsed = Ret (ok, buf', n) /\ blen buf' = blen buf) /\
  (exists ok n, parameter_number q id default = Ret (ok, n)) /\
  exists r, path_params path = Ret r.
Proof. exact uri_defined. Qed.
Print Assumptions C59_defined.

Example C59_defined_ex : parameter_string [97; 61; 37] [97] [] 0 = Ret (false, [], 0) /\ parameter_number [38; 38] [] 3 = Ret (true, 3).
Proof. split; vm_compute; reflexivity. Qed.

(** The requests for the baton service that are accepted: version 0, a baton of a byte, and up
    to 256 lanes (the size of the array), each from the first component with its name. *)
Theorem C59_baton : forall p q cs b, without 63 p -> q <> [] -> query cs q ->
  path_params (p ++ 63 :: q) = Ret (Some b) <->
  asks name_version 0 cs (b_version b) /\ asks name_baton 0 cs (b_initial b) /\ asks name_count 1 cs (b_lanes b) /\ asks name_inject 0 cs (b_inject b) /\
  b_version b = 0 /\ b_initial b <= 255 /\ 1 <= b_lanes b <= 256.
Proof. exact params_query. Qed.
Print Assumptions C59_baton.

Example C59_baton_ex : without 63 [47; 98] /\ query ex_components ex_query /\
  path_params ([47; 98] ++ 63 :: ex_query) = Ret (Some (mk_baton 0 0 12 0)).
Proof. split; [apply ex_without; reflexivity |]. split; [exact ex_is_query | vm_compute; reflexivity]. Qed.

(** FINDING: the numbers from 18446744073709551610 to 18446744073709551615 fit in 64 bits but
    are refused: the test before the multiplication is x >= UINT64_MAX / 10
    (h3zero_uri.c 261), which makes the second test of no use. *)
Theorem C59_limit_refuted : exists l x, unescaped l x /\ digits x /\ decimal x < 2 ^ 64 /\ exists n, bytes_to_uint64 l = Ret (false, n).
Proof.
  set (l := [49; 56; 52; 52; 54; 55; 52; 52; 48; 55; 51; 55; 48; 57; 53; 53; 49; 54; 49; 53]).
  exists l, l. split; [unfold l; repeat (constructor; [discriminate |]); constructor |].
  split; [unfold l; repeat constructor; discriminate |]. split; [reflexivity |]. eexists. vm_compute. reflexivity.
Qed.
Print Assumptions C59_limit_refuted.

(** FINDING: a string that fills the buffer is not terminated by a zero, and the result is still
    0 (h3zero_uri.c 241-243). *)
Theorem C59_terminated_refuted : exists q buf, parameter_string q [97] buf 0 = Ret (true, [98; 99], 2) /\ blen buf = 2.
Proof. exists [97; 61; 98; 99], [0; 0]. split; vm_compute; reflexivity. Qed.
Print Assumptions C59_terminated_refuted.

(** If a parameter of type string is absent, the result is 0 and nothing is written. *)
Theorem C59_absent : forall cs q id, query cs q -> id <> [] -> without 38 id ->
  forall buf parsed, first_value id cs None -> parameter_string q id buf parsed = Ret (true, buf, parsed).
Proof. exact string_absent. Qed.
Print Assumptions C59_absent.

Example C59_absent_ex : query ex_components ex_query /\ first_value [98] ex_components None.
Proof.
  split; [exact ex_is_query |]. unfold ex_components.
  repeat (apply first_later; [apply ex_not_gives; discriminate |]). constructor.
Qed.

(** FINDING: an absent parameter is taken for one that is there: h3zero_query_parameter_string
    returns 0 and leaves both the buffer and *parsed_length as they were, so that a caller that
    did not initialize them reads what was there before (h3zero_uri.c 286-297).  Here the length
    left, 77, is even beyond the buffer. *)
Theorem C59_absent_refuted : exists q buf parsed, parameter_string q [98] buf parsed = Ret (true, buf, parsed) /\ blen buf < parsed.
Proof. exists ex_query, [0; 0], 77. split; vm_compute; reflexivity. Qed.
Print Assumptions C59_absent_refuted.

(** FINDING: the baton service looks up the first five bytes of "version" (wt_baton.c 558: the
    length given is 5), so that a version in a request is never seen: "/b?version=9" is accepted
    as version 0. *)
Theorem C59_version_refuted : exists path, path = [47; 98; 63; 118; 101; 114; 115; 105; 111; 110; 61; 57] /\
  path_params path = Ret (Some (mk_baton 0 0 1 0)).
Proof. eexists. split; [reflexivity | vm_compute; reflexivity]. Qed.
Print Assumptions C59_version_refuted.
