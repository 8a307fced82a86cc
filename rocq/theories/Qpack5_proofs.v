(** The frames created by h3zero, read back. *)
From Coq Require Import Strings.String.
From Verif Require Import Base Tac Varint_proofs Qpack_model Qpack_spec Qpack_proofs Qpack2_proofs Qpack3_proofs Qpack4_proofs.

Lemma says_nil : forall {A} (x none : A) of, says [] x none of -> x = none.
Proof. intros A x none of [[_ ->] | (v & E & _)]; [reflexivity | discriminate]. Qed.

Lemma says_one : forall {A} v (x none : A) (of : list N -> A -> Prop), says [v] x none of -> of v x.
Proof. intros A v x none of [[E _] | (w & E & H)]; [discriminate | injection E as <-; exact H]. Qed.

Definition opt_fields (n : string) (s : option (list N)) : list field :=
  match s with None => [] | Some v => [(chars n, v)] end.

(** [vals]: computes the values of the names in a list of fields. *)
Ltac vals :=
  unfold values;
  cbn [app filter fst snd opt_fields map]; known_name; cbn [map snd app List.length].

Ltac vals_in H :=
  unfold values in H;
  cbn [app filter fst snd opt_fields map] in H;
  repeat match type of H with
  | context [eq_text (chars ?a) (chars ?b)] =>
    let v := eval vm_compute in (eq_text (chars a) (chars b)) in
    change (eq_text (chars a) (chars b)) with v in H
  end; cbv iota in H; cbn [map snd app] in H.

Ltac fields_done := unfold single, known; repeat (apply Forall_cons; [vals; lia |]); apply Forall_nil.

Ltac parts_eq :=
  let E1 := fresh in let E2 := fresh in let E3 := fresh in let E4 := fresh in let E5 := fresh in let E6 := fresh in
  let m := fresh in let pa := fresh in let ra := fresh in let st := fresh in let c := fresh in let pr := fresh in
  intros [m pa ra st c pr] (E1 & E2 & E3 & E4 & E5 & E6);
  cbn [p_method p_path p_range p_status p_content_type p_protocol] in E1, E2, E3, E4, E5, E6;
  vals_in E1; vals_in E2; vals_in E3; vals_in E4; vals_in E5; vals_in E6;
  first [apply says_one in E1 | apply says_nil in E1]; first [apply says_one in E2 | apply says_nil in E2];
  first [apply says_one in E3 | apply says_nil in E3]; first [apply says_one in E4 | apply says_nil in E4];
  first [apply says_one in E5 | apply says_nil in E5]; first [apply says_one in E6 | apply says_nil in E6];
  cbv beta in E1, E2, E3, E5, E6; subst; reflexivity.

Lemma opt_raw : forall s f, (forall v, s = Some v -> raw_ok (f v)) -> Forall raw_ok (opt_lines s f).
Proof. intros s f H. destruct s as [v |]; cbn [opt_lines]; constructor; [exact (H v eq_refl) | constructor]. Qed.

Lemma opt_field : forall s f n, (forall v, s = Some v -> line_field (f v) (chars n, v)) ->
  Forall2 line_field (opt_lines s f) (opt_fields n s).
Proof. intros s f n H. destruct s as [v |]; cbn [opt_lines opt_fields]; constructor; [exact (H v eq_refl) | constructor]. Qed.

Definition ref (i : N) (v : list N) : line := NameRef false i (plain v).
Definition lit (n v : list N) : line := Literal false (plain n) (plain v).

Lemma ref_field : forall i n w v, nth_error static_table (N.to_nat i) = Some (n, w) -> line_field (ref i v) (n, v).
Proof. intros i n w v H. exists w. split; [exact H | reflexivity]. Qed.

Lemma range_writes : forall r, fit r -> writes (range_encode r) (block (opt_lines (range_opt r) (ref 55))).
Proof.
  intros r F. unfold range_encode, range_opt. destruct (0 <? blen r); cbn [opt_lines].
  - apply one_writes. apply ref_writes; [lia | exact F].
  - intros room l E. injection E as <-. split; [constructor | cbn; lia].
Qed.

Lemma opt_ref_writes : forall s i, i < 99 -> opt_fit s -> writes (opt_encode s (literal_plus_ref_encode i)) (block (opt_lines s (ref i))).
Proof. intros s i I F. apply opt_writes. intros v ->. apply ref_writes; assumption. Qed.

Lemma opt_no_55 : forall s f, (forall v, f v <> Indexed 55) -> ~ In (Indexed 55) (opt_lines s f).
Proof. intros s f H C. destruct s as [v |]; cbn [opt_lines In] in C; [| exact C]. destruct C as [C | []]. exact (H v C). Qed.

Ltac no55 := cbn [app opt_lines In]; intros NC; repeat (destruct NC as [NC | NC]; [discriminate NC |]); exact NC.

Lemma colon_protocol_fit : fit (chars ":protocol").
Proof. split; [reflexivity |]. repeat constructor. Qed.

(** GET requests. *)
Theorem request_read : forall path range host ua room l, fit path -> fit range -> opt_fit host -> opt_fit ua ->
  create_request path range host ua room = Some l ->
  parse_header_frame l = Ret (true, mk_parts h3zero_method_get (Some path) (range_opt range) 0%Z h3zero_content_type_none None) /\
  blen l <= room.
Proof.
  intros path range host ua room l Fp Fr Fh Fu H.
  set (lns := [Indexed 17] ++ [Indexed 23] ++ [ref 1 path] ++ opt_lines host (ref 0) ++
              opt_lines (range_opt range) (ref 55) ++ opt_lines ua (ref 95)).
  set (fs := [(chars ":method", chars "GET")] ++ [(chars ":scheme", chars "https")] ++ [(chars ":path", path)] ++
             opt_fields ":authority" host ++ opt_fields "range" (range_opt range) ++ opt_fields "user-agent" ua).
  assert (K : parse_header_frame l = Ret (true, mk_parts h3zero_method_get (Some path) (range_opt range) 0%Z h3zero_content_type_none None)
    /\ header_block lns l /\ bytes_ok l /\ blen l <= room).
  { apply (created (create_request path range host ua) lns fs); [| | | | | | exact H].
    - unfold create_request. apply start_writes. unfold lns.
      repeat apply seq_blocks.
      + apply one_writes, index_writes. lia.
      + apply one_writes, index_writes. lia.
      + apply one_writes, ref_writes; [lia | exact Fp].
      + apply opt_ref_writes; [lia | exact Fh].
      + apply range_writes. exact Fr.
      + apply opt_ref_writes; [lia | exact Fu].
    - unfold lns. repeat (apply Forall_app; split).
      + repeat constructor.
      + repeat constructor.
      + constructor; [exact (proj2 Fp) | constructor].
      + apply opt_raw. intros v ->. exact (proj2 Fh).
      + apply opt_raw. unfold range_opt. intros v. destruct (0 <? blen range); [| discriminate]. intros E. injection E as <-. exact (proj2 Fr).
      + apply opt_raw. intros v ->. exact (proj2 Fu).
    - unfold lns, fs. repeat apply Forall2_app.
      + constructor; [reflexivity | constructor].
      + constructor; [reflexivity | constructor].
      + constructor; [| constructor]. eapply ref_field. reflexivity.
      + apply opt_field. intros v _. eapply ref_field. reflexivity.
      + apply opt_field. intros v _. eapply ref_field. reflexivity.
      + apply opt_field. intros v _. eapply ref_field. reflexivity.
    - split.
      + unfold lns. destruct host, (range_opt range), ua; no55.
      + unfold fs. destruct host, (range_opt range), ua; vals; constructor.
    - unfold fs. destruct host, (range_opt range), ua; fields_done.
    - unfold fs. destruct host, (range_opt range), ua; parts_eq. }
  split; apply K.
Qed.

(** CONNECT requests. *)
Theorem connect_read : forall authority path protocol origin ua room l, fit path -> opt_fit authority ->
  opt_fit protocol -> opt_fit origin -> opt_fit ua ->
  create_connect authority path protocol origin ua room = Some l ->
  parse_header_frame l = Ret (true, mk_parts h3zero_method_connect (Some path) None 0%Z h3zero_content_type_none protocol) /\
  blen l <= room.
Proof.
  intros authority path protocol origin ua room l Fp Fa Fpr Fo Fu H.
  set (lns := [Indexed 15] ++ [Indexed 23] ++ [ref 1 path] ++ opt_lines protocol (lit (chars ":protocol")) ++
              opt_lines authority (ref 0) ++ opt_lines origin (ref 90) ++ opt_lines ua (ref 95)).
  set (fs := [(chars ":method", chars "CONNECT")] ++ [(chars ":scheme", chars "https")] ++ [(chars ":path", path)] ++
             opt_fields ":protocol" protocol ++ opt_fields ":authority" authority ++ opt_fields "origin" origin ++
             opt_fields "user-agent" ua).
  assert (K : parse_header_frame l = Ret (true, mk_parts h3zero_method_connect (Some path) None 0%Z h3zero_content_type_none protocol)
    /\ header_block lns l /\ bytes_ok l /\ blen l <= room).
  { apply (created (create_connect authority path protocol origin ua) lns fs); [| | | | | | exact H].
    - unfold create_connect. apply start_writes. unfold lns.
      repeat apply seq_blocks.
      + apply one_writes, index_writes. lia.
      + apply one_writes, index_writes. lia.
      + apply one_writes, ref_writes; [lia | exact Fp].
      + apply opt_writes. intros v ->. apply name_writes; [exact colon_protocol_fit | exact Fpr].
      + apply opt_ref_writes; [lia | exact Fa].
      + apply opt_ref_writes; [lia | exact Fo].
      + apply opt_ref_writes; [lia | exact Fu].
    - unfold lns. repeat (apply Forall_app; split).
      + repeat constructor.
      + repeat constructor.
      + constructor; [exact (proj2 Fp) | constructor].
      + apply opt_raw. intros v ->. split; [exact (proj2 colon_protocol_fit) | exact (proj2 Fpr)].
      + apply opt_raw. intros v ->. exact (proj2 Fa).
      + apply opt_raw. intros v ->. exact (proj2 Fo).
      + apply opt_raw. intros v ->. exact (proj2 Fu).
    - unfold lns, fs. repeat apply Forall2_app.
      + constructor; [reflexivity | constructor].
      + constructor; [reflexivity | constructor].
      + constructor; [| constructor]. eapply ref_field. reflexivity.
      + apply opt_field. intros v _. split; reflexivity.
      + apply opt_field. intros v _. eapply ref_field. reflexivity.
      + apply opt_field. intros v _. eapply ref_field. reflexivity.
      + apply opt_field. intros v _. eapply ref_field. reflexivity.
    - split.
      + unfold lns. destruct authority, protocol, origin, ua; no55.
      + unfold fs. destruct authority, protocol, origin, ua; vals; constructor.
    - unfold fs. destruct authority, protocol, origin, ua; fields_done.
    - unfold fs. destruct authority, protocol, origin, ua; parts_eq. }
  split; apply K.
Qed.

(** The content types that have an entry. *)
Definition type_entries : list (N * (N * list N)) :=
  [(h3zero_content_type_text_html, (52, chars "text/html; charset=utf-8"));
   (h3zero_content_type_text_plain, (53, chars "text/plain"));
   (h3zero_content_type_image_gif, (48, chars "image/gif"));
   (h3zero_content_type_image_jpeg, (49, chars "image/jpeg"));
   (h3zero_content_type_image_png, (50, chars "image/png"));
   (h3zero_content_type_dns_message, (44, chars "application/dns-message"));
   (h3zero_content_type_javascript, (45, chars "application/javascript"));
   (h3zero_content_type_json, (46, chars "application/json"));
   (h3zero_content_type_www_form_urlencoded, (47, chars "application/x-www-form-urlencoded"));
   (h3zero_content_type_text_css, (51, chars "text/css"))].

Lemma type_known : forall ct, 2 <= ct <= 11 -> exists i v,
  content_type_index qpack_static 0 ct = Some i /\ i < 99 /\ i <> 55 /\
  nth_error static_table (N.to_nat i) = Some (chars "content-type", v) /\ content_type_of v = ct.
Proof.
  intros ct R.
  assert (E : forallb (fun n => match content_type_index qpack_static 0 (N.of_nat (n + 2)) with
     | Some i => (i <? 99) && negb (i =? 55) && match nth_error static_table (N.to_nat i) with
        | Some (a, v) => eq_text a (chars "content-type") && (content_type_of v =? N.of_nat (n + 2)) | None => false end
     | None => false end) (seq 0 10) = true) by (vm_compute; reflexivity).
  pose proof (all_below _ _ E (N.to_nat (ct - 2)) ltac:(lia)) as H. cbv beta in H.
  replace (N.of_nat (N.to_nat (ct - 2) + 2)) with ct in H by lia.
  destruct (content_type_index qpack_static 0 ct) as [i |]; [| discriminate].
  apply andb_true_iff in H. destruct H as [H1 H2].
  destruct (nth_error static_table (N.to_nat i)) as [[a v] |] eqn:NE; [| discriminate].
  apply andb_true_iff in H2. destruct H2 as [H2 H3]. apply eq_text_true in H2. subst a.
  apply N.eqb_eq in H3. exists i, v. split; [reflexivity |]. split; [lia |]. split; [lia |]. split; [exact NE | exact H3].
Qed.

Lemma type_unknown : forall ct, ct <= 1 -> content_type_index qpack_static 0 ct = None.
Proof.
  intros ct H. assert (K : ct = 0 \/ ct = 1) by lia. destruct K as [-> | ->]; vm_compute; reflexivity.
Qed.

Lemma type_writes : forall ct i, content_type_index qpack_static 0 ct = Some i -> i < 99 ->
  writes (encode_content_type ct) (block [Indexed i]).
Proof.
  intros ct i E I room l H. unfold encode_content_type in H. rewrite E in H.
  exact (one_writes _ _ (index_writes i I) room l H).
Qed.

(** POST requests. *)
Theorem post_read : forall path range host ct ua room l, fit path -> fit range -> opt_fit host -> opt_fit ua ->
  2 <= ct <= 11 ->
  create_post path range host ct ua room = Some l ->
  parse_header_frame l = Ret (true, mk_parts h3zero_method_post (Some path) (range_opt range) 0%Z ct None) /\
  blen l <= room.
Proof.
  intros path range host ct ua room l Fp Fr Fh Fu C H.
  destruct (type_known ct C) as (i & v & T1 & T2 & T3 & T4 & T5).
  set (lns := [Indexed 20] ++ [Indexed 23] ++ [ref 1 path] ++ opt_lines host (ref 0) ++
              opt_lines (range_opt range) (ref 55) ++ opt_lines ua (ref 95) ++ [Indexed i]).
  set (fs := [(chars ":method", chars "POST")] ++ [(chars ":scheme", chars "https")] ++ [(chars ":path", path)] ++
             opt_fields ":authority" host ++ opt_fields "range" (range_opt range) ++ opt_fields "user-agent" ua ++
             [(chars "content-type", v)]).
  assert (K : parse_header_frame l = Ret (true, mk_parts h3zero_method_post (Some path) (range_opt range) 0%Z ct None)
    /\ header_block lns l /\ bytes_ok l /\ blen l <= room).
  { apply (created (create_post path range host ct ua) lns fs); [| | | | | | exact H].
    - unfold create_post. apply start_writes. unfold lns.
      repeat apply seq_blocks.
      + apply one_writes, index_writes. lia.
      + apply one_writes, index_writes. lia.
      + apply one_writes, ref_writes; [lia | exact Fp].
      + apply opt_ref_writes; [lia | exact Fh].
      + apply range_writes. exact Fr.
      + apply opt_ref_writes; [lia | exact Fu].
      + exact (type_writes ct i T1 T2).
    - unfold lns. repeat (apply Forall_app; split).
      + repeat constructor.
      + repeat constructor.
      + constructor; [exact (proj2 Fp) | constructor].
      + apply opt_raw. intros w ->. exact (proj2 Fh).
      + apply opt_raw. unfold range_opt. intros w. destruct (0 <? blen range); [| discriminate]. intros E. injection E as <-. exact (proj2 Fr).
      + apply opt_raw. intros w ->. exact (proj2 Fu).
      + repeat constructor.
    - unfold lns, fs. repeat apply Forall2_app.
      + constructor; [reflexivity | constructor].
      + constructor; [reflexivity | constructor].
      + constructor; [| constructor]. eapply ref_field. reflexivity.
      + apply opt_field. intros w _. eapply ref_field. reflexivity.
      + apply opt_field. intros w _. eapply ref_field. reflexivity.
      + apply opt_field. intros w _. eapply ref_field. reflexivity.
      + constructor; [exact T4 | constructor].
    - split.
      + unfold lns. destruct host, (range_opt range), ua; cbn [app opt_lines In]; intros NC;
          repeat (destruct NC as [NC | NC]; [first [discriminate NC | injection NC as NC; exact (T3 NC)] |]); exact NC.
      + unfold fs. destruct host, (range_opt range), ua; vals; constructor.
    - unfold fs. destruct host, (range_opt range), ua; fields_done.
    - unfold fs. rewrite <- T5. destruct host, (range_opt range), ua; parts_eq. }
  split; apply K.
Qed.

(** Responses. *)
Theorem response_read : forall ct server room l, opt_fit server -> (ct = 0 \/ 2 <= ct <= 11) ->
  create_response ct server room = Some l ->
  parse_header_frame l = Ret (true, mk_parts 0 None None 200%Z ct None) /\ blen l <= room.
Proof.
  intros ct server room l Fs C H.
  assert (T : exists lt ft, writes (if ct =? h3zero_content_type_none then no_bytes else encode_content_type ct) (block lt) /\
     Forall raw_ok lt /\ Forall2 line_field lt ft /\ ~ In (Indexed 55) lt /\
     ((ft = [] /\ ct = 0) \/ (exists v, ft = [(chars "content-type", v)] /\ content_type_of v = ct))).
  { destruct C as [-> | C].
    - exists [], []. split; [| split; [constructor | split; [constructor | split; [exact (fun x => x) | left; split; reflexivity]]]].
      intros r x E. injection E as <-. split; [constructor | cbn; lia].
    - destruct (type_known ct C) as (i & v & T1 & T2 & T3 & T4 & T5).
      exists [Indexed i], [(chars "content-type", v)].
      replace (ct =? h3zero_content_type_none) with false by (unfold h3zero_content_type_none; lia).
      split; [exact (type_writes ct i T1 T2) |]. split; [repeat constructor |].
      split; [constructor; [exact T4 | constructor] |]. split.
      + cbn [In]. intros [NC | []]. injection NC as NC. exact (T3 NC).
      + right. exists v. split; [reflexivity | exact T5]. }
  destruct T as (lt & ft & W & R & F2 & NI & X).
  set (lns := [Indexed 25] ++ opt_lines server (ref 92) ++ lt).
  set (fs := [(chars ":status", chars "200")] ++ opt_fields "server" server ++ ft).
  assert (K : parse_header_frame l = Ret (true, mk_parts 0 None None 200%Z ct None)
    /\ header_block lns l /\ bytes_ok l /\ blen l <= room).
  { apply (created (create_response ct server) lns fs); [| | | | | | exact H].
    - unfold create_response. apply start_writes. unfold lns.
      repeat apply seq_blocks.
      + apply one_writes, index_writes. lia.
      + apply opt_ref_writes; [lia | exact Fs].
      + exact W.
    - unfold lns. repeat (apply Forall_app; split).
      + repeat constructor.
      + apply opt_raw. intros w ->. exact (proj2 Fs).
      + exact R.
    - unfold lns, fs. repeat apply Forall2_app.
      + constructor; [reflexivity | constructor].
      + apply opt_field. intros w _. eapply ref_field. reflexivity.
      + exact F2.
    - split.
      + unfold lns. destruct server; cbn [app opt_lines In]; intros NC;
          repeat (destruct NC as [NC | NC]; [discriminate NC |]); exact (NI NC).
      + unfold fs. destruct X as [[-> ->] | (v & -> & X)]; destruct server; vals; (constructor; [| constructor]);
          (split; [cbn; lia |]); intros _; vm_compute; reflexivity.
    - unfold fs. destruct X as [[-> ->] | (v & -> & X)]; destruct server; fields_done.
    - unfold fs.
      assert (S2 : forall x, status_of (chars "200") x -> x = 200%Z).
      { intros x [[_ ->] | [N _]]; [vm_compute; reflexivity |]. exfalso. apply N.
        repeat (constructor; [unfold digit; cbn; lia |]). constructor. }
      intros [m pa ra st ct' pr] (E1 & E2 & E3 & E4 & E5 & E6).
      cbn [p_method p_path p_range p_status p_content_type p_protocol] in E1, E2, E3, E4, E5, E6.
      destruct X as [[-> ->] | (v & -> & X)]; destruct server;
        vals_in E1; vals_in E2; vals_in E3; vals_in E4; vals_in E5; vals_in E6;
        apply says_nil in E1; apply says_nil in E2; apply says_nil in E3; apply says_one in E4; apply says_nil in E6;
        first [apply says_one in E5 | apply says_nil in E5]; cbv beta in E5; apply S2 in E4; subst; reflexivity. }
  split; apply K.
Qed.

Lemma response_unsupported : forall server room, create_response 1 server room = None.
Proof.
  intros server room. unfold create_response, wseq.
  destruct (frame_start room) as [x |]; [| reflexivity].
  destruct (code_encode 192 63 25 (room - blen x)) as [y |]; [| reflexivity].
  destruct (opt_encode server (literal_plus_ref_encode 92) (room - blen x - blen y)) as [z |]; [| reflexivity].
  unfold encode_content_type. rewrite (type_unknown 1) by lia. reflexivity.
Qed.

(** Errors: a code of three digits, and room for it. *)
Lemma status_writes : forall code room l, List.length code = 3%nat -> bytes_ok code -> 6 <= room ->
  (code_encode 80 15 27 >>> put_status code) room = Some l ->
  line_bytes (ref 27 code) l /\ blen l <= room.
Proof.
  intros code room l L O R H. unfold wseq in H.
  destruct (code_encode 80 15 27 room) as [x |] eqn:E; [| discriminate].
  assert (Ex : x = [95; 12]).
  { unfold code_encode in E. replace (room <? 1) with false in E by lia. unfold int_encode in E.
    replace (room =? 0) with false in E by lia. change (27 <? 15) with false in E. cbv iota in E.
    destruct (N.to_nat (room - 1)) as [| k]; [discriminate |].
    change (27 - 15) with 12 in E. cbn [int_encode_loop] in E. change (128 <=? 12) with false in E. cbv iota in E.
    injection E as <-. reflexivity. }
  subst x. unfold put_status in H. change (blen [95; 12]) with 2 in H.
  replace (room - 2 <? 4) with false in H by lia. injection H as <-.
  split; [| unfold blen; cbn [List.length]; rewrite L; lia].
  exists [95; 12], (3 :: code). split; [| split; [| reflexivity]].
  - split; [cbn [List.length]; lia |]. right. exists 12, [12]. split; [reflexivity |]. split; [reflexivity |]. constructor. lia.
  - exists [3]. split; [| reflexivity]. unfold plain. cbn [s_huff s_raw].
    split; [cbn [List.length]; lia |]. left. unfold blen. rewrite L. split; [lia | reflexivity].
Qed.

Theorem error_read : forall code server room l, opt_fit server -> List.length code = 3%nat -> Forall digit code ->
  (0 < decimal code)%Z -> 8 <= room ->
  create_error code server room = Some l ->
  parse_header_frame l = Ret (true, mk_parts 0 None None (decimal code) 0 None) /\ blen l <= room.
Proof.
  intros code server room l Fs L D Z R H.
  assert (Oc : bytes_ok code).
  { eapply Forall_impl; [| exact D]. intros a A. unfold digit in A. unfold is_byte. lia. }
  set (is404 := same_text code (chars "404")) in *.
  assert (N4 : is404 = true -> code = chars "404").
  { intros E. apply eq_text_true. exact E. }
  set (l1 := if is404 then [Indexed 27] else [ref 27 code]).
  set (is405 := same_text code (chars "405")) in *.
  set (l3 := if is405 then [ref 76 (chars "GET, POST, CONNECT")] else []).
  set (f3 := if is405 then [(chars "access-control-allow-methods", chars "GET, POST, CONNECT")] else [] : list field).
  set (fs := [(chars ":status", code)] ++ opt_fields "server" server ++ f3).
  set (lns := l1 ++ opt_lines server (ref 92) ++ l3).
  unfold create_error in H. unfold wseq at 1 in H.
  destruct (frame_start room) as [x0 |] eqn:E0; [| discriminate].
  match type of H with match ?w (room - blen x0) with _ => _ end = _ => destruct (w (room - blen x0)) as [y |] eqn:E1; [| discriminate] end.
  assert (x0 = [0; 0]) by (unfold frame_start in E0; replace (room <? 2) with false in E0 by lia; injection E0 as <-; reflexivity).
  subst x0. change (blen [0; 0]) with 2 in E1. apply some_inj in H. subst l.
  unfold wseq at 1 in E1.
  match type of E1 with match ?w (room - 2) with _ => _ end = _ => destruct (w (room - 2)) as [y1 |] eqn:E2; [| discriminate] end.
  match type of E1 with match ?w ?r with _ => _ end = _ => destruct (w r) as [y2 |] eqn:E3; [| discriminate] end.
  injection E1 as <-.
  assert (B1 : block l1 y1 /\ blen y1 <= room - 2).
  { fold is404 in E2. unfold l1. destruct is404.
    - destruct (index_writes 27 ltac:(lia) _ _ E2) as [X Y]. split; [apply block_one; exact X | exact Y].
    - destruct (status_writes code (room - 2) y1 L Oc ltac:(lia) E2) as [X Y]. split; [apply block_one; exact X | exact Y]. }
  assert (B2 : block (opt_lines server (ref 92) ++ l3) y2 /\ blen y2 <= room - 2 - blen y1).
  { revert E3. apply seq_blocks; [apply opt_ref_writes; [lia | exact Fs] |].
    fold is405. unfold l3. destruct is405.
    - apply one_writes, ref_writes; [lia |]. split; [reflexivity |]. repeat constructor.
    - intros r x E. injection E as <-. split; [constructor | cbn; lia]. }
  destruct B1 as [B1 L1]. destruct B2 as [B2 L2].
  assert (HB : header_block lns ([0; 0] ++ y1 ++ y2)).
  { exists [0; 0], (y1 ++ y2). split; [| split; [apply block_app; assumption | reflexivity]].
    exists false, 0, [0]. split; [| reflexivity]. split; [cbn [List.length]; lia |]. left. split; [lia | reflexivity]. }
  assert (RO : Forall raw_ok lns).
  { unfold lns. repeat (apply Forall_app; split).
    - unfold l1. destruct is404; repeat constructor. exact Oc.
    - apply opt_raw. intros w ->. exact (proj2 Fs).
    - unfold l3. destruct is405; repeat constructor. }
  assert (F2 : Forall2 line_field lns fs).
  { unfold lns, fs. repeat apply Forall2_app.
    - unfold l1. destruct is404.
      + rewrite (N4 eq_refl). constructor; [reflexivity | constructor].
      + constructor; [| constructor]. eapply ref_field. reflexivity.
    - apply opt_field. intros w _. eapply ref_field. reflexivity.
    - unfold l3, f3. destruct is405; constructor; [| constructor]. eapply ref_field. reflexivity. }
  pose proof (header_ok _ _ HB RO) as O.
  assert (M : mild lns fs).
  { split.
    - unfold lns, l1, l3. destruct is404, server, is405; no55.
    - unfold fs, f3. destruct server, is405; vals; (constructor; [| constructor]); (split; [lia | intros _; exact Z]). }
  assert (S : single fs) by (unfold fs, f3; destruct server, is405; fields_done).
  destruct (block_parsed lns _ fs HB O F2 M) as (ok & p & P & K & _).
  destruct (K S) as [-> E].
  split.
  - rewrite P. f_equal. f_equal. revert E. unfold fs, f3.
    assert (S2 : forall x, status_of code x -> x = decimal code).
    { intros x [[_ ->] | [N _]]; [reflexivity | contradiction]. }
    destruct p as [m pa ra st ct' pr]. intros (E1 & E4 & E5 & E6 & E7 & E8).
    cbn [p_method p_path p_range p_status p_content_type p_protocol] in E1, E4, E5, E6, E7, E8.
    clearbody is405. clear - E1 E4 E5 E6 E7 E8 S2.
    destruct server, is405;
      vals_in E1; vals_in E4; vals_in E5; vals_in E6; vals_in E7; vals_in E8;
      apply says_nil in E1; apply says_nil in E4; apply says_nil in E5; apply says_one in E6;
      apply says_nil in E7; apply says_nil in E8; apply S2 in E6; subst; reflexivity.
  - rewrite !blen_app2. change (blen [0; 0]) with 2. lia.
Qed.

(** ** Room *)

Definition needs (w : writer) (n : N) : Prop := forall room, n <= room -> exists l, w room = Some l /\ blen l <= n.

Lemma needs_seq : forall a b n m, needs a n -> needs b m -> needs (a >>> b) (n + m).
Proof.
  intros a b n m A B room R. destruct (A room ltac:(lia)) as (x & E & L).
  destruct (B (room - blen x) ltac:(lia)) as (y & E2 & L2).
  exists (x ++ y). unfold wseq. rewrite E, E2. split; [reflexivity |]. rewrite blen_app2. lia.
Qed.

Lemma needs_code : forall pre mask v, prefix mask pre -> v < 2 ^ 63 -> needs (code_encode pre mask v) 10.
Proof.
  intros pre mask v P V room R. unfold code_encode. replace (room <? 1) with false by lia.
  exact (int_encode_fits mask pre v room P V R).
Qed.

Lemma needs_put : forall v, needs (put_bytes v) (blen v).
Proof. intros v room R. unfold put_bytes. replace (room <? blen v) with false by lia. exists v. split; [reflexivity | lia]. Qed.

Lemma needs_ref : forall i v, i < 99 -> fit v -> needs (literal_plus_ref_encode i v) (20 + blen v).
Proof.
  intros i v I [V _]. unfold literal_plus_ref_encode.
  replace (20 + blen v) with (10 + (10 + blen v)) by lia.
  apply needs_seq; [apply needs_code; [pfx | change (2 ^ 63) with 9223372036854775808; lia] |].
  apply needs_seq; [apply needs_code; [pfx | exact (pow6263 _ V)] | apply needs_put].
Qed.

Lemma needs_opt : forall s i, i < 99 -> opt_fit s -> needs (opt_encode s (literal_plus_ref_encode i)) (opt_len s).
Proof.
  intros s i I F. destruct s as [v |]; cbn [opt_encode opt_len].
  - exact (needs_ref i v I F).
  - intros room _. exists []. split; [reflexivity | cbn; lia].
Qed.

Theorem request_fits : forall path range host ua room, fit path -> fit range -> opt_fit host -> opt_fit ua ->
  62 + blen path + blen range + opt_len host + opt_len ua <= room ->
  exists l, create_request path range host ua room = Some l.
Proof.
  intros path range host ua room Fp Fr Fh Fu R.
  assert (Nr : needs (range_encode range) (20 + blen range)).
  { unfold range_encode. destruct (0 <? blen range).
    - apply needs_ref; [lia | exact Fr].
    - intros r _. exists []. split; [reflexivity | cbn; lia]. }
  assert (N0 : needs frame_start 2).
  { intros r Rr. unfold frame_start. replace (r <? 2) with false by lia. exists [0; 0]. split; [reflexivity | cbn; lia]. }
  assert (K : needs (create_request path range host ua)
    (2 + (10 + (10 + ((20 + blen path) + (opt_len host + ((20 + blen range) + opt_len ua))))))).
  { unfold create_request.
    apply needs_seq; [exact N0 |].
    apply needs_seq; [apply needs_code; [pfx | change (2 ^ 63) with 9223372036854775808; lia] |].
    apply needs_seq; [apply needs_code; [pfx | change (2 ^ 63) with 9223372036854775808; lia] |].
    apply needs_seq; [apply needs_ref; [lia | exact Fp] |].
    apply needs_seq; [apply needs_opt; [lia | exact Fh] |].
    apply needs_seq; [exact Nr |].
    apply needs_opt; [lia | exact Fu]. }
  destruct (K room ltac:(lia)) as (l & E & _). exists l. exact E.
Qed.

(** ** Texts are not longer than their bits *)

Lemma hcode_pos : forall s, (s <= 256)%nat -> (1 <= List.length (hcode s))%nat.
Proof.
  intros s S.
  assert (E : forallb (fun i => Nat.leb 1 (N.to_nat (code_length i))) (seq 0 257) = true) by (vm_compute; reflexivity).
  pose proof (all_below _ _ E s ltac:(lia)) as H. cbv beta in H. apply Nat.leb_le in H.
  unfold hcode. rewrite digits_length. exact H.
Qed.

Lemma hcodes_length : forall t, bytes_ok t -> (List.length t <= List.length (hcodes t))%nat.
Proof.
  induction t as [| c t IH]; intros O; [cbn; lia |]. inversion O; subst.
  unfold hcodes. cbn [flat_map List.length]. rewrite app_length. fold (hcodes t).
  pose proof (hcode_pos (N.to_nat c) ltac:(unfold is_byte in *; lia)). specialize (IH H2). lia.
Qed.

Lemma text_length : forall t raw, huffman_of t raw -> blen t <= 8 * blen raw.
Proof.
  intros t raw (O & k & _ & E). pose proof (hcodes_length t O) as H.
  apply (f_equal (@List.length bool)) in E. rewrite bits_length, app_length in E. unfold blen. lia.
Qed.

(** The decoder says whether a string of at most 32 bytes is the code of a text, if
    it answers no. *)
Lemma no_text : forall raw ok out, bytes_ok raw -> 8 * blen raw <= 256 -> huff_decode raw 256 = Ret (ok, out) ->
  ok = false -> forall t, ~ huffman_of t raw.
Proof.
  intros raw ok out O L E F t H. pose proof (text_length t raw H) as T.
  rewrite (huff_text t raw 256 O H ltac:(lia)) in E. injection E as <- <-. discriminate.
Qed.

Lemma no_empty : forall raw, bytes_ok raw -> 1 <= blen raw -> 8 * blen raw <= 256 -> huff_decode raw 256 = Ret (true, []) ->
  forall t, ~ huffman_of t raw.
Proof.
  intros raw O P L E t H. pose proof (text_length t raw H) as T.
  rewrite (huff_text t raw 256 O H ltac:(lia)) in E. injection E as ->.
  destruct H as (_ & k & K & Eb). apply (f_equal (@List.length bool)) in Eb.
  rewrite bits_length in Eb. cbn [hcodes flat_map app] in Eb. unfold ones in Eb. rewrite repeat_length in Eb. unfold blen in *. lia.
Qed.

Lemma short_index : forall i, i < 63 -> header_block [Indexed i] [0; 0; 192 + i].
Proof.
  intros i I. exists [0; 0], ([192 + i] ++ []). split; [| split; [| reflexivity]].
  - exists false, 0, [0]. split; [| reflexivity]. split; [cbn; lia |]. left. split; [lia | reflexivity].
  - apply block_cons; [| apply block_nil]. split; [cbn; lia |]. left. split; [exact I | reflexivity].
Qed.
