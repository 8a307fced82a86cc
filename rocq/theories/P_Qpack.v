(** C55: the header blocks of HTTP/3 (QPACK). *)
From Coq Require Import Strings.String.
From Verif Require Import Base Qpack_model Qpack_spec Qpack_proofs Qpack2_proofs Qpack3_proofs Qpack4_proofs Qpack5_proofs.

(** The integers read are exactly those represented, in at most ten bytes, at the
    start of the buffer. *)
Theorem C55_int_decode : forall mask l v r, In mask [7; 15; 63; 127] -> bytes_ok l ->
  (int_decode mask l = (v, Some r) <->
   exists hi p, prefix mask hi /\ int_repr mask hi v p /\ l = p ++ r).
Proof. exact int_decode_iff. Qed.
Print Assumptions C55_int_decode.

(** 1337 with a prefix of seven bits, and a number of ten bytes. *)
Example C55_int_decode_ex :
  int_decode 127 [255; 186; 9; 5] = (1337, Some [5]) /\
  int_decode 127 [127; 255; 255; 255; 255; 255; 255; 255; 255; 127] = (9223372036854775934, Some []) /\
  int_decode 127 [127; 255; 255; 255; 255; 255; 255; 255; 255; 255; 0] = (127, None).
Proof. repeat split; vm_compute; reflexivity. Qed.

(** An integer takes at least a byte, and does not exceed [2^63 + 126]. *)
Theorem C55_int_bound : forall mask l v r, In mask [7; 15; 63; 127] -> bytes_ok l ->
  int_decode mask l = (v, Some r) -> v < 2 ^ 63 + 127 /\ blen r < blen l.
Proof. exact int_value_bound. Qed.
Print Assumptions C55_int_bound.

Example C55_int_bound_ex : int_decode 15 [95; 12; 1] = (27, Some [1]) /\ bytes_ok [95; 12; 1].
Proof. split; [vm_compute; reflexivity | repeat constructor]. Qed.

(** What is written is a representation of the integer, the shortest, and does not go
    beyond the buffer. *)
Theorem C55_int_encode : forall mask hi v room p, prefix mask hi -> v < 2 ^ 63 ->
  int_encode hi mask v room = Some p ->
  int_repr mask hi v p /\ blen p <= room /\ (forall q, int_repr mask hi v q -> blen p <= blen q).
Proof. exact int_encode_repr. Qed.
Print Assumptions C55_int_encode.

Example C55_int_encode_ex :
  prefix 127 128 /\ int_encode 128 127 1337 3 = Some [255; 186; 9] /\ int_encode 128 127 1337 2 = None.
Proof. split; [split; [cbn; tauto |]; split; [reflexivity | lia] |]. split; vm_compute; reflexivity. Qed.

(** Ten bytes are always enough. *)
Theorem C55_int_fits : forall mask hi v room, prefix mask hi -> v < 2 ^ 63 -> 10 <= room ->
  exists p, int_encode hi mask v room = Some p /\ blen p <= 10.
Proof. exact int_encode_fits. Qed.
Print Assumptions C55_int_fits.

Example C55_int_fits_ex :
  9223372036854775807 < 2 ^ 63 /\
  int_encode 0 127 9223372036854775807 10 = Some [127; 128; 255; 255; 255; 255; 255; 255; 255; 127].
Proof. split; vm_compute; reflexivity. Qed.

(** What is written is read back. *)
Theorem C55_int_round_trip : forall mask hi v room p r, prefix mask hi -> v < 2 ^ 63 ->
  int_encode hi mask v room = Some p -> int_decode mask (p ++ r) = (v, Some r).
Proof. exact int_round_trip. Qed.
Print Assumptions C55_int_round_trip.

Example C55_int_round_trip_ex :
  int_encode 80 15 27 10 = Some [95; 12] /\ int_decode 15 ([95; 12] ++ [3; 4]) = (27, Some [3; 4]).
Proof. split; vm_compute; reflexivity. Qed.

(** Huffman decoding is defined and terminates on all bytes; the text is that of the
    code words at the start of the bits, in order, and only the four reasons of [stops] end
    it. *)
Theorem C55_huffman_total : forall l max, bytes_ok l ->
  exists ok out tail, huff_decode l max = Ret (ok, out) /\ bits l = hcodes out ++ tail /\
    bytes_ok out /\ blen out <= max /\ stops ok tail (blen out =? max).
Proof. exact huff_total. Qed.
Print Assumptions C55_huffman_total.

(** A string that ends within a code word, and one that is cut. *)
Example C55_huffman_total_ex :
  huff_decode [0; 68; 255; 1] 256 = Ret (false, chars "0129U") /\
  huff_decode [241; 227; 194; 229; 242; 58; 107; 160; 171; 144; 244; 255] 3 = Ret (true, chars "www").
Proof. split; vm_compute; reflexivity. Qed.

(** Well-formed strings are decoded to their text. *)
Theorem C55_huffman_text : forall t raw max, bytes_ok raw -> huffman_of t raw -> blen t <= max ->
  huff_decode raw max = Ret (true, t).
Proof. exact huff_text. Qed.
Print Assumptions C55_huffman_text.

(** RFC 7541, C.4.1. *)
Example C55_huffman_text_ex :
  huffman_of (chars "www.example.com") [241; 227; 194; 229; 242; 58; 107; 160; 171; 144; 244; 255] /\
  huff_decode [241; 227; 194; 229; 242; 58; 107; 160; 171; 144; 244; 255] 256 = Ret (true, chars "www.example.com").
Proof.
  split; [| vm_compute; reflexivity]. split; [repeat constructor |]. exists 7%nat. split; [lia |]. vm_compute. reflexivity.
Qed.

(** A string is the code of one text at most. *)
Theorem C55_huffman_unique : forall t t' raw, huffman_of t raw -> huffman_of t' raw -> t = t'.
Proof. exact huff_unique. Qed.
Print Assumptions C55_huffman_unique.

Example C55_huffman_unique_ex : huffman_of (chars "0") [7].
Proof. split; [repeat constructor |]. exists 3%nat. split; [lia | vm_compute; reflexivity]. Qed.

(** The parser terminates on all bytes, and is defined unless the frame, after correct
    lines, has an index just after the static table or a status that exceeds an [int].  What it
    accepts is a header block, with indices of the static table only. *)
Theorem C55_parse_defined : forall l, bytes_ok l ->
  match parse_header_frame l with
  | NoFuel => False
  | Undef => exists s lns l1 l2, block_start s /\ block lns l1 /\ harmful l2 /\ l = s ++ l1 ++ l2
  | Ret (true, _) => exists lns, header_block lns l /\ Forall index_ok lns
  | Ret (false, _) => True
  end.
Proof. exact frame_defined. Qed.
Print Assumptions C55_parse_defined.

(** A GET of /index, with a literal field; a dynamic reference; a value that is cut. *)
Example C55_parse_defined_ex :
  parse_header_frame ([0; 0; 209; 215; 81; 6] ++ chars "/index" ++ [35] ++ chars "abc" ++ [1; 100]) =
    Ret (true, mk_parts h3zero_method_get (Some (chars "/index")) None 0%Z 0 None) /\
  parse_header_frame [0; 0; 209; 128] = Ret (false, mk_parts h3zero_method_get None None 0%Z 0 None) /\
  parse_header_frame [0; 0; 209; 215; 81; 6; 47; 105] = Ret (false, mk_parts h3zero_method_get None None 0%Z 0 None).
Proof. repeat split; vm_compute; reflexivity. Qed.

(** A header block with well-formed strings is accepted if and only if no known field
    is repeated, and the parts are those that the fields say.  "Mild" leaves out what the
    findings below show. *)
Theorem C55_meaning_partial : forall lns l fs, header_block lns l -> bytes_ok l -> Forall2 line_field lns fs ->
  mild lns fs ->
  exists ok p, parse_header_frame l = Ret (ok, p) /\
    (single fs -> ok = true /\ expected fs p) /\ (~ single fs -> ok = false).
Proof. exact block_parsed. Qed.
Print Assumptions C55_meaning_partial.

Definition lines1 : list line :=
  [Indexed 20; NameRef true 1 (mk_str true [96; 31]); Literal false (mk_str false (chars "content-type")) (mk_str false (chars "text/css"))].
Definition fields1 : list field :=
  [(chars ":method", chars "POST"); (chars ":path", chars "/0"); (chars "content-type", chars "text/css")].
Definition bytes1 : list N :=
  [0; 128; 212; 113; 130; 96; 31; 39; 5] ++ chars "content-type" ++ [8] ++ chars "text/css".

Example C55_meaning_ex :
  header_block lines1 bytes1 /\ Forall2 line_field lines1 fields1 /\ mild lines1 fields1 /\ single fields1 /\
  parse_header_frame bytes1 =
    Ret (true, mk_parts h3zero_method_post (Some (chars "/0")) None 0%Z h3zero_content_type_text_css None).
Proof.
  split.
  { exists [0; 128], ([212] ++ ([113; 130; 96; 31] ++ ((39 :: 5 :: chars "content-type" ++ [8] ++ chars "text/css") ++ []))).
    split; [| split; [| vm_compute; reflexivity]].
    - exists true, 0, [128]. split; [| reflexivity]. split; [cbn; lia |]. left. split; [lia | reflexivity].
    - repeat apply block_cons; try apply block_nil.
      + split; [cbn; lia |]. left. split; [lia | reflexivity].
      + exists [113], [130; 96; 31]. split; [split; [cbn; lia |]; left; split; [lia | reflexivity] |].
        split; [| reflexivity]. exists [130]. split; [| reflexivity]. split; [cbn; lia |]. left. split; [reflexivity | reflexivity].
      + exists (39 :: 5 :: chars "content-type"), (8 :: chars "text/css").
        split; [| split; [| vm_compute; reflexivity]].
        * exists [39; 5]. split; [| vm_compute; reflexivity]. split; [cbn; lia |].
          right. exists 5, [5]. split; [reflexivity |]. split; [reflexivity |]. constructor. lia.
        * exists [8]. split; [| vm_compute; reflexivity]. split; [cbn; lia |]. left. split; reflexivity. }
  split.
  { apply Forall2_cons; [reflexivity |]. apply Forall2_cons; [| apply Forall2_cons; [| apply Forall2_nil]].
    - exists (chars "/"). split; [reflexivity |]. cbn [text s_huff s_raw snd]. split; [| cbn; lia].
      split; [repeat constructor |]. exists 5%nat. split; [lia |]. vm_compute. reflexivity.
    - split; reflexivity. }
  split; [split; [cbn; intuition discriminate | vm_compute; constructor] |].
  split; [unfold single, known; repeat (apply Forall_cons; [vm_compute; lia |]); apply Forall_nil |].
  vm_compute. reflexivity.
Qed.

(** A GET request is read back with its path and range. *)
Theorem C55_request : forall path range host ua room l, fit path -> fit range -> opt_fit host -> opt_fit ua ->
  create_request path range host ua room = Some l ->
  parse_header_frame l = Ret (true, mk_parts h3zero_method_get (Some path) (range_opt range) 0%Z h3zero_content_type_none None) /\
  blen l <= room.
Proof. exact request_read. Qed.
Print Assumptions C55_request.

Example C55_request_ex : exists l,
  create_request (chars "/a/b?c") (chars "bytes=5-") (Some (chars "example.com")) None 64 = Some l /\
  parse_header_frame l = Ret (true, mk_parts h3zero_method_get (Some (chars "/a/b?c")) (Some (chars "bytes=5-")) 0%Z 0 None).
Proof. eexists. split; vm_compute; reflexivity. Qed.

(** There is a frame when the buffer has room for the strings and 62 bytes more, 20 for each
    option. *)
Theorem C55_request_fits : forall path range host ua room, fit path -> fit range -> opt_fit host -> opt_fit ua ->
  62 + blen path + blen range + opt_len host + opt_len ua <= room ->
  exists l, create_request path range host ua room = Some l.
Proof. exact request_fits. Qed.
Print Assumptions C55_request_fits.

Example C55_request_fits_ex :
  62 + blen (chars "/") + blen [] + opt_len None + opt_len None = 63 /\
  create_request (chars "/") [] None None 63 = Some [0; 0; 209; 215; 81; 1; 47] /\
  create_request (chars "/") [] None None 6 = None.
Proof. repeat split; vm_compute; reflexivity. Qed.

(** A POST request is read back, with its content type. *)
Theorem C55_post : forall path range host ct ua room l, fit path -> fit range -> opt_fit host -> opt_fit ua ->
  2 <= ct <= 11 ->
  create_post path range host ct ua room = Some l ->
  parse_header_frame l = Ret (true, mk_parts h3zero_method_post (Some path) (range_opt range) 0%Z ct None) /\
  blen l <= room.
Proof. exact post_read. Qed.
Print Assumptions C55_post.

Example C55_post_ex : exists l,
  create_post (chars "/up") [] (Some (chars "h")) h3zero_content_type_json (Some (chars "ua")) 64 = Some l /\
  parse_header_frame l = Ret (true, mk_parts h3zero_method_post (Some (chars "/up")) None 0%Z h3zero_content_type_json None).
Proof. eexists. split; vm_compute; reflexivity. Qed.

(** A CONNECT request is read back, with its protocol. *)
Theorem C55_connect : forall authority path protocol origin ua room l, fit path -> opt_fit authority ->
  opt_fit protocol -> opt_fit origin -> opt_fit ua ->
  create_connect authority path protocol origin ua room = Some l ->
  parse_header_frame l = Ret (true, mk_parts h3zero_method_connect (Some path) None 0%Z h3zero_content_type_none protocol) /\
  blen l <= room.
Proof. exact connect_read. Qed.
Print Assumptions C55_connect.

Example C55_connect_ex : exists l,
  create_connect (Some (chars "h:443")) (chars "/baton") (Some (chars "webtransport")) (Some (chars "https://h")) None 128 = Some l /\
  parse_header_frame l = Ret (true, mk_parts h3zero_method_connect (Some (chars "/baton")) None 0%Z 0 (Some (chars "webtransport"))).
Proof. eexists. split; vm_compute; reflexivity. Qed.

(** A response is read back: status 200, and the content type, if any. *)
Theorem C55_response : forall ct server room l, opt_fit server -> (ct = 0 \/ 2 <= ct <= 11) ->
  create_response ct server room = Some l ->
  parse_header_frame l = Ret (true, mk_parts 0 None None 200%Z ct None) /\ blen l <= room.
Proof. exact response_read. Qed.
Print Assumptions C55_response.

Example C55_response_ex : exists l,
  create_response h3zero_content_type_text_html (Some (chars "picoquic")) 64 = Some l /\
  parse_header_frame l = Ret (true, mk_parts 0 None None 200%Z h3zero_content_type_text_html None).
Proof. eexists. split; vm_compute; reflexivity. Qed.

(** An error of three digits is read back, if the buffer has room for it. *)
Theorem C55_error_partial : forall code server room l, opt_fit server -> List.length code = 3%nat -> Forall digit code ->
  (0 < decimal code)%Z -> 8 <= room ->
  create_error code server room = Some l ->
  parse_header_frame l = Ret (true, mk_parts 0 None None (decimal code) 0 None) /\ blen l <= room.
Proof. exact error_read. Qed.
Print Assumptions C55_error_partial.

Example C55_error_ex :
  create_error (chars "404") None 8 = Some [0; 0; 219] /\ decimal (chars "404") = 404%Z /\
  parse_header_frame [0; 0; 219] = Ret (true, mk_parts 0 None None 404%Z 0 None) /\
  create_error (chars "501") None 8 = Some [0; 0; 95; 12; 3; 53; 48; 49] /\
  exists l, create_error (chars "405") (Some (chars "pico")) 64 = Some l /\
    parse_header_frame l = Ret (true, mk_parts 0 None None 405%Z 0 None).
Proof. do 4 (split; [vm_compute; reflexivity |]). eexists. split; vm_compute; reflexivity. Qed.

(** FINDING: the index is compared with the size of the table with ">" (h3zero.c 566 and
    633), so the index 99 reads an entry after the end of the static table: four bytes of a peer
    cause an access out of bounds. *)
Theorem C55_index_refuted : exists l l', bytes_ok l /\ bytes_ok l' /\
  parse_header_frame l = Undef /\ parse_header_frame l' = Undef /\
  blen l = 4 /\ blen l' = 5.
Proof.
  exists [0; 0; 255; 36], [0; 0; 95; 84; 0].
  split; [repeat constructor |]. split; [repeat constructor |]. repeat split; vm_compute; reflexivity.
Qed.
Print Assumptions C55_index_refuted.

(** FINDING: the digits of a status are accumulated in an [int] without limit (h3zero.c
    366-382): ten digits overflow it. *)
Theorem C55_status_overflow_refuted : exists l, bytes_ok l /\ parse_header_frame l = Undef /\
  l = [0; 0; 95; 12; 10] ++ chars "9999999999".
Proof. exists ([0; 0; 95; 12; 10] ++ chars "9999999999"). split; [repeat constructor |]. split; vm_compute; reflexivity. Qed.
Print Assumptions C55_status_overflow_refuted.

(** FINDING: a string that is not the Huffman code of any text is not refused: its bytes
    are taken as they are (h3zero.c 425-434), here as a path. *)
Theorem C55_huffman_error_refuted : exists l raw, bytes_ok l /\
  header_block [NameRef false 1 (mk_str true raw)] l /\ (forall t, ~ huffman_of t raw) /\
  parse_header_frame l = Ret (true, mk_parts 0 (Some raw) None 0%Z 0 None).
Proof.
  exists [0; 0; 81; 129; 0], [0]. split; [repeat constructor |]. split.
  { exists [0; 0], ([81; 129; 0] ++ []). split; [| split; [| reflexivity]].
    - exists false, 0, [0]. split; [| reflexivity]. split; [cbn; lia |]. left. split; [lia | reflexivity].
    - apply block_cons; [| apply block_nil]. exists [81], [129; 0].
      split; [split; [cbn; lia |]; left; split; [lia | reflexivity] |]. split; [| reflexivity].
      exists [129]. split; [| reflexivity]. split; [cbn; lia |]. left. split; reflexivity. }
  split; [| vm_compute; reflexivity].
  apply (no_text [0] false [48]); [repeat constructor | vm_compute; discriminate | vm_compute; reflexivity | reflexivity].
Qed.
Print Assumptions C55_huffman_error_refuted.

(** FINDING: padding of more than seven ones, which RFC 7541 (5.2) makes a decoding error, and
    the end-of-string symbol followed by anything, are accepted; the rest is ignored. *)
Theorem C55_huffman_padding_refuted : exists raw raw',
  bytes_ok raw /\ bytes_ok raw' /\ (forall t, ~ huffman_of t raw) /\ (forall t, ~ huffman_of t raw') /\
  huff_decode raw 256 = Ret (true, []) /\ huff_decode raw' 256 = Ret (true, []) /\
  raw = [255; 255] /\ raw' = [255; 255; 255; 255; 0; 1; 2].
Proof.
  exists [255; 255], [255; 255; 255; 255; 0; 1; 2].
  split; [repeat constructor |]. split; [repeat constructor |].
  split; [apply no_empty; [repeat constructor | vm_compute; discriminate | vm_compute; discriminate | vm_compute; reflexivity] |].
  split; [apply no_empty; [repeat constructor | vm_compute; discriminate | vm_compute; discriminate | vm_compute; reflexivity] |].
  repeat split; vm_compute; reflexivity.
Qed.
Print Assumptions C55_huffman_padding_refuted.

(** FINDING: a Huffman string of more than 256 characters is cut, without error: a path of
    264 zeros is taken for one of 256. *)
Theorem C55_huffman_truncated_refuted : exists t raw l, huffman_of t raw /\ bytes_ok l /\ blen t = 264 /\
  l = [0; 0; 81; 255; 38] ++ raw /\
  parse_header_frame l = Ret (true, mk_parts 0 (Some (firstn 256 t)) None 0%Z 0 None).
Proof.
  exists (repeat 48 264), (repeat 0 165), ([0; 0; 81; 255; 38] ++ repeat 0 165).
  split; [split; [repeat constructor |]; exists 0%nat; split; [lia | vm_compute; reflexivity] |].
  split; [repeat constructor |]. repeat split; vm_compute; reflexivity.
Qed.
Print Assumptions C55_huffman_truncated_refuted.

(** FINDING: an indexed line for the range (entry 55, "bytes=0-") is ignored: there is no case
    for it in the switch of the indexed lines (h3zero.c 571-621). *)
Theorem C55_range_refuted : exists lns l fs p, header_block lns l /\ Forall2 line_field lns fs /\ single fs /\
  parse_header_frame l = Ret (true, p) /\ values "range" fs = [chars "bytes=0-"] /\ p_range p = None /\ ~ expected fs p.
Proof.
  exists [Indexed 55], [0; 0; 247], [(chars "range", chars "bytes=0-")], no_parts.
  split; [exact (short_index 55 ltac:(lia)) |].
  split; [apply Forall2_cons; [reflexivity | apply Forall2_nil] |].
  split; [unfold single, known; repeat (apply Forall_cons; [vm_compute; lia |]); apply Forall_nil |].
  do 3 (split; [vm_compute; reflexivity |]).
  intros (_ & _ & R & _). destruct R as [[E _] | (v & E & X)]; [vm_compute in E; discriminate E | discriminate X].
Qed.
Print Assumptions C55_range_refuted.

(** FINDING: a status of value zero leaves the status "not set", so a second one is
    accepted and replaces it. *)
Theorem C55_repeat_refuted : exists lns l fs p, header_block lns l /\ Forall2 line_field lns fs /\ ~ single fs /\
  parse_header_frame l = Ret (true, p) /\ p_status p = 200%Z.
Proof.
  exists [NameRef false 25 (mk_str false (chars "000")); Indexed 25], [0; 0; 95; 10; 3; 48; 48; 48; 217],
    [(chars ":status", chars "000"); (chars ":status", chars "200")], (mk_parts 0 None None 200%Z 0 None).
  split.
  { exists [0; 0], ([95; 10; 3; 48; 48; 48] ++ [217] ++ []). split; [| split; [| reflexivity]].
    - exists false, 0, [0]. split; [| reflexivity]. split; [cbn; lia |]. left. split; [lia | reflexivity].
    - apply block_cons; [| apply block_cons; [| apply block_nil]].
      + exists [95; 10], [3; 48; 48; 48]. split.
        { split; [cbn; lia |]. right. exists 10, [10]. split; [reflexivity |]. split; [reflexivity |]. constructor. lia. }
        split; [| reflexivity]. exists [3]. split; [| reflexivity]. split; [cbn; lia |]. left. split; reflexivity.
      + split; [cbn; lia |]. left. split; [lia | reflexivity]. }
  split.
  { apply Forall2_cons; [| apply Forall2_cons; [reflexivity | apply Forall2_nil]]. exists (chars "200"). split; reflexivity. }
  split.
  { intros S. unfold single in S. rewrite Forall_forall in S. specialize (S ":status"%string ltac:(unfold known; cbn; tauto)).
    vm_compute in S. lia. }
  split; vm_compute; reflexivity.
Qed.
Print Assumptions C55_repeat_refuted.

(** FINDING: when the buffer has no room for the status, h3zero_create_error_frame does not
    fail (h3zero.c 985-990) but goes on without it: a frame that the parser rejects. *)
Theorem C55_error_refuted : exists code room l p, List.length code = 3%nat /\ Forall digit code /\
  create_error code None room = Some l /\ parse_header_frame l = Ret (false, p).
Proof.
  exists (chars "501"), 7, [0; 0; 95; 12], no_parts. split; [reflexivity |].
  split; [repeat (apply Forall_cons; [unfold digit; vm_compute; split; discriminate |]); apply Forall_nil |].
  split; vm_compute; reflexivity.
Qed.
Print Assumptions C55_error_refuted.
