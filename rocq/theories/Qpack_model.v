(** Model of the QPACK code of picohttp/h3zero.c: integers, the static table, the
    Huffman decoder, the parser of header blocks and the functions that create them
    (definitions only).  Buffers are lists of bytes; a test [bytes + n > bytes_max] is a
    comparison of numbers; memory allocations succeed. *)
From Verif Require Import Base.
From Coq Require Import Strings.String Strings.Ascii.

(** The outcome of a function: undefined behaviour, more steps than the model gives it,
    or a result. *)
Inductive outcome (A : Type) := Undef | NoFuel | Ret (a : A).
Arguments Undef {A}.
Arguments NoFuel {A}.
Arguments Ret {A} a.

(** The bytes of a C string literal (without the final zero). *)
Fixpoint chars (s : string) : list N :=
  match s with
  | EmptyString => []
  | String c r => N_of_ascii c :: chars r
  end.

(** picohttp/h3zero.h 77-133, http_header_enum_t. *)
(** h3zero.h:78 *) Definition http_header_unknown : N := 0.
(** h3zero.h:79 *) Definition http_pseudo_header_authority : N := 1.
(** h3zero.h:80 *) Definition http_pseudo_header_path : N := 2.
(** h3zero.h:81 *) Definition http_header_age : N := 3.
(** h3zero.h:82 *) Definition http_header_content_disposition : N := 4.
(** h3zero.h:83 *) Definition http_header_content_length : N := 5.
(** h3zero.h:84 *) Definition http_header_cookie : N := 6.
(** h3zero.h:85 *) Definition http_header_date : N := 7.
(** h3zero.h:86 *) Definition http_header_etag : N := 8.
(** h3zero.h:87 *) Definition http_header_if_modified_since : N := 9.
(** h3zero.h:88 *) Definition http_header_if_none_match : N := 10.
(** h3zero.h:89 *) Definition http_header_last_modified : N := 11.
(** h3zero.h:90 *) Definition http_header_link : N := 12.
(** h3zero.h:91 *) Definition http_header_location : N := 13.
(** h3zero.h:92 *) Definition http_header_referer : N := 14.
(** h3zero.h:93 *) Definition http_header_set_cookie : N := 15.
(** h3zero.h:94 *) Definition http_pseudo_header_method : N := 16.
(** h3zero.h:95 *) Definition http_pseudo_header_scheme : N := 17.
(** h3zero.h:96 *) Definition http_pseudo_header_status : N := 18.
(** h3zero.h:97 *) Definition http_pseudo_header_protocol : N := 19.
(** h3zero.h:98 *) Definition http_header_accept : N := 20.
(** h3zero.h:99 *) Definition http_header_accept_encoding : N := 21.
(** h3zero.h:100 *) Definition http_header_accept_ranges : N := 22.
(** h3zero.h:101 *) Definition http_header_access_control_allow_headers : N := 23.
(** h3zero.h:102 *) Definition http_header_access_control_allow_origin : N := 24.
(** h3zero.h:103 *) Definition http_header_cache_control : N := 25.
(** h3zero.h:104 *) Definition http_header_content_encoding : N := 26.
(** h3zero.h:105 *) Definition http_header_content_type : N := 27.
(** h3zero.h:106 *) Definition http_header_range : N := 28.
(** h3zero.h:107 *) Definition http_header_strict_transport_security : N := 29.
(** h3zero.h:108 *) Definition http_header_vary : N := 30.
(** h3zero.h:109 *) Definition http_header_x_content_type_options : N := 31.
(** h3zero.h:110 *) Definition http_header_x_xss_protection : N := 32.
(** h3zero.h:111 *) Definition http_header_accept_language : N := 33.
(** h3zero.h:112 *) Definition http_header_access_control_allow_credentials : N := 34.
(** h3zero.h:113 *) Definition http_header_access_control_allow_methods : N := 35.
(** h3zero.h:114 *) Definition http_header_access_control_expose_headers : N := 36.
(** h3zero.h:115 *) Definition http_header_access_control_request_headers : N := 37.
(** h3zero.h:116 *) Definition http_header_access_control_request_method : N := 38.
(** h3zero.h:117 *) Definition http_header_alt_svc : N := 39.
(** h3zero.h:118 *) Definition http_header_authorization : N := 40.
(** h3zero.h:119 *) Definition http_header_content_security_policy : N := 41.
(** h3zero.h:120 *) Definition http_header_early_data : N := 42.
(** h3zero.h:121 *) Definition http_header_expect_ct : N := 43.
(** h3zero.h:122 *) Definition http_header_forwarded : N := 44.
(** h3zero.h:123 *) Definition http_header_if_range : N := 45.
(** h3zero.h:124 *) Definition http_header_origin : N := 46.
(** h3zero.h:125 *) Definition http_header_purpose : N := 47.
(** h3zero.h:126 *) Definition http_header_server : N := 48.
(** h3zero.h:127 *) Definition http_header_timing_allow_origin : N := 49.
(** h3zero.h:128 *) Definition http_header_upgrade_insecure_requests : N := 50.
(** h3zero.h:129 *) Definition http_header_user_agent : N := 51.
(** h3zero.h:130 *) Definition http_header_x_forwarded_for : N := 52.
(** h3zero.h:131 *) Definition http_header_x_frame_options : N := 53.
(** h3zero.h:132 *) Definition http_header_max : N := 54.

(** picohttp/h3zero.h 157-170, h3zero_content_type_enum. *)
(** h3zero.h:158 *) Definition h3zero_content_type_none : N := 0.
(** h3zero.h:159 *) Definition h3zero_content_type_not_supported : N := 1.
(** h3zero.h:160 *) Definition h3zero_content_type_text_html : N := 2.
(** h3zero.h:161 *) Definition h3zero_content_type_text_plain : N := 3.
(** h3zero.h:162 *) Definition h3zero_content_type_image_gif : N := 4.
(** h3zero.h:163 *) Definition h3zero_content_type_image_jpeg : N := 5.
(** h3zero.h:164 *) Definition h3zero_content_type_image_png : N := 6.
(** h3zero.h:165 *) Definition h3zero_content_type_dns_message : N := 7.
(** h3zero.h:166 *) Definition h3zero_content_type_javascript : N := 8.
(** h3zero.h:167 *) Definition h3zero_content_type_json : N := 9.
(** h3zero.h:168 *) Definition h3zero_content_type_www_form_urlencoded : N := 10.
(** h3zero.h:169 *) Definition h3zero_content_type_text_css : N := 11.

(** picohttp/h3zero.h 172-182, h3zero_method_enum. *)
(** h3zero.h:173 *) Definition h3zero_method_none : N := 0.
(** h3zero.h:174 *) Definition h3zero_method_not_supported : N := 1.
(** h3zero.h:175 *) Definition h3zero_method_connect : N := 2.
(** h3zero.h:176 *) Definition h3zero_method_delete : N := 3.
(** h3zero.h:177 *) Definition h3zero_method_get : N := 4.
(** h3zero.h:178 *) Definition h3zero_method_head : N := 5.
(** h3zero.h:179 *) Definition h3zero_method_options : N := 6.
(** h3zero.h:180 *) Definition h3zero_method_post : N := 7.
(** h3zero.h:181 *) Definition h3zero_method_put : N := 8.

(** picohttp/h3zero.h 150-155, h3zero_qpack_static_t; the index is the position. *)
Record entry := mk_entry { e_header : N; e_content : option (list N); e_enum : N }.

(** picohttp/h3zero.c 172-272, qpack_static. *)
Definition qpack_static : list entry := [
  (* 0 *) mk_entry http_pseudo_header_authority None 0;
  (* 1 *) mk_entry http_pseudo_header_path (Some (chars "/")) 0;
  (* 2 *) mk_entry http_header_age (Some (chars "0")) 0;
  (* 3 *) mk_entry http_header_content_disposition None 0;
  (* 4 *) mk_entry http_header_content_length (Some (chars "0")) 0;
  (* 5 *) mk_entry http_header_cookie None 0;
  (* 6 *) mk_entry http_header_date None 0;
  (* 7 *) mk_entry http_header_etag None 0;
  (* 8 *) mk_entry http_header_if_modified_since None 0;
  (* 9 *) mk_entry http_header_if_none_match None 0;
  (* 10 *) mk_entry http_header_last_modified None 0;
  (* 11 *) mk_entry http_header_link None 0;
  (* 12 *) mk_entry http_header_location None 0;
  (* 13 *) mk_entry http_header_referer None 0;
  (* 14 *) mk_entry http_header_set_cookie None 0;
  (* 15 *) mk_entry http_pseudo_header_method (Some (chars "CONNECT")) h3zero_method_connect;
  (* 16 *) mk_entry http_pseudo_header_method (Some (chars "DELETE")) h3zero_method_delete;
  (* 17 *) mk_entry http_pseudo_header_method (Some (chars "GET")) h3zero_method_get;
  (* 18 *) mk_entry http_pseudo_header_method (Some (chars "HEAD")) h3zero_method_head;
  (* 19 *) mk_entry http_pseudo_header_method (Some (chars "OPTIONS")) h3zero_method_options;
  (* 20 *) mk_entry http_pseudo_header_method (Some (chars "POST")) h3zero_method_post;
  (* 21 *) mk_entry http_pseudo_header_method (Some (chars "PUT")) h3zero_method_put;
  (* 22 *) mk_entry http_pseudo_header_scheme (Some (chars "http")) 0;
  (* 23 *) mk_entry http_pseudo_header_scheme (Some (chars "https")) 0;
  (* 24 *) mk_entry http_pseudo_header_status (Some (chars "103")) 103;
  (* 25 *) mk_entry http_pseudo_header_status (Some (chars "200")) 200;
  (* 26 *) mk_entry http_pseudo_header_status (Some (chars "304")) 304;
  (* 27 *) mk_entry http_pseudo_header_status (Some (chars "404")) 404;
  (* 28 *) mk_entry http_pseudo_header_status (Some (chars "503")) 503;
  (* 29 *) mk_entry http_header_accept (Some (chars "*/*")) 0;
  (* 30 *) mk_entry http_header_accept (Some (chars "application/dns-message")) 0;
  (* 31 *) mk_entry http_header_accept_encoding (Some (chars "gzip, deflate, br")) 0;
  (* 32 *) mk_entry http_header_accept_ranges (Some (chars "bytes")) 0;
  (* 33 *) mk_entry http_header_access_control_allow_headers (Some (chars "cache-control")) 0;
  (* 34 *) mk_entry http_header_access_control_allow_headers (Some (chars "content-type")) 0;
  (* 35 *) mk_entry http_header_access_control_allow_origin (Some (chars "*")) 0;
  (* 36 *) mk_entry http_header_cache_control (Some (chars "max-age=0")) 0;
  (* 37 *) mk_entry http_header_cache_control (Some (chars "max-age=2592000")) 0;
  (* 38 *) mk_entry http_header_cache_control (Some (chars "max-age=604800")) 0;
  (* 39 *) mk_entry http_header_cache_control (Some (chars "no-cache")) 0;
  (* 40 *) mk_entry http_header_cache_control (Some (chars "no-store")) 0;
  (* 41 *) mk_entry http_header_cache_control (Some (chars "public, max-age=31536000")) 0;
  (* 42 *) mk_entry http_header_content_encoding (Some (chars "br")) 0;
  (* 43 *) mk_entry http_header_content_encoding (Some (chars "gzip")) 0;
  (* 44 *) mk_entry http_header_content_type (Some (chars "application/dns-message")) h3zero_content_type_dns_message;
  (* 45 *) mk_entry http_header_content_type (Some (chars "application/javascript")) h3zero_content_type_javascript;
  (* 46 *) mk_entry http_header_content_type (Some (chars "application/json")) h3zero_content_type_json;
  (* 47 *) mk_entry http_header_content_type (Some (chars "application/x-www-form-urlencoded")) h3zero_content_type_www_form_urlencoded;
  (* 48 *) mk_entry http_header_content_type (Some (chars "image/gif")) h3zero_content_type_image_gif;
  (* 49 *) mk_entry http_header_content_type (Some (chars "image/jpeg")) h3zero_content_type_image_jpeg;
  (* 50 *) mk_entry http_header_content_type (Some (chars "image/png")) h3zero_content_type_image_png;
  (* 51 *) mk_entry http_header_content_type (Some (chars "text/css")) h3zero_content_type_text_css;
  (* 52 *) mk_entry http_header_content_type (Some (chars "text/html; charset=utf-8")) h3zero_content_type_text_html;
  (* 53 *) mk_entry http_header_content_type (Some (chars "text/plain")) h3zero_content_type_text_plain;
  (* 54 *) mk_entry http_header_content_type (Some (chars "text/plain;charset=utf-8")) h3zero_content_type_text_plain;
  (* 55 *) mk_entry http_header_range (Some (chars "bytes=0-")) 0;
  (* 56 *) mk_entry http_header_strict_transport_security (Some (chars "max-age=31536000")) 0;
  (* 57 *) mk_entry http_header_strict_transport_security (Some (chars "max-age=31536000; includesubdomains")) 0;
  (* 58 *) mk_entry http_header_strict_transport_security (Some (chars "max-age=31536000; includesubdomains; preload")) 0;
  (* 59 *) mk_entry http_header_vary (Some (chars "accept-encoding")) 0;
  (* 60 *) mk_entry http_header_vary (Some (chars "origin")) 0;
  (* 61 *) mk_entry http_header_x_content_type_options (Some (chars "nosniff")) 0;
  (* 62 *) mk_entry http_header_x_xss_protection (Some (chars "1; mode=block")) 0;
  (* 63 *) mk_entry http_pseudo_header_status (Some (chars "100")) 100;
  (* 64 *) mk_entry http_pseudo_header_status (Some (chars "204")) 204;
  (* 65 *) mk_entry http_pseudo_header_status (Some (chars "206")) 206;
  (* 66 *) mk_entry http_pseudo_header_status (Some (chars "302")) 302;
  (* 67 *) mk_entry http_pseudo_header_status (Some (chars "400")) 400;
  (* 68 *) mk_entry http_pseudo_header_status (Some (chars "403")) 403;
  (* 69 *) mk_entry http_pseudo_header_status (Some (chars "421")) 421;
  (* 70 *) mk_entry http_pseudo_header_status (Some (chars "425")) 425;
  (* 71 *) mk_entry http_pseudo_header_status (Some (chars "500")) 500;
  (* 72 *) mk_entry http_header_accept_language None 0;
  (* 73 *) mk_entry http_header_access_control_allow_credentials (Some (chars "FALSE")) 0;
  (* 74 *) mk_entry http_header_access_control_allow_credentials (Some (chars "TRUE")) 0;
  (* 75 *) mk_entry http_header_access_control_allow_headers (Some (chars "*")) 0;
  (* 76 *) mk_entry http_header_access_control_allow_methods (Some (chars "get")) 0;
  (* 77 *) mk_entry http_header_access_control_allow_methods (Some (chars "get, post, options")) 0;
  (* 78 *) mk_entry http_header_access_control_allow_methods (Some (chars "options")) 0;
  (* 79 *) mk_entry http_header_access_control_expose_headers (Some (chars "content-length")) 0;
  (* 80 *) mk_entry http_header_access_control_request_headers (Some (chars "content-type")) 0;
  (* 81 *) mk_entry http_header_access_control_request_method (Some (chars "get")) 0;
  (* 82 *) mk_entry http_header_access_control_request_method (Some (chars "post")) 0;
  (* 83 *) mk_entry http_header_alt_svc (Some (chars "clear")) 0;
  (* 84 *) mk_entry http_header_authorization None 0;
  (* 85 *) mk_entry http_header_content_security_policy (Some (chars "script-src 'none'; object-src 'none'; base-uri 'none'")) 0;
  (* 86 *) mk_entry http_header_early_data (Some (chars "1")) 0;
  (* 87 *) mk_entry http_header_expect_ct None 0;
  (* 88 *) mk_entry http_header_forwarded None 0;
  (* 89 *) mk_entry http_header_if_range None 0;
  (* 90 *) mk_entry http_header_origin None 0;
  (* 91 *) mk_entry http_header_purpose (Some (chars "prefetch")) 0;
  (* 92 *) mk_entry http_header_server None 0;
  (* 93 *) mk_entry http_header_timing_allow_origin (Some (chars "*")) 0;
  (* 94 *) mk_entry http_header_upgrade_insecure_requests (Some (chars "1")) 0;
  (* 95 *) mk_entry http_header_user_agent None 0;
  (* 96 *) mk_entry http_header_x_forwarded_for None 0;
  (* 97 *) mk_entry http_header_x_frame_options (Some (chars "deny")) 0;
  (* 98 *) mk_entry http_header_x_frame_options (Some (chars "sameorigin")) 0
].

(** picohttp/h3zero.c 274, h3zero_qpack_nb_static. *)
Definition nb_static : N := N.of_nat (List.length qpack_static).

(** picohttp/h3zero.c 1140-1205, h3zero_qpack_huffman_bit: for each of the 512 nodes,
    most significant bit first, whether it is an inner node. *)
Definition huff_bit : list N := [
   249; 50; 115; 39; 38; 79; 147; 39; 38; 100; 249; 50; 114; 100; 242; 100;
   228; 228; 206; 77; 52; 228; 204; 203; 202; 114; 102; 79; 147; 39; 76; 156;
   153; 62; 76; 156; 156; 153; 62; 76; 156; 153; 60; 154; 100; 242; 102; 79;
   147; 39; 38; 83; 228; 201; 201; 147; 211; 39; 38; 79; 38; 78; 76; 178].

(** picohttp/h3zero.c 1207-1720, h3zero_qpack_huffman_val: the distance to the branch of
    bit 1 for an inner node, the symbol for a leaf. *)
Definition huff_val : list N := [
   44; 16; 8; 4; 2; 48; 49; 2; 50; 97; 4; 2; 99; 101; 2; 105;
   111; 12; 4; 2; 115; 116; 4; 2; 32; 37; 2; 45; 46; 8; 4; 2;
   47; 51; 2; 52; 53; 4; 2; 54; 55; 2; 56; 57; 36; 16; 8; 4;
   2; 61; 65; 2; 95; 98; 4; 2; 100; 102; 2; 103; 104; 8; 4; 2;
   108; 109; 2; 110; 112; 4; 2; 114; 117; 4; 2; 58; 66; 2; 67; 68;
   32; 16; 8; 4; 2; 69; 70; 2; 71; 72; 4; 2; 73; 74; 2; 75;
   76; 8; 4; 2; 77; 78; 2; 79; 80; 4; 2; 81; 82; 2; 83; 84;
   16; 8; 4; 2; 85; 86; 2; 87; 89; 4; 2; 106; 107; 2; 113; 118;
   8; 4; 2; 119; 120; 2; 121; 122; 8; 4; 2; 38; 42; 2; 44; 59;
   4; 2; 88; 90; 8; 4; 2; 33; 34; 2; 40; 41; 6; 2; 63; 2;
   39; 43; 6; 2; 124; 2; 35; 62; 8; 4; 2; 0; 36; 2; 64; 91;
   4; 2; 93; 126; 4; 2; 94; 125; 4; 2; 60; 96; 2; 123; 30; 10;
   4; 2; 92; 195; 2; 208; 2; 128; 130; 8; 4; 2; 131; 162; 2; 184;
   194; 4; 2; 224; 226; 4; 2; 153; 161; 2; 167; 172; 46; 16; 8; 4;
   2; 176; 177; 2; 179; 209; 4; 2; 216; 217; 2; 227; 229; 14; 6; 2;
   230; 2; 129; 132; 4; 2; 133; 134; 2; 136; 146; 8; 4; 2; 154; 156;
   2; 160; 163; 4; 2; 164; 169; 2; 170; 173; 40; 16; 8; 4; 2; 178;
   181; 2; 185; 186; 4; 2; 187; 189; 2; 190; 196; 8; 4; 2; 198; 228;
   2; 232; 233; 8; 4; 2; 1; 135; 2; 137; 138; 4; 2; 139; 140; 2;
   141; 143; 32; 16; 8; 4; 2; 147; 149; 2; 150; 151; 4; 2; 152; 155;
   2; 157; 158; 8; 4; 2; 165; 166; 2; 168; 174; 4; 2; 175; 180; 2;
   182; 183; 22; 8; 4; 2; 188; 191; 2; 197; 231; 6; 2; 239; 2; 9;
   142; 4; 2; 144; 145; 2; 148; 159; 20; 8; 4; 2; 171; 206; 2; 215;
   225; 4; 2; 236; 237; 4; 2; 199; 207; 2; 234; 235; 34; 16; 8; 4;
   2; 192; 193; 2; 200; 201; 4; 2; 202; 205; 2; 210; 213; 8; 4; 2;
   218; 219; 2; 238; 240; 4; 2; 242; 243; 2; 255; 2; 203; 204; 32; 16;
   8; 4; 2; 211; 212; 2; 214; 221; 4; 2; 222; 223; 2; 241; 244; 8;
   4; 2; 245; 246; 2; 247; 248; 4; 2; 250; 251; 2; 252; 253; 30; 14;
   6; 2; 254; 2; 2; 3; 4; 2; 4; 5; 2; 6; 7; 8; 4; 2;
   8; 11; 2; 12; 14; 4; 2; 15; 16; 2; 17; 18; 16; 8; 4; 2;
   19; 20; 2; 21; 23; 4; 2; 24; 25; 2; 26; 27; 8; 4; 2; 28;
   29; 2; 30; 31; 4; 2; 127; 220; 2; 249; 4; 2; 10; 13; 2; 22].

(** picohttp/h3zero.c 103-130, h3zero_qpack_int_encode, lines 117-127: the groups of
    seven bits, least significant first, while there is room. *)
Fixpoint int_encode_loop (room : nat) (val : N) : option (list N) :=
  match room with
  | O => None
  | S r =>
    if 128 <=? val then
      match int_encode_loop r (N.shiftr val 7) with
      | Some l => Some (N.lor 128 (N.land val 127) :: l)
      | None => None
      end
    else Some [val]
  end.

(** picohttp/h3zero.c 103-130, h3zero_qpack_int_encode; [first] is the byte present in
    the buffer, in which the prefix bits are set. *)
Definition int_encode (first mask val : N) : writer := fun room =>
  if room =? 0 then None
  else if val <? mask then Some [N.lor first val]
  else
    match int_encode_loop (N.to_nat (room - 1)) (val - mask) with
    | Some l => Some (N.lor first mask :: l)
    | None => None
    end.

(** picohttp/h3zero.c 132-166, h3zero_qpack_int_decode, lines 150-157: the loop. *)
Fixpoint int_decode_loop (l : list N) (shift v : N) : option (N * list N) :=
  match l with
  | [] => None
  | b :: r =>
    if 62 <=? shift then None
    else
      let v' := N.lor v (u64 (N.shiftl (N.land b 127) shift)) in
      if N.land b 128 =? 0 then Some (v', r)
      else int_decode_loop r (shift + 7) v'
  end.

(** picohttp/h3zero.c 132-166, h3zero_qpack_int_decode: the value left in [*val], and
    what remains of the buffer ([None]: NULL is returned). *)
Definition int_decode (mask : N) (l : list N) : N * option (list N) :=
  match l with
  | [] => (0, None)
  | b :: r =>
    let v0 := N.land b mask in
    if v0 =? mask then
      match int_decode_loop r 0 0 with
      | Some (v, r') => (u64 (v + mask), Some r')
      | None => (v0, None)
      end
    else (v0, Some r)
  end.

(** picohttp/h3zero.c 1722-1787, hzero_qpack_huffman_decode, lines 1737-1743: the
    64-bit register takes the next bytes of the input. *)
Fixpoint refill (l : list N) (bits_in val_in : N) : list N * N * N :=
  match l with
  | [] => ([], bits_in, val_in)
  | b :: r =>
    if bits_in <? 57 then
      refill r (bits_in + 8) (N.lor val_in (u64 (N.shiftl b (64 - bits_in - 8))))
    else (l, bits_in, val_in)
  end.

(** picohttp/h3zero.c 1731-1776, the main loop of hzero_qpack_huffman_decode; [room] is
    [max_decoded - decoded_index], [ones] is [was_all_ones].  Result: whether it returns
    0, and the bytes decoded.  Reading outside of one of the two tables is undefined. *)
Fixpoint huff_loop (fuel : nat) (l : list N) (bits_in val_in index : N) (ones : bool)
    (room : N) : outcome (bool * list N) :=
  match fuel with
  | O => NoFuel
  | S f =>
    let '(l, bits_in, val_in) := refill l bits_in val_in in
    match nth_error huff_bit (N.to_nat (N.shiftr index 3)) with
    | None => Undef
    | Some bits =>
      if N.testbit bits (7 - N.land index 7) then
        if bits_in =? 0 then Ret (ones, [])
        else
          let bit := N.testbit val_in 63 in
          let val_in := u64 (N.shiftl val_in 1) in
          let bits_in := bits_in - 1 in
          if bit then
            match nth_error huff_val (N.to_nat index) with
            | None => Undef
            | Some d =>
              let index := index + d in
              if 512 <=? index then Ret (ones, [])
              else huff_loop f l bits_in val_in index ones room
            end
          else
            let index := index + 1 in
            if 512 <=? index then Ret (false, [])
            else huff_loop f l bits_in val_in index false room
      else if 0 <? room then
        match nth_error huff_val (N.to_nat index) with
        | None => Undef
        | Some s =>
          match huff_loop f l bits_in val_in 0 true (room - 1) with
          | Ret (ok, out) => Ret (ok, s :: out)
          | r => r
          end
        end
      else Ret (true, [])
    end
  end.

(** picohttp/h3zero.c 1722-1787, hzero_qpack_huffman_decode.  The steps granted are
    enough: each consumes a bit of the input or produces a byte (theorem C55_huffman_total). *)
Definition huff_decode (l : list N) (max_decoded : N) : outcome (bool * list N) :=
  huff_loop (8 * List.length l + N.to_nat max_decoded + 2) l 0 0 0 true max_decoded.

(** strlen() == name_length && memcmp() == 0, picohttp/h3zero.c 339-340. *)
Fixpoint same_text (a b : list N) : bool :=
  match a, b with
  | [], [] => true
  | x :: r, y :: s => (x =? y) && same_text r s
  | _, _ => false
  end.

(** The loops over the indices of the static table in picohttp/h3zero.c 338-344 and
    355-362: the value of the first entry with this content. *)
Fixpoint enum_by_name (indices : list nat) (name : list N) (none : N) : N :=
  match indices with
  | [] => none
  | i :: r =>
    match nth_error qpack_static i with
    | Some e =>
      match e_content e with
      | Some c => if same_text c name then e_enum e else enum_by_name r name none
      | None => enum_by_name r name none
      end
    | None => enum_by_name r name none
    end
  end.

(** picohttp/h3zero.c 334-347, h3zero_get_method_by_name. *)
Definition get_method_by_name (name : list N) : N :=
  enum_by_name [15; 16; 17; 18; 19; 20; 21]%nat name h3zero_method_not_supported.

(** picohttp/h3zero.c 349-364, h3zero_get_content_type_by_name. *)
Definition get_content_type_by_name (name : list N) : N :=
  enum_by_name [44; 45; 46; 47; 48; 49; 50; 51; 52; 53; 54]%nat name
    h3zero_content_type_not_supported.

(** INT_MAX, for the type of [val] at picohttp/h3zero.c 368. *)
Definition int_max : Z := 2147483647.

(** picohttp/h3zero.c 366-382, h3zero_parse_status; the overflow of the signed [int] is
    undefined. *)
Fixpoint parse_status (l : list N) (val : Z) : outcome Z :=
  match l with
  | [] => Ret val
  | c :: r =>
    if (48 <=? c) && (c <=? 57) then
      if (int_max <? val * 10 + (Z.of_N c - 48))%Z then Undef
      else parse_status r (val * 10 + (Z.of_N c - 48))%Z
    else Ret (-1)%Z
  end.

(** picohttp/h3zero.h 184-195, h3zero_header_parts_t; the strings with their lengths
    are lists, absent when the pointer is NULL.  The field [path_is_huffman] is not used
    by the code of h3zero.c. *)
Record parts := mk_parts {
  p_method : N;
  p_path : option (list N);
  p_range : option (list N);
  p_status : Z;
  p_content_type : N;
  p_protocol : option (list N)
}.

(** The memset of picohttp/h3zero.c 543. *)
Definition no_parts : parts := mk_parts 0 None None 0%Z 0 None.

(** The assignments to the members of [parts], picohttp/h3zero.c 444, 453, 463, 472,
    482 and 492. *)
Definition set_method (p : parts) (v : N) :=
  mk_parts v (p_path p) (p_range p) (p_status p) (p_content_type p) (p_protocol p).
(** As above, for [path] (h3zero.c 475). *)
Definition set_path (p : parts) (v : list N) :=
  mk_parts (p_method p) (Some v) (p_range p) (p_status p) (p_content_type p) (p_protocol p).
(** As above, for [range] (h3zero.c 485). *)
Definition set_range (p : parts) (v : list N) :=
  mk_parts (p_method p) (p_path p) (Some v) (p_status p) (p_content_type p) (p_protocol p).
(** As above, for [status] (h3zero.c 465). *)
Definition set_status (p : parts) (v : Z) :=
  mk_parts (p_method p) (p_path p) (p_range p) v (p_content_type p) (p_protocol p).
(** As above, for [content_type] (h3zero.c 455). *)
Definition set_content_type (p : parts) (v : N) :=
  mk_parts (p_method p) (p_path p) (p_range p) (p_status p) v (p_protocol p).
(** As above, for [protocol] (h3zero.c 495). *)
Definition set_protocol (p : parts) (v : list N) :=
  mk_parts (p_method p) (p_path p) (p_range p) (p_status p) (p_content_type p) (Some v).

(** picohttp/h3zero.c 436-498, the switch of h3zero_parse_qpack_header_value, with
    h3zero_parse_qpack_header_value_string, 384-404: the parts, and whether the field is
    accepted. *)
Definition apply_value (header : N) (decoded : list N) (p : parts) : outcome (bool * parts) :=
  if header =? http_pseudo_header_method then
    if p_method p =? h3zero_method_none
    then Ret (true, set_method p (get_method_by_name decoded)) else Ret (false, p)
  else if header =? http_header_content_type then
    if p_content_type p =? h3zero_content_type_none
    then Ret (true, set_content_type p (get_content_type_by_name decoded)) else Ret (false, p)
  else if header =? http_pseudo_header_status then
    if (p_status p =? 0)%Z then
      match parse_status decoded 0 with
      | Ret v => Ret (true, set_status p v)
      | Undef => Undef
      | NoFuel => NoFuel
      end
    else Ret (false, p)
  else if header =? http_pseudo_header_path then
    match p_path p with None => Ret (true, set_path p decoded) | Some _ => Ret (false, p) end
  else if header =? http_header_range then
    match p_range p with None => Ret (true, set_range p decoded) | Some _ => Ret (false, p) end
  else if header =? http_pseudo_header_protocol then
    match p_protocol p with
    | None => Ret (true, set_protocol p decoded)
    | Some _ => Ret (false, p)
    end
  else Ret (true, p).

(** The Huffman decoding of a string in picohttp/h3zero.c 425-434 and 522-528: the
    decoded bytes, at most 256 of them, or the bytes as they are if the decoding fails. *)
Definition decode_string (is_huffman : bool) (raw : list N) : outcome (list N) :=
  if is_huffman then
    match huff_decode raw 256 with
    | Ret (true, t) => Ret t
    | Ret (false, _) => Ret raw
    | Undef => Undef
    | NoFuel => NoFuel
    end
  else Ret raw.

(** picohttp/h3zero.c 406-506, h3zero_parse_qpack_header_value: what remains of the
    buffer ([None]: NULL), and the parts. *)
Definition parse_value (header : N) (l : list N) (p : parts) : outcome (option (list N) * parts) :=
  match l with
  | [] => Ret (None, p)
  | b :: _ =>
    let is_huffman := N.testbit b 7 in
    match int_decode 127 l with
    | (_, None) => Ret (None, p)
    | (n, Some r) =>
      if blen r <? n then Ret (None, p)
      else
        match decode_string is_huffman (firstn (N.to_nat n) r) with
        | Undef => Undef
        | NoFuel => NoFuel
        | Ret decoded =>
          match apply_value header decoded p with
          | Undef => Undef
          | NoFuel => NoFuel
          | Ret (true, p') => Ret (Some (skipn (N.to_nat n) r), p')
          | Ret (false, p') => Ret (None, p')
          end
        end
    end
  end.

(** picohttp/h3zero.c 510-517, the names and headers of
    h3zero_get_interesting_header_type. *)
Definition interesting : list (list N * N) := [
  (chars ":method", http_pseudo_header_method);
  (chars ":path", http_pseudo_header_path);
  (chars ":status", http_pseudo_header_status);
  (chars "content-type", http_header_content_type);
  (chars ":protocol", http_pseudo_header_protocol);
  (chars "origin", http_header_origin);
  (chars "range", http_header_range)].

(** picohttp/h3zero.c 530-535, the search in that list. *)
Fixpoint header_by_name (t : list (list N * N)) (name : list N) : N :=
  match t with
  | [] => http_header_unknown
  | (n, h) :: r => if same_text n name then h else header_by_name r name
  end.

(** picohttp/h3zero.c 508-538, h3zero_get_interesting_header_type. *)
Definition get_header_type (is_huffman : bool) (raw : list N) : outcome N :=
  match decode_string is_huffman raw with
  | Ret name => Ret (header_by_name interesting name)
  | Undef => Undef
  | NoFuel => NoFuel
  end.

(** picohttp/h3zero.c 571-621, the switch of h3zero_parse_qpack_header_frame for an
    indexed field line: the parts, and whether it is accepted. *)
Definition apply_entry (e : entry) (p : parts) : outcome (bool * parts) :=
  if e_header e =? http_pseudo_header_method then
    if p_method p =? h3zero_method_none then Ret (true, set_method p (e_enum e)) else Ret (false, p)
  else if e_header e =? http_header_content_type then
    if p_content_type p =? h3zero_content_type_none
    then Ret (true, set_content_type p (e_enum e)) else Ret (false, p)
  else if e_header e =? http_pseudo_header_status then
    if (p_status p =? 0)%Z then Ret (true, set_status p (Z.of_N (e_enum e))) else Ret (false, p)
  else if e_header e =? http_pseudo_header_path then
    match p_path p with
    | Some _ => Ret (false, p)
    | None => match e_content e with Some c => Ret (true, set_path p c) | None => Undef end
    end
  else Ret (true, p).

(** picohttp/h3zero.c 560-664, one turn of the loop of h3zero_parse_qpack_header_frame,
    on a buffer starting with [b]: what remains of the buffer ([None]: NULL), and the
    parts.  Reading an entry outside of the static table is undefined. *)
Definition parse_line (b : N) (l : list N) (p : parts) : outcome (option (list N) * parts) :=
  if N.land b 192 =? 192 then
    let '(i, rest) := int_decode 63 l in
    if nb_static <? i then Ret (None, p)
    else
      match nth_error qpack_static (N.to_nat i) with
      | None => Undef
      | Some e =>
        match apply_entry e p with
        | Undef => Undef
        | NoFuel => NoFuel
        | Ret (ok, p') => Ret (if ok then rest else None, p')
        end
      end
  else if N.land b 208 =? 80 then
    match int_decode 15 l with
    | (_, None) => Ret (None, p)
    | (i, Some r) =>
      if nb_static <? i then Ret (None, p)
      else
        match nth_error qpack_static (N.to_nat i) with
        | None => Undef
        | Some e => parse_value (e_header e) r p
        end
    end
  else if N.land b 224 =? 32 then
    match int_decode 7 l with
    | (_, None) => Ret (None, p)
    | (n, Some r) =>
      if blen r <? n then Ret (None, p)
      else
        match get_header_type (N.testbit b 3) (firstn (N.to_nat n) r) with
        | Undef => Undef
        | NoFuel => NoFuel
        | Ret h => parse_value h (skipn (N.to_nat n) r) p
        end
    end
  else Ret (None, p).

(** picohttp/h3zero.c 559-665, the loop; whether the result is not NULL, and the parts. *)
Fixpoint parse_lines (fuel : nat) (l : list N) (p : parts) : outcome (bool * parts) :=
  match fuel with
  | O => NoFuel
  | S f =>
    match l with
    | [] => Ret (true, p)
    | b :: _ =>
      match parse_line b l p with
      | Undef => Undef
      | NoFuel => NoFuel
      | Ret (None, p') => Ret (false, p')
      | Ret (Some l', p') => parse_lines f l' p'
      end
    end
  end.

(** picohttp/h3zero.c 540-667, h3zero_parse_qpack_header_frame: whether the result is
    not NULL, and the parts.  Every turn of the loop consumes a byte, the steps granted
    are enough (theorem C55_parse_defined). *)
Definition parse_header_frame (l : list N) : outcome (bool * parts) :=
  match l with
  | [] => Ret (false, no_parts)
  | b :: r =>
    if b =? 0 then
      match int_decode 127 r with
      | (_, None) => Ret (false, no_parts)
      | (_, Some l') => parse_lines (S (List.length l')) l' no_parts
      end
    else Ret (false, no_parts)
  end.

(** picohttp/h3zero.c 704-718, h3zero_qpack_code_encode. *)
Definition code_encode (prefix mask code : N) : writer := fun room =>
  if room <? 1 then None else int_encode prefix mask code room.

(** The copy of a string in picohttp/h3zero.c 725-733, 767-775 and 786-794. *)
Definition put_bytes (val : list N) : writer := fun room =>
  if room <? blen val then None else Some val.

(** picohttp/h3zero.c 720-736, h3zero_qpack_literal_plus_ref_encode. *)
Definition literal_plus_ref_encode (code : N) (val : list N) : writer :=
  code_encode 80 15 code >>> code_encode 0 127 (blen val) >>> put_bytes val.

(** picohttp/h3zero.c 755-778, h3zero_qpack_name_encode. *)
Definition name_encode (prefix mask : N) (name : list N) : writer :=
  code_encode prefix mask (blen name) >>> put_bytes name.

(** picohttp/h3zero.c 780-797, h3zero_qpack_literal_plus_name_encode. *)
Definition literal_plus_name_encode (name val : list N) : writer :=
  name_encode 32 7 name >>> code_encode 0 127 (blen val) >>> put_bytes val.

(** picohttp/h3zero.c 804-810, the search of h3zero_encode_content_type. *)
Fixpoint content_type_index (t : list entry) (i ct : N) : option N :=
  match t with
  | [] => None
  | e :: r =>
    if (e_header e =? http_header_content_type) && (e_enum e =? ct) then Some i
    else content_type_index r (i + 1) ct
  end.

(** picohttp/h3zero.c 799-822, h3zero_encode_content_type. *)
Definition encode_content_type (ct : N) : writer := fun room =>
  match content_type_index qpack_static 0 ct with
  | None => None
  | Some code => code_encode 192 63 code room
  end.

(** The two zero bytes at the start of each frame, picohttp/h3zero.c 828-833, 863-868,
    904-909, 942-947 and 973-978. *)
Definition frame_start : writer := fun room => if room <? 2 then None else Some [0; 0].

(** Nothing is written for an absent string. *)
Definition no_bytes : writer := fun _ => Some [].

(** The "if (string != NULL)" of picohttp/h3zero.c 841-856 and others. *)
Definition opt_encode (s : option (list N)) (w : list N -> writer) : writer :=
  match s with None => no_bytes | Some v => w v end.

(** picohttp/h3zero.c 824-857, h3zero_create_connect_header_frame. *)
Definition create_connect (authority : option (list N)) (path : list N)
    (protocol origin ua : option (list N)) : writer :=
  frame_start >>>
  code_encode 192 63 15 >>>
  code_encode 192 63 23 >>>
  literal_plus_ref_encode 1 path >>>
  opt_encode protocol (literal_plus_name_encode (chars ":protocol")) >>>
  opt_encode authority (literal_plus_ref_encode 0) >>>
  opt_encode origin (literal_plus_ref_encode 90) >>>
  opt_encode ua (literal_plus_ref_encode 95).

(** The "if (range_length > 0)", picohttp/h3zero.c 881-883 and 922-924. *)
Definition range_encode (range : list N) : writer :=
  if 0 <? blen range then literal_plus_ref_encode 55 range else no_bytes.

(** picohttp/h3zero.c 859-891, h3zero_create_post_header_frame_ex. *)
Definition create_post (path range : list N) (host : option (list N)) (ct : N)
    (ua : option (list N)) : writer :=
  frame_start >>>
  code_encode 192 63 20 >>>
  code_encode 192 63 23 >>>
  literal_plus_ref_encode 1 path >>>
  opt_encode host (literal_plus_ref_encode 0) >>>
  range_encode range >>>
  opt_encode ua (literal_plus_ref_encode 95) >>>
  encode_content_type ct.

(** picohttp/h3zero.c 900-929, h3zero_create_request_header_frame_ex. *)
Definition create_request (path range : list N) (host ua : option (list N)) : writer :=
  frame_start >>>
  code_encode 192 63 17 >>>
  code_encode 192 63 23 >>>
  literal_plus_ref_encode 1 path >>>
  opt_encode host (literal_plus_ref_encode 0) >>>
  range_encode range >>>
  opt_encode ua (literal_plus_ref_encode 95).

(** picohttp/h3zero.c 938-963, h3zero_create_response_header_frame_ex. *)
Definition create_response (ct : N) (server : option (list N)) : writer :=
  frame_start >>>
  code_encode 192 63 25 >>>
  opt_encode server (literal_plus_ref_encode 92) >>>
  (if ct =? h3zero_content_type_none then no_bytes else encode_content_type ct).

(** picohttp/h3zero.c 985-990: the status is written if there is room for it, and the
    frame goes on without it otherwise. *)
Definition put_status (code : list N) : writer := fun room =>
  if room <? 4 then Some [] else Some (3 :: code).

(** picohttp/h3zero.c 971-1003, h3zero_create_error_frame; [code] is a string of three
    characters, as all callers give it (h3zero.c 1007, 1017, h3zero_common.c 1068, 1095). *)
Definition create_error (code : list N) (server : option (list N)) : writer :=
  frame_start >>>
  (if same_text code (chars "404") then code_encode 192 63 27
   else code_encode 80 15 27 >>> put_status code) >>>
  opt_encode server (literal_plus_ref_encode 92) >>>
  (if same_text code (chars "405")
   then literal_plus_ref_encode 76 (chars "GET, POST, CONNECT") else no_bytes).
