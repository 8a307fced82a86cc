(** Specification of QPACK header blocks without a dynamic table: RFC 7541 (integers,
    Huffman code) and RFC 9204 (static table, field lines), and what the fields of a
    block say about a request or a response.  Of the model only the record [parts], its
    enumerations and the notation for strings are used. *)
From Verif Require Import Base Qpack_model.
From Coq Require Import Strings.String.

(** ** Integers *)

(** RFC 7541, 5.1: groups of seven bits, least significant first, a set high bit
    announces another group. *)
Inductive groups : N -> list N -> Prop :=
| groups_last : forall b, b < 128 -> groups b [b]
| groups_more : forall b v l, b < 128 -> groups v l -> groups (b + 128 * v) ((128 + b) :: l).

(** The representations of [v] whose first byte has the bits [hi] above the prefix of
    which all bits are set in [mask]; at most ten bytes. *)
Definition int_repr (mask hi v : N) (l : list N) : Prop :=
  (List.length l <= 10)%nat /\
  ((v < mask /\ l = [hi + v]) \/
   (exists c r, v = mask + c /\ l = (hi + mask) :: r /\ groups c r)).

(** The prefixes in use: three, four, six and seven bits. *)
Definition prefix (mask hi : N) : Prop :=
  In mask [7; 15; 63; 127] /\ hi mod (mask + 1) = 0 /\ hi + mask < 256.

(** ** Huffman code *)

(** The code lengths of RFC 7541, appendix B; 256 is the end of string. *)
Definition lengths : list N := [
   13; 23; 28; 28; 28; 28; 28; 28; 28; 24; 30; 28; 28; 30; 28; 28; 28; 28; 28; 28;
   28; 28; 30; 28; 28; 28; 28; 28; 28; 28; 28; 28; 6; 10; 10; 12; 13; 6; 8; 11;
   10; 10; 8; 11; 8; 6; 6; 6; 5; 5; 5; 6; 6; 6; 6; 6; 6; 6; 7; 8;
   15; 6; 12; 10; 13; 6; 7; 7; 7; 7; 7; 7; 7; 7; 7; 7; 7; 7; 7; 7;
   7; 7; 7; 7; 7; 7; 7; 7; 8; 7; 8; 13; 19; 13; 14; 6; 15; 5; 6; 5;
   6; 5; 6; 6; 6; 5; 7; 7; 6; 6; 6; 5; 6; 7; 6; 5; 5; 6; 7; 7;
   7; 7; 7; 15; 11; 14; 13; 28; 20; 22; 20; 20; 22; 22; 22; 23; 22; 23; 23; 23;
   23; 23; 24; 23; 24; 24; 22; 23; 24; 23; 23; 23; 23; 21; 22; 23; 22; 23; 23; 24;
   22; 21; 20; 22; 22; 23; 23; 21; 23; 22; 22; 24; 21; 22; 23; 23; 21; 21; 22; 21;
   23; 22; 23; 23; 20; 22; 22; 22; 23; 22; 22; 23; 26; 26; 20; 19; 22; 23; 22; 25;
   26; 26; 26; 27; 27; 26; 24; 25; 19; 21; 26; 27; 27; 26; 27; 24; 21; 21; 26; 26;
   28; 27; 27; 27; 20; 24; 20; 21; 22; 21; 21; 23; 22; 22; 25; 25; 24; 24; 26; 23;
   26; 27; 26; 26; 27; 27; 27; 27; 27; 28; 27; 27; 27; 27; 27; 26; 30].

Definition code_length (s : nat) : N := nth s lengths 0.

(** The code is canonical: the code words are in increasing order of length, and of
    symbols for equal lengths. *)
Definition before (t s : nat) : bool :=
  (code_length t <? code_length s) ||
  ((code_length t =? code_length s) && Nat.ltb t s).

Definition rank (s : nat) : N :=
  fold_right (fun t a => if before t s then 2 ^ (30 - code_length t) + a else a) 0 (seq 0 257).

(** The [n] last binary digits of [v], most significant first. *)
Fixpoint digits (n : nat) (v : N) : list bool :=
  match n with
  | O => []
  | S m => N.testbit v (N.of_nat m) :: digits m v
  end.

Definition hcode (s : nat) : list bool :=
  digits (N.to_nat (code_length s)) (rank s / 2 ^ (30 - code_length s)).

(** The code of a text. *)
Definition hcodes (t : list N) : list bool := flat_map (fun s => hcode (N.to_nat s)) t.

(** The bits of a string of bytes. *)
Definition bits (l : list N) : list bool := flat_map (digits 8) l.

Definition ones (n : nat) : list bool := repeat true n.

(** RFC 7541, 5.2: a Huffman-coded string is padded with less than eight ones. *)
Definition huffman_of (t raw : list N) : Prop :=
  bytes_ok t /\ exists k, (k < 8)%nat /\ bits raw = hcodes t ++ ones k.

(** What ends the decoding of a bit string, when [tail] is left: the end-of-string
    symbol, a code word for which there is no room, or the end of the bits within a code
    word. *)
Definition stops (ok : bool) (tail : list bool) (full : bool) : Prop :=
  (ok = true /\ exists r, tail = ones 30 ++ r) \/
  (ok = true /\ full = true /\ exists s r, (s < 256)%nat /\ tail = hcode s ++ r) \/
  (ok = forallb (fun b => b) tail /\
   exists s r, (s <= 256)%nat /\ r <> [] /\ hcode s = tail ++ r).

(** ** Field lines *)

(** A string of the wire: whether it is Huffman-coded, and its bytes. *)
Record str := mk_str { s_huff : bool; s_raw : list N }.

(** RFC 9204, 4.5: indexed field line, literal field line with name reference, literal
    field line with literal name, all with the static table; [never] is the bit "N". *)
Inductive line :=
| Indexed (i : N)
| NameRef (never : bool) (i : N) (v : str)
| Literal (never : bool) (name v : str).

Definition bit (b : bool) (n : N) : N := if b then n else 0.

Definition str_bytes (mask hi : N) (s : str) (l : list N) : Prop :=
  exists p, int_repr mask (hi + bit (s_huff s) (mask + 1)) (blen (s_raw s)) p /\ l = p ++ s_raw s.

Definition line_bytes (ln : line) (l : list N) : Prop :=
  match ln with
  | Indexed i => int_repr 63 192 i l
  | NameRef never i v =>
    exists p q, int_repr 15 (80 + bit never 32) i p /\ str_bytes 127 0 v q /\ l = p ++ q
  | Literal never name v =>
    exists p q, str_bytes 7 (32 + bit never 16) name p /\ str_bytes 127 0 v q /\ l = p ++ q
  end.

Inductive block : list line -> list N -> Prop :=
| block_nil : block [] []
| block_cons : forall ln l lns r, line_bytes ln l -> block lns r -> block (ln :: lns) (l ++ r).

(** RFC 9204, 4.5.1: the required insert count is zero; the base is not used. *)
Definition block_start (l : list N) : Prop :=
  exists sign base p, int_repr 127 (bit sign 128) base p /\ l = 0 :: p.

Definition header_block (lns : list line) (l : list N) : Prop :=
  exists s r, block_start s /\ block lns r /\ l = s ++ r.

(** ** Fields *)

(** RFC 9204, appendix A. *)
Definition static_table : list (list N * list N) := [
  (* 0 *) (chars ":authority", chars "");
  (* 1 *) (chars ":path", chars "/");
  (* 2 *) (chars "age", chars "0");
  (* 3 *) (chars "content-disposition", chars "");
  (* 4 *) (chars "content-length", chars "0");
  (* 5 *) (chars "cookie", chars "");
  (* 6 *) (chars "date", chars "");
  (* 7 *) (chars "etag", chars "");
  (* 8 *) (chars "if-modified-since", chars "");
  (* 9 *) (chars "if-none-match", chars "");
  (* 10 *) (chars "last-modified", chars "");
  (* 11 *) (chars "link", chars "");
  (* 12 *) (chars "location", chars "");
  (* 13 *) (chars "referer", chars "");
  (* 14 *) (chars "set-cookie", chars "");
  (* 15 *) (chars ":method", chars "CONNECT");
  (* 16 *) (chars ":method", chars "DELETE");
  (* 17 *) (chars ":method", chars "GET");
  (* 18 *) (chars ":method", chars "HEAD");
  (* 19 *) (chars ":method", chars "OPTIONS");
  (* 20 *) (chars ":method", chars "POST");
  (* 21 *) (chars ":method", chars "PUT");
  (* 22 *) (chars ":scheme", chars "http");
  (* 23 *) (chars ":scheme", chars "https");
  (* 24 *) (chars ":status", chars "103");
  (* 25 *) (chars ":status", chars "200");
  (* 26 *) (chars ":status", chars "304");
  (* 27 *) (chars ":status", chars "404");
  (* 28 *) (chars ":status", chars "503");
  (* 29 *) (chars "accept", chars "*/*");
  (* 30 *) (chars "accept", chars "application/dns-message");
  (* 31 *) (chars "accept-encoding", chars "gzip, deflate, br");
  (* 32 *) (chars "accept-ranges", chars "bytes");
  (* 33 *) (chars "access-control-allow-headers", chars "cache-control");
  (* 34 *) (chars "access-control-allow-headers", chars "content-type");
  (* 35 *) (chars "access-control-allow-origin", chars "*");
  (* 36 *) (chars "cache-control", chars "max-age=0");
  (* 37 *) (chars "cache-control", chars "max-age=2592000");
  (* 38 *) (chars "cache-control", chars "max-age=604800");
  (* 39 *) (chars "cache-control", chars "no-cache");
  (* 40 *) (chars "cache-control", chars "no-store");
  (* 41 *) (chars "cache-control", chars "public, max-age=31536000");
  (* 42 *) (chars "content-encoding", chars "br");
  (* 43 *) (chars "content-encoding", chars "gzip");
  (* 44 *) (chars "content-type", chars "application/dns-message");
  (* 45 *) (chars "content-type", chars "application/javascript");
  (* 46 *) (chars "content-type", chars "application/json");
  (* 47 *) (chars "content-type", chars "application/x-www-form-urlencoded");
  (* 48 *) (chars "content-type", chars "image/gif");
  (* 49 *) (chars "content-type", chars "image/jpeg");
  (* 50 *) (chars "content-type", chars "image/png");
  (* 51 *) (chars "content-type", chars "text/css");
  (* 52 *) (chars "content-type", chars "text/html; charset=utf-8");
  (* 53 *) (chars "content-type", chars "text/plain");
  (* 54 *) (chars "content-type", chars "text/plain;charset=utf-8");
  (* 55 *) (chars "range", chars "bytes=0-");
  (* 56 *) (chars "strict-transport-security", chars "max-age=31536000");
  (* 57 *) (chars "strict-transport-security", chars "max-age=31536000; includesubdomains");
  (* 58 *) (chars "strict-transport-security", chars "max-age=31536000; includesubdomains; preload");
  (* 59 *) (chars "vary", chars "accept-encoding");
  (* 60 *) (chars "vary", chars "origin");
  (* 61 *) (chars "x-content-type-options", chars "nosniff");
  (* 62 *) (chars "x-xss-protection", chars "1; mode=block");
  (* 63 *) (chars ":status", chars "100");
  (* 64 *) (chars ":status", chars "204");
  (* 65 *) (chars ":status", chars "206");
  (* 66 *) (chars ":status", chars "302");
  (* 67 *) (chars ":status", chars "400");
  (* 68 *) (chars ":status", chars "403");
  (* 69 *) (chars ":status", chars "421");
  (* 70 *) (chars ":status", chars "425");
  (* 71 *) (chars ":status", chars "500");
  (* 72 *) (chars "accept-language", chars "");
  (* 73 *) (chars "access-control-allow-credentials", chars "FALSE");
  (* 74 *) (chars "access-control-allow-credentials", chars "TRUE");
  (* 75 *) (chars "access-control-allow-headers", chars "*");
  (* 76 *) (chars "access-control-allow-methods", chars "get");
  (* 77 *) (chars "access-control-allow-methods", chars "get, post, options");
  (* 78 *) (chars "access-control-allow-methods", chars "options");
  (* 79 *) (chars "access-control-expose-headers", chars "content-length");
  (* 80 *) (chars "access-control-request-headers", chars "content-type");
  (* 81 *) (chars "access-control-request-method", chars "get");
  (* 82 *) (chars "access-control-request-method", chars "post");
  (* 83 *) (chars "alt-svc", chars "clear");
  (* 84 *) (chars "authorization", chars "");
  (* 85 *) (chars "content-security-policy", chars "script-src 'none'; object-src 'none'; base-uri 'none'");
  (* 86 *) (chars "early-data", chars "1");
  (* 87 *) (chars "expect-ct", chars "");
  (* 88 *) (chars "forwarded", chars "");
  (* 89 *) (chars "if-range", chars "");
  (* 90 *) (chars "origin", chars "");
  (* 91 *) (chars "purpose", chars "prefetch");
  (* 92 *) (chars "server", chars "");
  (* 93 *) (chars "timing-allow-origin", chars "*");
  (* 94 *) (chars "upgrade-insecure-requests", chars "1");
  (* 95 *) (chars "user-agent", chars "");
  (* 96 *) (chars "x-forwarded-for", chars "");
  (* 97 *) (chars "x-frame-options", chars "deny");
  (* 98 *) (chars "x-frame-options", chars "sameorigin")
].

Definition field : Type := list N * list N.

(** The text of a string; decoded texts have at most 256 bytes. *)
Definition text (s : str) (t : list N) : Prop :=
  if s_huff s then huffman_of t (s_raw s) /\ (List.length t <= 256)%nat else t = s_raw s.

Definition line_field (ln : line) (f : field) : Prop :=
  match ln with
  | Indexed i => nth_error static_table (N.to_nat i) = Some f
  | NameRef _ i v =>
    exists w, nth_error static_table (N.to_nat i) = Some (fst f, w) /\ text v (snd f)
  | Literal _ name v => text name (fst f) /\ text v (snd f)
  end.

(** ** What the fields say *)

Fixpoint eq_text (a b : list N) : bool :=
  match a, b with
  | [], [] => true
  | x :: r, y :: s => (x =? y) && eq_text r s
  | _, _ => false
  end.

Definition values (name : string) (fs : list field) : list (list N) :=
  map snd (filter (fun f => eq_text (chars name) (fst f)) fs).

Fixpoint lookup (t : list (string * N)) (v : list N) (none : N) : N :=
  match t with
  | [] => none
  | (s, x) :: r => if eq_text (chars s) v then x else lookup r v none
  end.

Definition method_of (v : list N) : N :=
  lookup [("CONNECT"%string, h3zero_method_connect); ("DELETE"%string, h3zero_method_delete);
          ("GET"%string, h3zero_method_get); ("HEAD"%string, h3zero_method_head);
          ("OPTIONS"%string, h3zero_method_options); ("POST"%string, h3zero_method_post);
          ("PUT"%string, h3zero_method_put)] v h3zero_method_not_supported.

Definition content_type_of (v : list N) : N :=
  lookup [("application/dns-message"%string, h3zero_content_type_dns_message);
          ("application/javascript"%string, h3zero_content_type_javascript);
          ("application/json"%string, h3zero_content_type_json);
          ("application/x-www-form-urlencoded"%string, h3zero_content_type_www_form_urlencoded);
          ("image/gif"%string, h3zero_content_type_image_gif);
          ("image/jpeg"%string, h3zero_content_type_image_jpeg);
          ("image/png"%string, h3zero_content_type_image_png);
          ("text/css"%string, h3zero_content_type_text_css);
          ("text/html; charset=utf-8"%string, h3zero_content_type_text_html);
          ("text/plain"%string, h3zero_content_type_text_plain);
          ("text/plain;charset=utf-8"%string, h3zero_content_type_text_plain)]
    v h3zero_content_type_not_supported.

Definition digit (c : N) : Prop := 48 <= c <= 57.

Definition decimal (v : list N) : Z :=
  fold_left (fun a c => (a * 10 + (Z.of_N c - 48))%Z) v 0%Z.

Definition status_of (v : list N) (x : Z) : Prop :=
  (Forall digit v /\ x = decimal v) \/ (~ Forall digit v /\ x = (-1)%Z).

(** A status that the code can hold: either a number between 1 and 999999999, or
    nine characters at most, not all digits. *)
Definition sound_status (v : list N) : Prop :=
  (List.length v <= 9)%nat /\ (Forall digit v -> (0 < decimal v)%Z).

Definition says {A} (vs : list (list N)) (x none : A) (of : list N -> A -> Prop) : Prop :=
  (vs = [] /\ x = none) \/ (exists v, vs = [v] /\ of v x).

(** What a program should know after reading the fields. *)
Definition expected (fs : list field) (p : parts) : Prop :=
  says (values ":method" fs) (p_method p) h3zero_method_none (fun v x => x = method_of v) /\
  says (values ":path" fs) (p_path p) None (fun v x => x = Some v) /\
  says (values "range" fs) (p_range p) None (fun v x => x = Some v) /\
  says (values ":status" fs) (p_status p) 0%Z status_of /\
  says (values "content-type" fs) (p_content_type p) h3zero_content_type_none
    (fun v x => x = content_type_of v) /\
  says (values ":protocol" fs) (p_protocol p) None (fun v x => x = Some v).

Definition known : list string :=
  [":method"; ":path"; "range"; ":status"; "content-type"; ":protocol"]%string.

(** No known field is repeated. *)
Definition single (fs : list field) : Prop :=
  Forall (fun n => (List.length (values n fs) <= 1)%nat) known.

(** Texts that do not meet the limits shown by the counterexamples. *)
Definition mild (lns : list line) (fs : list field) : Prop :=
  ~ In (Indexed 55) lns /\ Forall sound_status (values ":status" fs).

(** ** The lines that make the code misbehave *)

(** Some texts that may be taken for the value of a string. *)
Definition reading (s : str) (t : list N) : Prop :=
  t = s_raw s \/ (s_huff s = true /\ exists tail, bits (s_raw s) = hcodes t ++ tail).

(** A number of which the digits do not fit an [int]. *)
Definition huge (v : list N) : Prop :=
  exists d r, v = d ++ r /\ Forall digit d /\ (2147483647 < decimal d)%Z.

Definition harmful (l : list N) : Prop :=
  (exists p r, l = p ++ r /\ (int_repr 63 192 99 p \/ exists n, int_repr 15 (80 + bit n 32) 99 p)) \/
  (exists ln p r t, l = p ++ r /\ line_bytes ln p /\ huge t /\
    match ln with
    | Indexed _ => False
    | NameRef _ i v =>
      (exists w, nth_error static_table (N.to_nat i) = Some (chars ":status", w)) /\ reading v t
    | Literal _ name v => reading name (chars ":status") /\ reading v t
    end).

(** ** Conditions of the theorems *)

(** The static indices of a line are those of the table. *)
Definition index_ok (ln : line) : Prop :=
  match ln with Indexed i => i < 99 | NameRef _ i _ => i < 99 | Literal _ _ _ => True end.

(** A string that fits a buffer. *)
Definition fit (s : list N) : Prop := blen s < 2 ^ 62 /\ bytes_ok s.

Definition opt_fit (s : option (list N)) : Prop := match s with None => True | Some v => fit v end.

(** An empty range is the same as no range. *)
Definition range_opt (range : list N) : option (list N) := if 0 <? blen range then Some range else None.

(** Room for an optional field: twenty bytes for the index and the length, and the value. *)
Definition opt_len (s : option (list N)) : N := match s with None => 0 | Some v => 20 + blen v end.
