(** Model of the parsing of paths and queries, picohttp/h3zero_uri.c, and of its user in
    wt_baton.c (definitions only).  A pointer and a length are a list of bytes; an access
    outside of a buffer is [Undef]; lengths are below 2^64. *)
From Verif Require Import Base Mem Qpack_model H3_model.

(** picohttp/h3zero_uri.c 120-130, h3zero_pathabempty_length: the bytes before a '?'. *)
Fixpoint path_part (l : list N) : N :=
  match l with
  | [] => 0
  | c :: r => if c =? 63 then 0 else 1 + path_part r
  end.

(** picohttp/h3zero_uri.c 133-143, h3zero_query_offset. *)
Definition query_offset (l : list N) : outcome N :=
  let n := path_part l in
  if n <? blen l then
    let! c := mem (mem_get n l) in
    Ret (if c =? 63 then n + 1 else blen l)
  else Ret (blen l).

(** memcmp(a, b, n) == 0 for two areas of the same length. *)
Fixpoint same (a b : list N) : bool :=
  match a, b with
  | [], [] => true
  | x :: a', y :: b' => (x =? y) && same a' b'
  | _, _ => false
  end.

(** picohttp/h3zero_uri.c 163-165 and 175-184, h3zero_query_parameter_length: the bytes
    before a '&'. *)
Fixpoint value_part (l : list N) : N :=
  match l with
  | [] => 0
  | c :: r => if c =? 38 then 0 else 1 + value_part r
  end.

(** picohttp/h3zero_uri.c 149-171, the loop of h3zero_query_parameter_position at
    begin_index; every turn takes a byte. *)
Fixpoint position_loop (fuel : nat) (q id : list N) (begin : N) : outcome N :=
  match fuel with
  | O => NoFuel
  | S f =>
    if begin <? blen q then
      let tentative := begin + blen id in
      let! found :=
        (if tentative <=? blen q then
           let! m := mem (mem_read begin (blen id) q) in
           if same m id then
             if tentative =? blen q then Ret true
             else let! c := mem (mem_get tentative q) in Ret ((c =? 61) || (c =? 38))
           else Ret false
         else Ret false) in
      if found then
        if tentative <? blen q then
          let! c := mem (mem_get tentative q) in
          Ret (if c =? 61 then tentative + 1 else tentative)
        else Ret tentative
      else
        let b := begin + value_part (skipn (N.to_nat begin) q) in
        position_loop f q id (if b <? blen q then b + 1 else b)
    else Ret 0
  end.

(** picohttp/h3zero_uri.c 145-173, h3zero_query_parameter_position; 0: not found. *)
Definition position (q id : list N) : outcome N := position_loop (S (List.length q)) q id 0.

(** picohttp/h3zero_uri.c 201-212: the value of a digit. *)
Definition digit (x : N) : option N :=
  if (48 <=? x) && (x <=? 57) then Some (x - 48)
  else if (97 <=? x) && (x <=? 102) then Some (x - 97 + 10)
  else if (65 <=? x) && (x <=? 70) then Some (x - 65 + 10)
  else None.

(** picohttp/h3zero_uri.c 196-214: the loop over the digits; [i] of them remain.  The
    rest, the value, and whether both digits were there.  Arithmetic of 8 bits. *)
Fixpoint escape (i : nat) (l : list N) (v : N) : list N * N * bool :=
  match i with
  | O => (l, v, true)
  | S j =>
    match l with
    | [] => (l, v, false)
    | x :: r =>
      let v := N.shiftl v 4 mod 256 in
      match digit x with
      | Some d => escape j r ((v + d) mod 256)
      | None => (r, v, false)
      end
    end
  end.

(** picohttp/h3zero_uri.c 186-222, h3zero_query_parameter_pchar: the rest, the byte, and
    whether it is correct. *)
Definition pchar (l : list N) : outcome (list N * N * bool) :=
  match l with
  | [] => Undef
  | v :: r => Ret (if v =? 37 then escape 2 r v else (r, v, true))
  end.

(** picohttp/h3zero_uri.c 229-240, the loop of h3zero_query_bytes_to_string; [buf] is the
    buffer, [n] string_length.  Whether there was no error, the buffer and the length. *)
Fixpoint string_loop (fuel : nat) (l buf : list N) (n : N) : outcome (bool * list N * N) :=
  match fuel with
  | O => NoFuel
  | S f =>
    match l with
    | [] => Ret (true, buf, n)
    | _ :: _ =>
      let! (l, v, ok) := pchar l in
      if n <? blen buf then
        let! buf := mem (mem_write n [v] buf) in
        if ok then string_loop f l buf (n + 1) else Ret (false, buf, n + 1)
      else Ret (false, buf, n)
    end
  end.

(** picohttp/h3zero_uri.c 224-247, h3zero_query_bytes_to_string. *)
Definition bytes_to_string (l buf : list N) : outcome (bool * list N * N) :=
  let! (ok, buf, n) := string_loop (S (List.length l)) l buf 0 in
  if n <? blen buf then let! buf := mem (mem_write n [0] buf) in Ret (ok, buf, n)
  else Ret (ok, buf, n).

(** picohttp/h3zero_uri.c 255-279, the loop of h3zero_query_bytes_to_uint64: whether
    there was no error, and the number. *)
Fixpoint number_loop (fuel : nat) (l : list N) (x : N) : outcome (bool * N) :=
  match fuel with
  | O => NoFuel
  | S f =>
    match l with
    | [] => Ret (true, x)
    | _ :: _ =>
      let! (l, v, ok) := pchar l in
      if ok then
        if (48 <=? v) && (v <=? 57) then
          if max64 / 10 <=? x then Ret (false, x)
          else
            let x := u64 (x * 10) in
            if max64 - (v - 48) <? x then Ret (false, x) else number_loop f l (u64 (x + (v - 48)))
        else Ret (false, x)
      else Ret (false, x)
    end
  end.

(** picohttp/h3zero_uri.c 249-284, h3zero_query_bytes_to_uint64. *)
Definition bytes_to_uint64 (l : list N) : outcome (bool * N) := number_loop (S (List.length l)) l 0.

(** picohttp/h3zero_uri.c 290-294 and 306-311: the bytes of the value at a position. *)
Definition value_at (q : list N) (p : N) : outcome (list N) :=
  let v := skipn (N.to_nat p) q in
  mem (mem_read 0 (value_part v) v).

(** picohttp/h3zero_uri.c 286-297, h3zero_query_parameter_string: whether the result is
    zero, the buffer, and *parsed_length, which is [parsed] before. *)
Definition parameter_string (q id buf : list N) (parsed : N) : outcome (bool * list N * N) :=
  let! p := position q id in
  if negb (p =? 0) then let! v := value_at q p in bytes_to_string v buf
  else Ret (true, buf, parsed).

(** picohttp/h3zero_uri.c 299-316, h3zero_query_parameter_number: whether the result is
    zero, and *number. *)
Definition parameter_number (q id : list N) (default : N) : outcome (bool * N) :=
  let! p := position q id in
  if negb (p =? 0) then
    let! v := value_at q p in
    let! (ok, x) := bytes_to_uint64 v in
    Ret (ok, if (blen v =? 0) || negb ok then default else x)
  else Ret (true, default).

(** picohttp/wt_baton.c 558-561: the names looked up; of "version" the first five bytes. *)
Definition name_version : list N := [118; 101; 114; 115; 105].
(** picohttp/wt_baton.c 559: "baton". *)
Definition name_baton : list N := [98; 97; 116; 111; 110].
(** picohttp/wt_baton.c 560: "count". *)
Definition name_count : list N := [99; 111; 117; 110; 116].
(** picohttp/wt_baton.c 561: "inject". *)
Definition name_inject : list N := [105; 110; 106; 101; 99; 116].

(** What a request asks for: version, initial baton, number of lanes and error injected
    (picohttp/wt_baton.h 100-110). *)
Record baton := mk_baton { b_version : N; b_initial : N; b_lanes : N; b_inject : N }.

(** picohttp/wt_baton.c 550-578, wt_baton_ctx_path_params; [None]: refused.  The context
    is zero before (wt_baton_ctx_init, wt_baton.c 832). *)
Definition path_params (path : list N) : outcome (option baton) :=
  let! o := query_offset path in
  if o <? blen path then
    let q := skipn (N.to_nat o) path in
    let! (k1, version) := parameter_number q name_version 0 in
    if negb k1 then Ret None else
    let! (k2, initial) := parameter_number q name_baton 0 in
    if negb k2 then Ret None else
    let! (k3, lanes) := parameter_number q name_count 1 in
    if negb k3 then Ret None else
    let! (k4, inject) := parameter_number q name_inject 0 in
    if negb k4 then Ret None else
    if negb (version =? 0) || (255 <? initial) || (256 <? lanes) || (lanes <? 1) then Ret None
    else Ret (Some (mk_baton version initial lanes inject))
  else Ret (Some (mk_baton 0 240 1 0)).
