(** Model of connection ids written and read in hexadecimal: picoquic/util.c 253-319 (definitions
    only).  Strings are lists of character codes; the reading of digits is in Lb_model. *)
From Verif Require Import Base Lb_model.

(** picoquic/util.c 255, hex_to_char; [None]: out of the table, undefined. *)
Definition hex_to_char : list N := [48; 49; 50; 51; 52; 53; 54; 55; 56; 57; 97; 98; 99; 100; 101; 102].

(** What is left of a buffer: an undefined read of the table or write past its end, the return code
    -1 (and nothing is written), or the characters written with the final zero. *)
Inductive hout := HUndef | HErr | HText (s : list N).

(** The loop of picoquic/util.c 260-263: [room] characters can be written. *)
Fixpoint hex_loop (room : N) (id : list N) : option (list N) :=
  match id with
  | [] => if 1 <=? room then Some [0] else None
  | b :: r =>
    match nth_error hex_to_char (N.to_nat (N.shiftr b 4)), nth_error hex_to_char (N.to_nat (N.land b 15)) with
    | Some x, Some y =>
      if 2 <=? room then option_map (fun s => x :: y :: s) (hex_loop (room - 2) r) else None
    | _, _ => None
    end
  end.

(** picoquic/util.c 253-268, picoquic_print_connection_id_hexa; [id]: the id_len bytes of the id. *)
Definition print_id (buf_len : N) (id : list N) : hout :=
  if buf_len <? blen id * 2 + 1 then HErr
  else match hex_loop buf_len id with Some s => HText s | None => HUndef end.

(** picoquic/util.c 309-319, picoquic_parse_connection_id_hexa: the array id (of
    PICOQUIC_CONNECTION_ID_MAX_SIZE bytes, picoquic/picoquic.h 239-243), id_len. *)
Definition parse_id (s : list N) : list N * N :=
  let r := parse_hexa s 18 in
  let len := u8 (blen r) in
  if len =? 0 then (repeat 0 20, 0) else (r ++ repeat 0 (20 - length r), len).
