(** Model of the writing of the settings of HTTP/3: picohttp/h3zero_common.c 289-316, 1899-1940
    (definitions only). *)
From Verif Require Import Base Varint_model Ctl_model.

(** picohttp/h3zero_common.c 1899-1907, h3zero_settings_component_encode. *)
Definition component_encode (key value default : N) : writer :=
  if value =? default then fun _ => Some []
  else frames_varint_encode key >>> frames_varint_encode value.

(** picohttp/h3zero_common.c 1920-1924: the components, with their keys (picohttp/h3zero.h 203-210). *)
Definition components_encode (st : settings) : writer :=
  component_encode 1 (se_table st) max64 >>> component_encode 7 (se_blocked st) max64 >>>
  component_encode 8 (se_connect st) 0 >>> component_encode 51 (se_datagram st) 0 >>>
  component_encode 3329323114 (se_sessions st) 0.

(** picohttp/h3zero_common.c 1909-1940, h3zero_settings_encode in a buffer of [room] bytes: the length
    is first written as that of the buffer, and then again, in the same place; the components are moved
    if it takes fewer bytes. *)
Definition settings_encode (st : settings) (room : N) : option (list N) :=
  match frames_varint_encode 4 room with
  | None => None
  | Some a =>
    let room1 := room - blen a in
    match frames_varint_encode room room1 with
    | None => None
    | Some b =>
      match components_encode st (room1 - blen b) with
      | None => None
      | Some c =>
        match frames_varint_encode (blen c) (blen b) with
        | None => None
        | Some b' => Some (a ++ b' ++ c)
        end
      end
    end
  end.

(** picohttp/h3zero_common.c 289-316, h3zero_protocol_init: the settings, depending on whether
    datagrams are enabled, and the first bytes of the control stream (the type 0 and the settings, in a
    buffer of 256 bytes); [None]: H3ZERO_INTERNAL_ERROR. *)
Definition init_settings (datagrams : bool) : settings :=
  if datagrams then mk_set 1 0 0 1 1 false else mk_set 0 0 0 1 0 false.
Definition init_control (datagrams : bool) : option (list N) :=
  option_map (cons 0) (settings_encode (init_settings datagrams) 255).
