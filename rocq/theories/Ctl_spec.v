(** Specification of the streams that an HTTP/3 peer opens: control streams (RFC 9114, 6.2.1
    and 7.2.4) and web transport streams, as far as the code supports them. *)
From Verif Require Import Base Varint_spec Qpack_model H3_model H3_spec Ctl_model.

(** The content of a SETTINGS frame: pairs of identifiers and values. *)
Inductive pairs : list (N * N) -> list N -> Prop :=
| pairs_nil : pairs [] []
| pairs_cons : forall k v a b ps l, is_varint k a -> is_varint v b -> pairs ps l -> pairs ((k, v) :: ps) (a ++ b ++ l).

(** The last value given for an identifier. *)
Fixpoint last_of (k : N) (ps : list (N * N)) (d : N) : N :=
  match ps with
  | [] => d
  | (k', v) :: r => last_of k r (if k' =? k then v else d)
  end.

(** The settings after a SETTINGS frame: SETTINGS_WT_MAX_SESSIONS, QPACK_MAX_TABLE_CAPACITY,
    QPACK_BLOCKED_STREAMS, ENABLE_CONNECT_PROTOCOL and H3_DATAGRAM. *)
Definition told_by (ps : list (N * N)) (st : settings) (received : bool) : settings :=
  mk_set (last_of 3329323114 ps (se_sessions st)) (last_of 1 ps (se_table st)) (last_of 7 ps (se_blocked st))
    (last_of 8 (map (fun p => (fst p, snd p mod 2)) ps) (se_connect st))
    (last_of 51 (map (fun p => (fst p, snd p mod 2)) ps) (se_datagram st)) received.

(** The types of frames refused on a control stream: a second SETTINGS frame, another frame
    first, or a frame of other streams; with the code. *)
Definition type_bad (received : bool) (ty : N) : option N :=
  if received then
    if ty =? 4 then Some 261
    else if (ty =? 0) || (ty =? 1) || (ty =? 5) || (ty =? 65) then Some 258 else None
  else if ty =? 4 then None else Some 266.

(** The frames of a control stream: SETTINGS, not empty, then frames that are ignored. *)
Inductive control : settings -> list frame -> settings -> Prop :=
| control_nil : forall st, control st [] st
| control_settings : forall st ps x fs st', se_received st = false -> pairs ps x -> x <> [] -> blen x <= 65536 ->
    control (told_by ps st true) fs st' -> control st ((4, x) :: fs) st'
| control_other : forall st ty x fs st', ty <> 4 -> type_bad (se_received st) ty = None ->
    control st fs st' -> control st ((ty, x) :: fs) st'.

(** A number that is not complete. *)
Definition number_start (p : list N) : Prop := exists q v, q <> [] /\ is_varint v (p ++ q).

(** An incomplete frame at the end of a control stream. *)
Inductive control_tail (st : settings) : list N -> Prop :=
| control_tail_type : forall p, number_start p -> control_tail st p
| control_tail_length : forall ty a p, is_varint ty a -> type_bad (se_received st) ty = None -> number_start p ->
    control_tail st (a ++ p)
| control_tail_content : forall ty n a b x, is_varint ty a -> is_varint n b -> type_bad (se_received st) ty = None ->
    (ty = 4 -> n <= 65536) -> blen x < n -> control_tail st (a ++ b ++ x).

(** Bytes at which a control stream is refused, and the code. *)
Inductive control_bad (st : settings) : list N -> N -> Prop :=
| control_bad_type : forall ty a r c, is_varint ty a -> type_bad (se_received st) ty = Some c -> control_bad st (a ++ r) c
| control_bad_length : forall n a b r, is_varint 4 a -> is_varint n b -> se_received st = false -> 65536 < n ->
    control_bad st (a ++ b ++ r) 258
| control_bad_settings : forall x lf r, frame_bytes (4, x) lf -> se_received st = false -> blen x <= 65536 ->
    (x = [] \/ forall ps, ~ pairs ps x) -> control_bad st (lf ++ r) 265.

(** What comes of a stream. *)
Inductive uresult :=
| UBroken
| UStuck
| Stopped (c : list N) (st : settings)
| Going (d : list N) (session : option N) (st : settings).

(** The data for the application, and the codes of STOP_SENDING. *)
Definition udata (e : list uev) : list N := flat_map (fun x => match x with UData l => l | _ => [] end) e.
Definition ustops (e : list uev) : list N := flat_map (fun x => match x with UStop c => [c] | _ => [] end) e.

Definition uresult_of (o : outcome (list uev * ustate * settings)) : uresult :=
  match o with
  | Undef => UBroken
  | NoFuel => UStuck
  | Ret (e, s, st) =>
    if stopped e then Stopped (ustops e) st
    else Going (udata e) (if u_control s =? 2 ^ 64 - 1 then None else Some (u_control s)) st
  end.

(** What comes of the bytes after the type of a web transport stream; [known]: the sessions. *)
Inductive session_result (known : N -> bool) (st : settings) : list N -> uresult -> Prop :=
| session_partial : forall p, number_start p -> session_result known st p (Going [] None st)
| session_data : forall id b d, is_varint id b -> known id = true -> session_result known st (b ++ d) (Going d (Some id) st)
| session_unknown : forall id b d, is_varint id b -> known id = false -> session_result known st (b ++ d) (Stopped [0] st).
