(** Specification of the streams of HTTP/3 that carry a request or a response: RFC 9114,
    4.1 and 7, as far as the code supports it.  Of the model, the parser of header blocks
    (property C55), the codes of errors and the states of streams are used. *)
From Verif Require Import Base Varint_spec Qpack_model H3_model.

(** A frame: type and content. *)
Definition frame : Type := N * list N.

Definition frame_bytes (f : frame) (l : list N) : Prop :=
  exists a b, is_varint (fst f) a /\ is_varint (blen (snd f)) b /\ l = a ++ b ++ snd f.

Inductive frames : list frame -> list N -> Prop :=
| frames_nil : frames [] []
| frames_cons : forall f l fs r, frame_bytes f l -> frames fs r -> frames (f :: fs) (l ++ r).

(** What is known of a message: its header, its data, its trailer, and whether there was a data
    frame. *)
Record view := mk_v { v_header : option parts; v_data : list N; v_trailer : option parts; v_any : bool }.

Definition view0 : view := mk_v None [] None false.

Inductive verdict (A : Type) := Good (a : A) | Bad (code : N) | Wild.
Arguments Good {A} a.
Arguments Bad {A} code.
Arguments Wild {A}.

Definition is_some {A} (x : option A) : bool := match x with Some _ => true | None => false end.

(** The frames that are refused after what is known, from their type and length. *)
Definition refused (v : view) (ty n : N) : option N :=
  if ty =? 0 then if is_some (v_header v) && negb (is_some (v_trailer v)) then None else Some 261
  else if ty =? 1 then
    if is_some (v_header v) && (negb (v_any v) || is_some (v_trailer v)) then Some 261
    else if 65536 <? n then Some 258 else None
  else if ty =? 65 then if is_some (v_header v) then Some 261 else None
  else if (ty =? 3) || (ty =? 7) || (ty =? 13) then Some 257
  else if ty =? 4 then Some 261
  else None.

(** What a complete frame adds. *)
Definition take (v : view) (f : frame) : verdict view :=
  match refused v (fst f) (blen (snd f)) with
  | Some c => Bad c
  | None =>
    if fst f =? 0 then Good (mk_v (v_header v) (v_data v ++ snd f) (v_trailer v) true)
    else if fst f =? 1 then
      match parse_header_frame (snd f) with
      | Ret (true, p) =>
        Good (if is_some (v_header v) then mk_v (v_header v) (v_data v) (Some p) (v_any v)
              else mk_v (Some p) (v_data v) None (v_any v))
      | Ret (false, _) => Bad 262
      | _ => Wild
      end
    else Good v
  end.

(** The frames of a message; no frame opens a web transport stream. *)
Inductive message : view -> list frame -> view -> Prop :=
| message_nil : forall v, message v [] v
| message_cons : forall v f fs v1 v2, fst f <> 65 -> take v f = Good v1 -> message v1 fs v2 ->
    message v (f :: fs) v2.

(** An incomplete end of the bytes of a stream: within the type and length of a frame, or within
    its content (a frame without content counts as incomplete until the next byte); or the
    bytes of a web transport stream.  [d]: the data it contains, [id]: the session it belongs
    to, [cut]: whether content of a frame is missing. *)
Inductive tail (v : view) : list N -> list N -> option N -> bool -> Prop :=
| tail_start : forall p q ty n a b, is_varint ty a -> is_varint n b -> q <> [] -> p ++ q = a ++ b ->
    tail v p [] None false
| tail_content : forall ty n a b x, is_varint ty a -> is_varint n b -> ty <> 65 -> refused v ty n = None ->
    (blen x < n \/ (n = 0 /\ x = [])) -> tail v (a ++ b ++ x) (if ty =? 0 then x else []) None (negb (n =? 0))
| tail_web : forall id a b x, is_varint 65 a -> is_varint id b -> v_header v = None ->
    tail v (a ++ b ++ x) x (Some id) false.

(** Bytes at which the stream is wrong: the frame is refused for its type or length, or its
    header block is; the code of the error. *)
Inductive wrong (v : view) : list N -> N -> Prop :=
| wrong_frame : forall ty n a b r c, is_varint ty a -> is_varint n b -> refused v ty n = Some c ->
    wrong v (a ++ b ++ r) c
| wrong_content : forall f l r c, frame_bytes f l -> refused v (fst f) (blen (snd f)) = None -> take v f = Bad c ->
    (snd f <> [] \/ r <> []) -> wrong v (l ++ r) c.

(** Bytes that begin with a frame whose header block makes the parser of header blocks read
    out of bounds (property C55). *)
Definition wild (v : view) (l : list N) : Prop :=
  exists f lf r, frame_bytes f lf /\ take v f = Wild /\ l = lf ++ r.

(** The data given to the application. *)
Definition given (e : list hev) : list N :=
  flat_map (fun x => match x with Data l => l | _ => [] end) e.

(** What a program may see of the state of a stream. *)
Record seen := mk_seen { n_header : option parts; n_trailer : option parts; n_session : option N; n_cut : bool }.

Definition seen_of (s : dstate) : seen :=
  mk_seen (if d_hfound s && negb (d_web s) then Some (d_header s) else None)
    (if d_tfound s then Some (d_trailer s) else None)
    (if d_web s then Some (d_control s) else None)
    (is_some (client_fin s)).

(** The codes with which the connection was closed. *)
Definition closes (e : list hev) : list N :=
  flat_map (fun x => match x with Close c => [c] | _ => [] end) e.

(** What comes of a stream. *)
Inductive result :=
| Broken
| Stuck
| Closed (d c : list N)
| Open (d : list N) (n : seen).

Definition result_of (o : outcome (list hev * dstate)) : result :=
  match o with
  | Undef => Broken
  | NoFuel => Stuck
  | Ret (e, s) => if closed e then Closed (given e) (closes e) else Open (given e) (seen_of s)
  end.

(** Servers and clients. *)
Definition side (data : list N -> dstate -> outcome (list hev * dstate)) : Prop :=
  data = server_data \/ data = client_data.

Definition stream (cs : list (list N)) (l : list N) : Prop :=
  concat cs = l /\ bytes_ok l /\ blen l < 2 ^ 62.

(** An answer that accepts the request. *)
Definition success (p : parts) : bool := ((200 <=? p_status p) && (p_status p <? 300))%Z.
