(** Specification for requests to stop sending. *)
From Verif Require Import Base Send_model.

(** The stream waits for its STOP_SENDING frame to be sent with code [err]. *)
Definition stop_waiting (c : snd_cnx) (id err : N) : Prop :=
  In id (n_out c) /\ exists s, w_lookup c id = Some s /\
    w_stop_req s = true /\ w_stop_sent s = false /\ w_stop_err s = err.

(** Events other than those that may end the wait: the end of the receiving side of
    the stream or its deletion, and new transport parameters. *)
Definition undisturbed (id : N) (e : sev) : bool :=
  match e with
  | SStart _ _ _ _ => false
  | STransport _ => false
  | SRcvEnd i => negb (i =? id)
  | SDelete i => negb (i =? id)
  | _ => true
  end.

(** A stream that has no frame to send. *)
Definition nothing_to_send (c : snd_cnx) (i : N) : Prop :=
  forall s, w_lookup c i = Some s -> urgent s = false /\ has_data c s = false.

