(** Vocabulary of the end-to-end properties. *)
From Verif Require Import Base Varint_model Frames_model Stream_model Stream_spec Send_model Send_spec Repeat_model
  Repeat_spec Net_model.

(** The values of events fit in 62 bits, as those of frames and parameters do. *)
Definition sev_ok (e : sev) : Prop :=
  match e with
  | SStart cr m sb su => cr_bl cr < two62 /\ cr_br cr < two62 /\ cr_u cr < two62
  | STransport l => Forall (fun p => snd p < two62) l
  | SMaxData v => v < two62
  | SMaxStreamData id v => id < two62 /\ v < two62
  | SPeer id | SAdd id _ _ | SActive id _ | SPrio id _ => id < two62
  | SReset id err _ | SStop id err _ => err < two62
  | _ => True
  end.

(** Packets of at most 16384 bytes, stream tables with 64-bit priorities, STREAM frames
    in 0-RTT or 1-RTT packets. *)
Definition nev_ok (e : nev) : Prop :=
  match e with
  | NPacket room parts => room <= 16384 /\ Forall (fun p => match p with PRepeat st _ => prio_ok st | _ => True end) parts
  | NLost _ st _ => prio_ok st
  | NLocalA e => sev_ok e
  | NArrive _ _ epoch => epoch = 1 \/ epoch = 3
  | NLocalB _ => True
  end.

(** What the application gave to A is made of bytes. *)
Definition bytes_written (log : list item) : Prop := forall id, bytes_ok (wrote_bytes id log).

(** A packet that arrived carries a STREAM frame. *)
Definition arrived (evs : list nev) (n : net) (f : sfr) : Prop :=
  exists k o epoch b fs, In (NArrive k o epoch) evs /\ nth_error (a_packets n) k = Some b /\
    payload_streams b fs /\ In f fs.

(** Byte [i] of a stream, or its FIN, arrived. *)
Definition byte_arrived (evs : list nev) (n : net) (id i : N) : Prop :=
  exists off fin d, arrived evs n (id, off, fin, d) /\ off <= i < off + blen d.
Definition fin_arrived (evs : list nev) (n : net) (id : N) : Prop :=
  exists off d, arrived evs n (id, off, true, d).

(** A's application wrote nothing after the end of the stream. *)
Definition ends_well (id : N) (log : list item) : Prop :=
  forall l1 l2, log = l1 ++ IFin id :: l2 -> wrote_bytes id l2 = [].

(** A did not reset the stream; B's application did not refuse it. *)
Definition not_reset (id : N) (log : list item) : Prop := forall err final, ~ In (IReset id err final) log.
Definition not_refused (id : N) (evs : list nev) : Prop :=
  ~ In (NLocalB (OpStop id)) evs /\ ~ In (NLocalB (OpDiscard id)) evs.

(** Byte [i] of a stream is in a packet that was not declared lost. *)
Definition under_way (evs : list nev) (n : net) (id i v : N) : Prop :=
  exists k b fs f, nth_error (a_packets n) k = Some b /\ (forall st pos, ~ In (NLost k st pos) evs) /\
    payload_streams b fs /\ In f fs /\ frame_byte f id i v.

(** It waits to be sent again. *)
Definition waits_again (n : net) (id i v : N) : Prop :=
  exists fss, queue_waits (a_queue n) fss /\ pending_byte fss id i v.

(** It was found not to be needed any more (acknowledged, stream reset or deleted)
    when its turn came to be sent again. *)
Definition given_up (evs : list nev) (id i : N) : Prop :=
  exists room parts st pos, In (NPacket room parts) evs /\ In (PRepeat st pos) parts /\ not_needed st id i (i + 1) false.
