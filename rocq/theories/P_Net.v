(** Property C03: end-to-end integrity of streams over a network that loses,
    duplicates, delays and reorders packets. *)
From Verif Require Import Base Varint_model Sack_model Frames_model Reasm_model Reasm_spec Stream_model Stream_spec
  Send_model Send_spec Repeat_model Repeat_spec Net_model Net_spec Net4_proofs Net5_proofs.

(** Safety.  Whatever happens at both ends and on the network, the bytes delivered to
    B's application on a stream are a prefix of those that A's application wrote. *)
Theorem C03_prefix : forall cl prio0 p nb nu md mdr br ur evs n,
  net_run (net0 cl prio0 p nb nu md mdr br ur) evs = Some n ->
  Forall nev_ok evs -> bytes_written (a_log n) ->
  forall id, exists t, wrote_bytes id (a_log n) = bytes_of id (k_out (b_rcv n)) ++ t.
Proof. exact net_prefix. Qed.
Print Assumptions C03_prefix.

(** Exactness.  On a stream that A may send on, was not reset and was not refused by
    B's application, and as long as B did not stop on an error, exactly the longest
    prefix of which all bytes were in packets that arrived is delivered. *)
Theorem C03_exact : forall cl prio0 p nb nu md mdr br ur evs n,
  net_run (net0 cl prio0 p nb nu md mdr br ur) evs = Some n ->
  Forall nev_ok evs -> bytes_written (a_log n) ->
  forall id, b_ok n = true -> peer_sends (negb cl) id -> not_reset id (a_log n) -> not_refused id evs ->
  ends_well id (a_log n) ->
  exists k, (forall i, i < k -> byte_arrived evs n id i) /\ ~ byte_arrived evs n id k /\
    k <= blen (wrote_bytes id (a_log n)) /\
    bytes_of id (k_out (b_rcv n)) = firstn (N.to_nat k) (wrote_bytes id (a_log n)).
Proof. exact net_exact. Qed.
Print Assumptions C03_exact.

(** The end.  On the same streams, the end of the stream is delivered exactly when a
    FIN and all the bytes written have arrived; then everything has been
    delivered. *)
Theorem C03_fin : forall cl prio0 p nb nu md mdr br ur evs n,
  net_run (net0 cl prio0 p nb nu md mdr br ur) evs = Some n ->
  Forall nev_ok evs -> bytes_written (a_log n) ->
  forall id, b_ok n = true -> peer_sends (negb cl) id -> not_reset id (a_log n) -> not_refused id evs ->
  ends_well id (a_log n) ->
  ((exists q, In q (pieces_of id (k_out (b_rcv n))) /\ snd q = true) <->
   fin_arrived evs n id /\ forall i, i < blen (wrote_bytes id (a_log n)) -> byte_arrived evs n id i) /\
  (forall q, In q (pieces_of id (k_out (b_rcv n))) -> snd q = true ->
     bytes_of id (k_out (b_rcv n)) = wrote_bytes id (a_log n)).
Proof. exact net_fin. Qed.
Print Assumptions C03_fin.

(** Nothing is forgotten.  At any time, each byte that was sent on a stream is in a
    packet that was not declared lost, or waits to be sent again, or was found not
    to be needed any more when its turn came. *)
Theorem C03_kept : forall cl prio0 p nb nu md mdr br ur evs n,
  net_run (net0 cl prio0 p nb nu md mdr br ur) evs = Some n ->
  Forall nev_ok evs -> bytes_written (a_log n) ->
  forall id i v, log_byte (a_log n) id i v ->
  under_way evs n id i v \/ waits_again n id i v \/ given_up evs id i.
Proof. exact net_kept. Qed.
Print Assumptions C03_kept.

(** The arrival or the loss of any packet that was sent is always defined: no undefined
    behaviour in B when it reads it, nor in A when its frames are queued again. *)
Theorem C03_defined : forall cl prio0 p nb nu md mdr br ur evs n,
  net_run (net0 cl prio0 p nb nu md mdr br ur) evs = Some n ->
  Forall nev_ok evs -> bytes_written (a_log n) ->
  forall k o ep streams pos, (k < length (a_packets n))%nat -> (ep = 1 \/ ep = 3) -> prio_ok streams ->
  net_step n (NArrive k o ep) <> None /\ net_step n (NLost k streams pos) <> None.
Proof. exact net_defined. Qed.
Print Assumptions C03_defined.

(** A history: the client writes 30 bytes and a FIN on stream 4, and 2 bytes on
    stream 0, sent in three packets.  The second one is lost; the others arrive out of
    order and one of them twice.  The lost frame does not fit in the next packet,
    and is repeated in the one after, which arrives before it. *)
Definition ex_bytes : list N := map N.of_nat (seq 1 30).
Definition ex_opt : options := mk_opt false false false false false false 0 0 0.
Definition ex_table : list rstream := [mk_rs 0 false (sack_list_init 0) 9; mk_rs 4 false (sack_list_init 0) 9].
Definition ex_fill : part := PFill 50 5 18446744073709551615 (fun _ => ReplyNone).
Definition ex_events : list nev :=
  [NLocalA (STransport [(TpMaxData, 1000); (TpBidiRemote, 600); (TpStreamsBidi, 5)]);
   NLocalA (SAdd 4 (firstn 20 ex_bytes) false); NLocalA (SAdd 0 [7; 7] false); NLocalA (SAdd 4 (skipn 20 ex_bytes) true);
   NPacket 16 [ex_fill]; NPacket 16 [ex_fill]; NPacket 40 [ex_fill];
   NArrive 2 ex_opt 3; NArrive 0 ex_opt 3; NArrive 2 ex_opt 3;
   NLost 1 ex_table 0;
   NPacket 12 [PRepeat ex_table 0]; NPacket 30 [PRepeat ex_table 0; ex_fill];
   NArrive 4 ex_opt 3; NArrive 0 ex_opt 3; NArrive 3 ex_opt 3].
Definition ex_net : net := net0 true 9 (mk_params 1000 1000 1000 1000 1000 1000) 8 8 100000 100000 8 8.

Example C03_ex :
  Forall nev_ok ex_events /\ peer_sends (negb true) 4 /\ not_refused 4 ex_events /\
  match net_run ex_net ex_events with
  | Some n =>
    b_ok n = true /\ length (a_packets n) = 5%nat /\ wrote_bytes 4 (a_log n) = ex_bytes /\ wrote_bytes 0 (a_log n) = [7; 7] /\
    k_out (b_rcv n) =
      [EvPiece 0 ([7; 7], false); EvPiece 4 (firstn 14 ex_bytes, false);
       EvPiece 4 (firstn 6 (skipn 14 ex_bytes), false); EvPiece 4 (skipn 20 ex_bytes, true)] /\
    existsb (fun x => match x with IReset _ _ _ => true | _ => false end) (a_log n) = false
  | None => False
  end.
Proof.
  split; [| split; [left; reflexivity | split; [split; intro H; cbn [ex_events In] in H; intuition discriminate | vm_compute; repeat split]]].
  unfold ex_events, ex_table, ex_fill.
  repeat (apply Forall_cons; [cbn [nev_ok sev_ok] |]); [.. | apply Forall_nil].
  all: repeat (cbv beta iota; cbn [snd rs_prio]; match goal with
    | |- _ /\ _ => split
    | |- Forall _ (_ :: _) => apply Forall_cons
    | |- Forall _ [] => apply Forall_nil
    | |- prio_ok _ => unfold prio_ok
    | |- True => exact I
    | |- _ \/ _ => right; reflexivity
    | |- _ < _ => vm_compute; reflexivity
    | |- _ <= _ => vm_compute; discriminate
    end).
Qed.
