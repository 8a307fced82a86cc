(** C48: key updates.  Two endpoints start, follow and repeat updates of their 1-RTT keys
    while packets are lost, repeated, reordered and forged. *)
From Verif Require Import Base Keys_model Keys_spec Keys_proofs Keys2_proofs Keys3_proofs Keys4_proofs Keys5_proofs.

(** No history makes the code use a key that it does not have. *)
Theorem C48_defined : forall mp maxa maxb inta intb senta sentb l,
  run (init_w mp maxa maxb inta intb senta sentb) l <> None.
Proof. exact run_defined. Qed.
Print Assumptions C48_defined.

Example C48_defined_ex :
  match run (init_w false 1000 1000 1000 1000 5 5)
        [ESend SA 0 10; EDeliver SB 0 20 100; ERotate SA; ESend SA 0 30; EForge SB 0 7 true 35 100; EDeliver SB 1 40 100; ESend SB 0 50; EDeliver SA 0 60 100] with
  | Some (_, tr) => tr = [OSend SA 0 0; OFate SB 0 0 Accepted; ORotate SA 0; OSend SA 0 1; OForged SB Failed; OFate SB 0 1 Accepted; OSend SB 0 1; OFate SA 0 1 Accepted]
  | None => False
  end.
Proof. vm_compute. reflexivity. Qed.

(** If each update follows a packet of the previous generation that the peer has deciphered
    (as RFC 9001, section 6.1 asks), or if only one side starts updates, then the receiver is
    never more than one generation behind; packets of its newest generation and of the next
    are deciphered; packets of the previous generation are never counted as forged; packets
    of older ones are never deciphered.  With several paths this holds of a packet of the next
    generation if the path was used in the newest one. *)
Theorem C48_in_sync_partial : forall mp maxa maxb inta intb senta sentb l w tr s n now rto w' path g f,
  run (init_w mp maxa maxb inta intb senta sentb) l = Some (w, tr) -> N.of_nat (length l) < 2 ^ 62 ->
  confirmed tr \/ (exists s0, only_by s0 tr) ->
  step w (EDeliver s n now rto) = Some (w', [OFate s path g f]) ->
  (mp = false \/ newest s tr = 0 \/ g <= newest s tr \/ In (OFate s path (newest s tr) Accepted) tr) ->
  proper_fate (newest s tr) g f.
Proof. exact in_sync. Qed.
Print Assumptions C48_in_sync_partial.

Example C48_in_sync_ex :
  match run (init_w false 1000 1000 1000 1000 5 5)
        [ESend SA 0 10; ESend SA 0 10; ERotate SA; ESend SA 0 30; EDeliver SB 2 40 100; ESend SB 0 50; EDeliver SA 0 60 100; EDeliver SB 0 70 100;
         ESend SB 0 80; EDeliver SA 1 90 100; ESend SB 0 80; EDeliver SA 2 90 100; ESend SB 0 80; EDeliver SA 3 90 100; ERotate SA; ESend SA 0 100] with
  | Some (w, tr) => confirmedb [] tr = true /\ newest SB tr = 1 /\
      (match step w (EDeliver SB 3 110 100) with Some (_, o) => o = [OFate SB 0 2 Accepted] | None => False end) /\
      (match step w (EDeliver SB 2 110 100) with Some (_, o) => o = [OFate SB 0 1 Accepted] | None => False end) /\
      (match step w (EDeliver SB 1 110 100) with Some (_, o) => o = [OFate SB 0 0 Accepted] | None => False end) /\
      (match step w (EDeliver SB 1 1000 100) with Some (_, o) => o = [OFate SB 0 0 Ignored] | None => False end)
  | None => False
  end.
Proof. vm_compute. repeat split. Qed.

(** Packets of the previous generation are deciphered during the retransmission delay that
    follows the arrival of the new one, unless the receiver starts an update itself. *)
Theorem C48_reordered : forall mp maxa maxb inta intb senta sentb l w tr s n t0 rto0 w1 path l2 w2 t2 m now rto w3 path' f,
  run (init_w mp maxa maxb inta intb senta sentb) l = Some (w, tr) ->
  step w (EDeliver s n t0 rto0) = Some (w1, [OFate s path (newest s tr + 1) Accepted]) -> t0 + rto0 < 2 ^ 64 ->
  run w1 l2 = Some (w2, t2) -> N.of_nat (length l) + N.of_nat (length l2) < 2 ^ 62 ->
  (let all := tr ++ [OFate s path (newest s tr + 1) Accepted] ++ t2 in confirmed all \/ exists s0, only_by s0 all) ->
  none_by s t2 -> newest s t2 <= newest s tr + 1 ->
  step w2 (EDeliver s m now rto) = Some (w3, [OFate s path' (newest s tr) f]) -> now <= t0 + rto0 ->
  f = Accepted.
Proof. exact reordered. Qed.
Print Assumptions C48_reordered.

Example C48_reordered_ex :
  match run (init_w true 1000 1000 1000 1000 5 5) [ESend SA 0 10; ESend SA 1 10; ERotate SA; ESend SA 0 30] with
  | Some (w, tr) =>
    match run w [EDeliver SB 2 40 100] with
    | Some (w1, o) => o = [OFate SB 0 (newest SB tr + 1) Accepted] /\
      match run w1 [ESend SB 0 45; EDeliver SB 0 50 100; EDeliver SB 1 140 100] with
      | Some (_, o2) => o2 = [OSend SB 0 1; OFate SB 0 0 Accepted; OFate SB 1 0 Accepted]
      | None => False
      end
    | None => False
    end
  | None => False
  end.
Proof. vm_compute. repeat split. Qed.

(** Packets made by someone without the keys are not accepted, and without them everything
    else happens in the same way: the same packets are sent with the same keys, the same
    updates are made and the packets of the peer have the same fates (until the limit of
    [C48_failure_limit] closes the connection). *)
Theorem C48_forged : forall mp maxa maxb inta intb senta sentb l w tr,
  run (init_w mp maxa maxb inta intb senta sentb) l = Some (w, tr) ->
  (forall s f, In (OForged s f) tr -> f <> Accepted) /\
  exists w', run (init_w mp maxa maxb inta intb senta sentb) (filter (fun e => negb (forgery e)) l) =
             Some (w', filter (fun o => negb (of_forgery o)) tr) /\ w_sa w' = w_sa w /\ w_sb w' = w_sb w.
Proof. exact forged_nothing. Qed.
Print Assumptions C48_forged.

Example C48_forged_ex :
  let l := [ESend SA 0 10; EForge SB 0 0 true 15 100; EDeliver SB 0 20 100; EForge SA 0 9 false 15 100; ERotate SA; ESend SA 0 30;
            EForge SB 0 100 true 35 100; EForge SB 0 1 false 35 100; EDeliver SB 1 40 100; EForge SB 0 0 false 42 100; ESend SB 0 50; EDeliver SA 0 60 100] in
  match run (init_w false 1000 1000 1000 1000 5 5) l with
  | Some (_, tr) =>
    match run (init_w false 1000 1000 1000 1000 5 5) (filter (fun e => negb (forgery e)) l) with
    | Some (_, tr2) => (length tr2 + 5 = length tr)%nat /\ newest SB tr2 = 1 /\ newest SA tr2 = 1
    | None => False
    end
  | None => False
  end.
Proof. vm_compute. repeat split. Qed.

(** A side closes the connection exactly when the packets that it could not decipher are more
    than the limit of the cipher. *)
Theorem C48_failure_limit : forall mp maxa maxb inta intb senta sentb l w tr s,
  run (init_w mp maxa maxb inta intb senta sentb) l = Some (w, tr) ->
  k_closed (end_of w s) = true <-> match s with SA => inta | SB => intb end < failures s tr.
Proof. exact closed_when. Qed.
Print Assumptions C48_failure_limit.

Example C48_failure_limit_ex :
  match run (init_w false 1000 1000 1000 2 5 5) [EForge SB 0 0 true 15 100; EForge SB 0 0 false 15 100] with
  | Some (w, tr) => failures SB tr = 2 /\ k_closed (end_of w SB) = false /\
      match run w [EForge SB 0 7 true 16 100] with Some (w1, _) => k_closed (end_of w1 SB) = true | None => False end
  | None => False
  end.
Proof. vm_compute. repeat split. Qed.

(** Finding: picoquic_start_key_rotation compares the number at which the last update was
    started with the largest number received from the peer, and these are not related (the
    comment says that a packet was acknowledged).  Both sides start an update; then one that
    has sent nothing since starts another one and is not refused.  From then on, whatever
    happens, the peer deciphers nothing that this side sends. *)
Theorem C48_crossed_refuted : exists l, forall l2, exists w tr,
  run (init_w false 1000 1000 1000 1000 5 5) (l ++ l2) = Some (w, tr) /\
  exists tr1 tr2, tr = tr1 ++ tr2 /\ (exists w1, run (init_w false 1000 1000 1000 1000 5 5) l = Some (w1, tr1)) /\
    (forall path g, In (OSend SA path g) tr2 -> g = 2) /\
    (forall path g, In (OFate SB path g Accepted) tr2 -> g = 0).
Proof. exact crossed_lost. Qed.
Print Assumptions C48_crossed_refuted.

(** Finding: a side that follows an update of its peer does not change the number that this
    check uses.  It can start another update before it has sent one packet with the keys of
    the first; from then on the peer deciphers nothing that it sends. *)
Theorem C48_reply_refuted : exists l, forall l2, exists w tr,
  run (init_w false 1000 1000 1000 1000 5 5) (l ++ l2) = Some (w, tr) /\
  exists tr1 tr2, tr = tr1 ++ tr2 /\ (exists w1, run (init_w false 1000 1000 1000 1000 5 5) l = Some (w1, tr1)) /\
    (forall path g, In (OSend SB path g) tr2 -> g = 2) /\
    (forall path g, In (OFate SA path g Accepted) tr2 -> g = 0).
Proof. exact replied_lost. Qed.
Print Assumptions C48_reply_refuted.

(** Finding: with multipath the number of the first packet of the new keys is set to
    UINT64_MAX on each other path, and stays so on a path that is not used until the next
    update.  The packets of that next update on this path are then all taken for packets of
    the previous keys and dropped, at any time, although each update was confirmed. *)
Theorem C48_multipath_refuted : exists l,
  match run (init_w true 1000 1000 1000 1000 5 5) l with
  | Some (w, tr) =>
    confirmed tr /\
    forall now rto, exists w' f, step w (EDeliver SB 3 now rto) = Some (w', [OFate SB 1 (newest SB tr + 1) f]) /\ f <> Accepted
  | None => False
  end.
Proof. exact idle_path_lost_ex. Qed.
Print Assumptions C48_multipath_refuted.

(** Finding: the same check refuses updates that are due.  A side that sends four packets for
    each one that it receives seals more and more packets with each key: with a limit of 7 it
    seals 112 with one, although every packet is delivered. *)
Theorem C48_limit_refuted : exists l,
  match run (init_w false 7 1000 1000 1000 0 0) l with
  | Some (_, tr) => confirmed tr /\ Forall (fun o => match o with OFate _ _ _ f => f = Accepted | _ => True end) tr /\
                    14 * (7 + 1) = sealed_with SA 2 tr
  | None => False
  end.
Proof. exact bulk_seals_ex. Qed.
Print Assumptions C48_limit_refuted.

(** Finding: the test for the automatic update subtracts a packet number from a count of
    packets.  When more numbers were skipped than packets were sent during the handshake the
    difference wraps, and an update is made for each packet that is answered, here with a limit
    of one million. *)
Theorem C48_hole_refuted : exists l,
  match run (init_w false 1000000 1000000 1000 1000 0 0) l with
  | Some (_, tr) => confirmed tr /\ Forall (fun o => match o with OFate _ _ _ f => f = Accepted | _ => True end) tr /\
                    forall g, In g [1; 2; 3; 4; 5; 6; 7; 8; 9] -> sealed_with SA g tr = 1
  | None => False
  end.
Proof. exact skipping_seals_ex. Qed.
Print Assumptions C48_hole_refuted.
