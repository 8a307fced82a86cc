(** * C53: path MTU discovery.

    Probes are well formed and within the limits of the peer, of the
    configuration and of the buffers; the packet size in use was acknowledged on
    the address in use, or is the starting size; the search is never stuck waiting
    for a probe that is no longer in flight; without resets at most one probe is
    in flight and at most three are lost; and when the search ends on a network
    that carries packets up to a given size, the packet size is the best one of
    the sizes allowed. *)
From Verif Require Import Base Pmtu_model Pmtu_spec Pmtu_proofs Pmtu2_proofs.

Definition g0 : mconf := mk_mc 1472 1500 PolRequired.
(** The probe of 1472 bytes is lost, that of 1400 bytes passes. *)
Definition ex_run : list mev :=
  [MData 1000 1536; MProbe 30 16 1536 0; MData 1252 1536; MAck 0; MLose 0 false false; MProbe 30 16 1536 0; MAck 0; MAck 0; MData 1400 1536].

(** ** No undefined behaviour *)
(** Whatever happens, the preparation of a probe neither fills a negative length
    nor leaves the buffer of the packet. *)
Theorem C53_defined : forall g v6 evs, sane_conf g -> Forall sane_ev evs ->
  exists x os, mrun g (path0 v6) evs = Some (x, os).
Proof. exact always_defined. Qed.
Print Assumptions C53_defined.
Example C53_defined_ex : sane_conf g0 /\ Forall sane_ev ex_run /\
  mrun g0 (path0 false) ex_run =
    Some (mk_pa false 1400 1472 false 0 [mk_mp 1400 false] [mk_mp 1472 true],
          [OSent (mk_mp 1000 false); OSent (mk_mp 1472 true); OSent (mk_mp 1252 false); OAcked (mk_mp 1252 false); OLost (mk_mp 1472 true);
           OSent (mk_mp 1400 true); OAcked (mk_mp 1400 true); OAcked (mk_mp 1000 false); OSent (mk_mp 1400 false)]).
Proof. split; [unfold sane_conf; cbn; lia |]. split; [repeat constructor |]. vm_compute. reflexivity. Qed.

(** ** Sizes *)
(** A packet with data is no larger than the packet size in use; a probe is larger,
    and no larger than the peer accepts; neither exceeds the packet buffer or the
    buffer of the application; and no packet is larger than the limit of the peer
    or 1252 bytes. *)
Theorem C53_sizes : forall g v6 evs x os e x' k, sane_conf g -> Forall sane_ev evs -> sane_ev e ->
  mrun g (path0 v6) evs = Some (x, os) -> mstep g x e = Some (x', OSent k) ->
  (k_probe k = false -> k_size k <= p_mtu x) /\
  (k_probe k = true -> p_mtu x < k_size k /\ k_size k <= g_remote g) /\
  k_size k <= 1536 /\ k_size k <= N.max 1252 (g_remote g) /\
  match e with MData _ room => k_size k <= room | MProbe _ _ room _ => k_size k <= room | _ => False end.
Proof. exact sent_size. Qed.
Print Assumptions C53_sizes.
Example C53_sizes_ex : exists x os x', mrun g0 (path0 false) [MData 1000 1536] = Some (x, os) /\
  mstep g0 x (MProbe 30 16 1450 0) = Some (x', OSent (mk_mp 1450 true)) /\ p_mtu x = 1252.
Proof. eexists _, _, _. vm_compute. auto. Qed.

(** ** Validation *)
(** The packet size in use is the starting size or that of a packet that was
    acknowledged: since the start if the address did not change, else since the
    last change. *)
Theorem C53_validated : forall g v6 evs x os, (forall v, ~ In (MAddress v) evs) -> mrun g (path0 v6) evs = Some (x, os) ->
  p_mtu x = initial_mtu v6 \/ exists k, In (OAcked k) os /\ k_size k = p_mtu x.
Proof. exact validated. Qed.
Print Assumptions C53_validated.
Theorem C53_validated_after : forall g v0 a v6 b x y oa ob, (forall v, ~ In (MAddress v) b) ->
  mrun g (path0 v0) a = Some (x, oa) -> mrun g x (MAddress v6 :: b) = Some (y, ob) ->
  p_mtu y = initial_mtu v6 \/ exists k, In (OAcked k) ob /\ k_size k = p_mtu y.
Proof. exact validated_after. Qed.
Print Assumptions C53_validated_after.
Example C53_validated_ex : (forall v, ~ In (MAddress v) ex_run) /\
  exists x os y ob, mrun g0 (path0 false) ex_run = Some (x, os) /\ p_mtu x = 1400 /\
    mrun g0 x [MAddress true; MProbe 30 16 1536 0; MAck 0] = Some (y, ob) /\ p_mtu y = 1452 /\ In (OAcked (mk_mp 1452 true)) ob.
Proof.
  split; [intros v; cbn; intuition discriminate |]. eexists _, _, _, _. vm_compute.
  split; [reflexivity |]. split; [reflexivity |]. split; [reflexivity |]. split; [reflexivity |]. auto.
Qed.

(** ** Progress *)
(** While the path waits for a probe, one that is larger than the packet size is
    still in flight: its acknowledgement or loss ends the wait. *)
Theorem C53_not_stuck : forall g v6 evs x os, sane_conf g -> Forall sane_ev evs -> mrun g (path0 v6) evs = Some (x, os) ->
  p_probing x = true -> exists k, In k (p_flight x) /\ k_probe k = true /\ p_mtu x < k_size k.
Proof. exact not_stuck. Qed.
Print Assumptions C53_not_stuck.
Example C53_not_stuck_ex : exists x os, mrun g0 (path0 true) [MProbe 30 16 1536 0; MData 1232 1300; MAck 0] = Some (x, os) /\ p_probing x = true.
Proof. eexists _, _. vm_compute. auto. Qed.

(** Without resets (no change of address, no retransmission timer, no series of
    more than ten losses), at most three probes are lost and there is never more
    than one in flight, even if losses turn out to be spurious. *)
Theorem C53_three_lost : forall g v6 evs x os, sane_conf g -> Forall sane_ev evs -> calm g (path0 v6) evs ->
  mrun g (path0 v6) evs = Some (x, os) -> lost_probes os <= 3 /\ probes (p_flight x) <= 1.
Proof. exact three_lost. Qed.
Print Assumptions C53_three_lost.
(** Three probes lost: 1536, 1500 and 1400 bytes; then no more are sent. *)
Definition ex_lost : list mev :=
  [MProbe 30 16 2000 0; MLose 0 false true; MProbe 30 16 2000 0; MLose 0 false true; MProbe 30 16 2000 0; MLose 0 false true; MProbe 30 16 2000 0].
Example C53_three_lost_ex : calm (mk_mc 65527 0 PolBasic) (path0 true) ex_lost /\
  exists x os, mrun (mk_mc 65527 0 PolBasic) (path0 true) ex_lost = Some (x, os) /\ lost_probes os = 3 /\ p_mtu x = 1232 /\ p_flight x = [].
Proof. split; [vm_compute; intuition reflexivity |]. eexists _, _. vm_compute. auto. Qed.

(** ** Result *)
(** On a network that carries packets up to [cap] bytes and loses no smaller
    probe, once no probe is in flight or needed the packet size is the largest
    allowed size if it passes, else 1500 or 1400 bytes if that is lower than the
    allowed size and passes, else the starting size. *)
Theorem C53_search_end : forall g v6 cap evs x os q, sane_conf g -> g_policy g = PolRequired \/ g_policy g = PolBasic ->
  Forall sane_ev evs -> Forall wide evs -> initial_mtu v6 <= cap -> calm g (path0 v6) evs ->
  mrun g (path0 v6) evs = Some (x, os) -> Forall (fits cap) os ->
  p_probing x = false -> probe_needed g x q = NotNeeded -> best_size g v6 cap (p_mtu x).
Proof. exact search_end. Qed.
Print Assumptions C53_search_end.
Example C53_search_end_ex : Forall wide ex_run /\ calm g0 (path0 false) ex_run /\
  exists x os, mrun g0 (path0 false) ex_run = Some (x, os) /\ Forall (fits 1450) os /\ p_probing x = false /\
    probe_needed g0 x 100000 = NotNeeded /\ best_size g0 false 1450 1400.
Proof.
  split; [repeat constructor; cbn; lia |]. split; [vm_compute; intuition reflexivity |]. eexists _, _. split; [vm_compute; reflexivity |].
  split; [repeat constructor; cbn; intros; lia |]. split; [reflexivity |]. split; [vm_compute; reflexivity |].
  exists 1472. split; [unfold allowed_size, local_limit; cbn; lia |]. split; [unfold allowed_size, local_limit; cbn; lia |]. reflexivity.
Qed.

(** ** Counterexamples *)
(** The limit announced by the peer bounds the probes only: a peer whose
    max_udp_payload_size is 1200 receives packets of 1252 bytes, since the
    starting size of the path is never compared to it. *)
Theorem C53_peer_limit_refuted : exists g v6 evs x os k, sane_conf g /\
  mrun g (path0 v6) evs = Some (x, os) /\ In (OSent k) os /\ g_remote g < k_size k.
Proof.
  exists (mk_mc 1200 0 PolRequired), false, [MData 1252 1536]. eexists _, _, (mk_mp 1252 false).
  split; [unfold sane_conf; cbn; lia |]. split; [vm_compute; reflexivity |]. split; [left; reflexivity | reflexivity].
Qed.
Print Assumptions C53_peer_limit_refuted.

(** picoquic_set_mtu_max does not check its argument: with a limit of 9000 bytes,
    a peer that accepts them and a large buffer, the probe is larger than the
    buffer packet->bytes that is filled with zeros. *)
Theorem C53_overflow_refuted : exists g v6 evs, g_remote g = 65527 /\ g_max g = 9000 /\ Forall sane_ev evs /\
  mrun g (path0 v6) evs = None.
Proof.
  exists (mk_mc 65527 9000 PolRequired), false, [MProbe 30 16 16384 0].
  split; [reflexivity |]. split; [reflexivity |]. split; [repeat constructor |]. vm_compute. reflexivity.
Qed.
Print Assumptions C53_overflow_refuted.

(** After a change of address the acknowledgement of a probe that was sent to the
    old address sets the packet size of the new one. *)
Theorem C53_migration_refuted : exists g v6 a x oa y ob k, sane_conf g /\
  mrun g (path0 v6) a = Some (x, oa) /\ In (OSent k) oa /\
  mrun g x [MAddress v6; MAck 0] = Some (y, ob) /\ p_mtu y = k_size k /\ initial_mtu v6 < p_mtu y.
Proof.
  exists g0, false, [MProbe 30 16 1536 0]. eexists _, _, _, _, (mk_mp 1472 true).
  split; [unfold sane_conf; cbn; lia |]. split; [vm_compute; reflexivity |]. split; [left; reflexivity |].
  split; [vm_compute; reflexivity |]. split; vm_compute; reflexivity.
Qed.
Print Assumptions C53_migration_refuted.

(** The reset of the packet size after more than ten losses does not clear the
    count of losses, and the acknowledgement of a probe does not either: once the
    size was found again, the loss of a single packet of that size resets it. *)
Theorem C53_threshold_refuted : exists g v6 a x oa y ob, sane_conf g /\
  mrun g (path0 v6) a = Some (x, oa) /\ p_mtu x = initial_mtu v6 /\
  mrun g x [MProbe 30 16 1536 0; MAck 0; MData 1472 1536; MLose 0 false false] = Some (y, ob) /\
  ob = [OSent (mk_mp 1472 true); OAcked (mk_mp 1472 true); OSent (mk_mp 1472 false); OLost (mk_mp 1472 false)] /\
  p_mtu y = initial_mtu v6.
Proof.
  exists g0, false, ([MProbe 30 16 1536 0; MAck 0] ++ concat (repeat [MData 1472 1536; MLose 0 false false] 11)).
  eexists _, _, _, _. split; [unfold sane_conf; cbn; lia |]. split; [vm_compute; reflexivity |]. split; [vm_compute; reflexivity |].
  split; [vm_compute; reflexivity |]. split; [reflexivity |]. vm_compute. reflexivity.
Qed.
Print Assumptions C53_threshold_refuted.
