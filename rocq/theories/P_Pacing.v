(** Property C18: pacing. *)
From Verif Require Import Base Pacing_model Pacing_spec Pacing_proofs Pacing2_proofs.
Open Scope Z_scope.

(** The credit never exceeds the bucket, in any history from any sane state. *)
Theorem C18_bucket : forall mtu ops p p' log, sane_pacing p -> (0 < mtu < 65536)%N ->
  forallb sane_time ops = true -> forallb (sane_len mtu) ops = true -> prun mtu p ops = Some (p', log) ->
  pc_bucket p' <= pc_max p.
Proof. exact bucket_bounded. Qed.
Print Assumptions C18_bucket.

(** In any interval of any history, whatever else was sent without authorisation,
    the bytes sent by authorisation are at most what the bucket holds plus what
    the rate of one packet every [pc_packet] nanoseconds allows. *)
Theorem C18_interval : forall mtu ops p p' log t0 t1, sane_pacing p -> (0 < mtu < 65536)%N ->
  forallb sane_time ops = true -> forallb (sane_len mtu) ops = true -> ordered (pc_eval p) ops = true ->
  (t0 <= t1)%N -> prun mtu p ops = Some (p', log) ->
  pc_packet p * Z.of_N (bytes_between t0 t1 log) <= Z.of_N mtu * (pc_max p + 1000 * (Z.of_N t1 - Z.of_N t0)).
Proof. exact interval_bound. Qed.
Print Assumptions C18_interval.

(** When sending is refused and a time is given, sending is authorised from that
    time on. *)
Theorem C18_wait : forall p now next train p1 n1 t next2 train2, sane_pacing p -> pc_packet p <= pc_max p ->
  (now < 4503599627370496)%N -> (pc_eval p <= now)%N -> is_authorized p now next train = (p1, n1, false) ->
  (n1 < next)%N -> (n1 <= t < 4503599627370496)%N ->
  snd (is_authorized p1 t next2 train2) = true.
Proof. exact wait_enough. Qed.
Print Assumptions C18_wait.

(** A packet of 1500 bytes every 120 microseconds, three packets of burst: seven
    requests in 400 microseconds, with a probe in between. *)
Definition ex_pacing : pacing := mk_pacing 1000 360000 360000 120000 false.
Definition ex_pops : list pop :=
  [PPaced 1000 9999 false 1500; PPaced 1000 9999 false 1500; PPaced 1001 9999 false 1500; PPaced 1001 9999 false 1500;
   PForced 1100 1500; PPaced 1200 9999 false 1200; PPaced 1300 9999 true 1500; PPaced 1400 9999 false 1500].
Example C18_ex : sane_pacing ex_pacing /\ forallb sane_time ex_pops = true /\ forallb (sane_len 1500) ex_pops = true /\
  ordered 1000 ex_pops = true /\
  match prun 1500 ex_pacing ex_pops with
  | Some (p, log) => log = [(1000, 1500); (1000, 1500); (1001, 1500); (1300, 1500); (1400, 1500)]%N /\ bytes_between 1000 1100 log = 4500%N
  | None => False end /\
  is_authorized (mk_pacing 1001 1000 360000 120000 false) 1001 9999 false = (mk_pacing 1001 1000 360000 120000 false, 1121%N, false) /\
  snd (is_authorized (mk_pacing 1001 1000 360000 120000 false) 1121 9999 false) = true.
Proof. unfold sane_pacing. vm_compute. repeat split; try reflexivity; intro; discriminate. Qed.

(** With changes of parameters: every history of sane events is defined, and the
    credit never exceeds the current bucket. *)
Theorem C18_changes : forall mtu es p, sane_pacing p -> (0 < mtu < 65536)%N ->
  forallb (sane_event mtu) es = true ->
  exists p' log, perun mtu p es = Some (p', log) /\ pc_bucket p' <= pc_max p' /\ 0 < pc_packet p' /\ sane_pacing p'.
Proof. exact changes_sane. Qed.
Print Assumptions C18_changes.

(** Rate bound across changes: as long as the parameters leave at least [P]
    nanoseconds per packet and at most [M] nanoseconds of credit, the bytes sent by
    authorisation from any state up to any time are bounded. *)
Theorem C18_rate_across_changes : forall mtu es p p' log t1 P M, sane_pacing p -> (0 < mtu < 65536)%N ->
  forallb (sane_event mtu) es = true -> Forall (before t1) es -> (pc_eval p <= t1)%N ->
  0 <= P <= pc_packet p -> pc_max p <= M -> Forall (within_params P M) es ->
  perun mtu p es = Some (p', log) ->
  P * sent_bytes log <= Z.of_N mtu * (M + 1000 * (Z.of_N t1 - Z.of_N (pc_eval p))).
Proof. exact rate_across_changes. Qed.
Print Assumptions C18_rate_across_changes.

(** A rate doubled in the middle of a history. *)
Definition ex_pchanges : list pevent :=
  [POp (PPaced 1000 9999 false 1500); PParams 60000 180000 20000; POp (PPaced 1000 9999 false 1500);
   POp (PPaced 1000 9999 false 1500); POp (PPaced 1000 9999 false 1500); POp (PPaced 1000 9999 false 1500);
   PSmall 300; POp (PPaced 1100 9999 false 1500)].
Example C18_changes_ex : forallb (sane_event 1500) ex_pchanges = true /\ Forall (before 1100) ex_pchanges /\
  Forall (within_params 1 360000) ex_pchanges /\
  match perun 1500 ex_pacing ex_pchanges with
  | Some (p, log) => sent_bytes log = 7500 /\ pc_bucket p = 99999 /\ pc_max p = 300000 | None => False end.
Proof.
  split; [vm_compute; reflexivity |]. unfold ex_pchanges.
  split; [repeat constructor; cbn; lia |]. split; [repeat constructor; cbn; lia |]. vm_compute. repeat split.
Qed.

(** Found: after the update made for a small window with a smoothed round trip of
    zero (the first sample arrives in the microsecond of the sending), nothing is
    ever authorised again: the bucket is empty and a packet costs one nanosecond. *)
Theorem C18_zero_rtt_refuted : exists p, sane_pacing p /\
  forall ops mtu, (0 < mtu < 65536)%N -> forallb sane_time ops = true -> forallb (sane_len mtu) ops = true ->
  exists p', prun mtu (small_window p 0) ops = Some (p', []).
Proof. exact zero_rtt_stuck. Qed.
Print Assumptions C18_zero_rtt_refuted.
