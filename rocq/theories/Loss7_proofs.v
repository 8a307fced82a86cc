(** Counterexamples for the detection of losses, and the number spaces of several paths. *)
From Verif Require Import Base Tac Rtt_model Ack_model Ack_spec Loss_model Loss_spec Loss_proofs.

Lemma paths_safe : forall cf x rep now sps i wake found,
  Forall (fun sp => Forall (fun p => pk_trap p = false) (sp_pending sp)) sps ->
  needed_paths cf x i rep now wake found sps <> None.
Proof.
  intros cf x rep now. induction sps as [|sp sps IH]; intros i wake found H; cbn [needed_paths]; [discriminate|].
  inversion H; subst. destruct found.
  - unfold set_wake. destruct (sp_pending sp) as [|p l].
    + specialize (IH (S i) wake true H3). destruct (needed_paths _ _ _ _ _ _ _ _) as [[a b]|]; [discriminate|contradiction].
    + inversion H2; subst. rewrite H4. destruct (probably_lost cf sp (last_time l p) p now) as [[lost expired] time].
      destruct (lost || expired).
      * specialize (IH (S i) now true H3). destruct (needed_paths _ _ _ _ _ _ _ _) as [[a b]|]; [discriminate|contradiction].
      * specialize (IH (S i) (N.min time wake) true H3). destruct (needed_paths _ _ _ _ _ _ _ _) as [[a b]|]; [discriminate|contradiction].
  - cbv zeta. set (r := needed_loop _ _ _ _ _ _ _). clearbody r.
    specialize (IH (S i) (r_wake r) (copied_something (r_stop r)) H3).
    destruct (needed_paths _ _ _ _ _ _ _ _) as [[a b]|]; [discriminate|contradiction].
Qed.

(** A connection with a round trip time of 100 milliseconds. *)
Definition cf1 : config := mk_config 25000 30000000 30000 true.
Definition rtt1 : rtt := mk_rtt true 100000 100000 10000 150000 100000 100000 0 0 0 0 0 0.
Definition path1 : path := mk_path rtt1 0 false false.
Definition start1 : space := space_start path1 0 0.
(** Every packet has something to repeat. *)
Definition rep1 : N -> bool * bool := fun _ => (false, true).

Definition send (t : N) : event := ESend false true false t.

Lemma possible_small : forall cf es, config_small cf -> N.of_nat (length es) < 1000 -> Forall event_ok es -> in_time 0 es ->
  possible cf path1 0 0 es.
Proof.
  intros cf es Hc Hl H1 H2. assert (S : forall n, n < 1000000000 -> small n) by (intros n Hn; apply lit_small; lia).
  split; [exact Hc|]. split; [split; apply S; vm_compute; reflexivity|]. split; [apply S; lia|]. split; [apply S; lia|].
  split; [apply S; lia|]. split; assumption.
Qed.

Ltac poss := apply possible_small; [vm_compute; reflexivity|vm_compute; reflexivity|
  match goal with |- Forall _ ?l => let m := eval vm_compute in l in change l with m end;
  repeat (apply Forall_cons; [vm_compute; repeat split; discriminate|]); apply Forall_nil|vm_compute; repeat split; discriminate].

(** The packet 0 is sent, 1 is skipped, 2 is sent; 0 is acknowledged, then all of 0 to 2. *)
Definition hole_events : list event := [send 0; EHole 1; send 2; EAck [(0, 0)] false rtt1 100000].
Definition hole_ack : event := EAck [(0, 2)] false rtt1 200000.

Lemma hole_accepted : exists cf pa first start es ranges r now sp hist sp' acts p,
  possible cf pa first start (es ++ [EAck ranges false r now]) /\
  run cf (space_start pa first start) [] es = Some (Some sp, hist) /\
  In (AHole p) hist /\ in_ranges ranges (pk_seq p) /\
  step cf sp (EAck ranges false r now) = Some (OGo sp' acts).
Proof.
  exists cf1, path1, 0, 0, hole_events, [(0, 2)], rtt1, 200000.
  assert (P : possible cf1 path1 0 0 (hole_events ++ [hole_ack])) by poss.
  assert (X : match run cf1 (space_start path1 0 0) [] hole_events with
    | Some (Some sp, hist) => In (AHole (mk_packet 1 1 true false false)) hist /\
        match step cf1 sp hole_ack with Some (OGo sp' acts) => True | _ => False end
    | _ => False end) by (vm_compute; tauto).
  destruct (run cf1 (space_start path1 0 0) [] hole_events) as [[[sp|] hist]|]; try contradiction.
  destruct X as [X1 X2]. unfold hole_ack in X2. destruct (step cf1 sp _) as [[sp' acts|]|] eqn:E; try contradiction.
  exists sp, hist, sp', acts, (mk_packet 1 1 true false false).
  split; [exact P|]. split; [reflexivity|]. split; [exact X1|]. split; [|exact E].
  exists 0, 2. split; [left; reflexivity|]. cbn [pk_seq]. lia.
Qed.

(** The packet 0 is sent, 1 is skipped; 0 is repeated in 2 after a timeout; then 0 is
    acknowledged with a count of congestion marks. *)
Definition ecn_events : list event := [send 0; EHole 1; EPoll true rep1 max64 400000; send 400000].
Definition ecn_ack : event := EAck [(0, 0)] true rtt1 410000.

Lemma ecn_null : exists cf pa first start es ranges r now sp hist,
  possible cf pa first start (es ++ [EAck ranges true r now]) /\
  run cf (space_start pa first start) [] es = Some (Some sp, hist) /\
  step cf sp (EAck ranges true r now) = None.
Proof.
  exists cf1, path1, 0, 0, ecn_events, [(0, 0)], rtt1, 410000.
  assert (P : possible cf1 path1 0 0 (ecn_events ++ [ecn_ack])) by poss.
  assert (X : match run cf1 (space_start path1 0 0) [] ecn_events with
    | Some (Some sp, hist) => step cf1 sp ecn_ack = None
    | _ => False end) by (vm_compute; reflexivity).
  destruct (run cf1 (space_start path1 0 0) [] ecn_events) as [[[sp|] hist]|]; try contradiction.
  exists sp, hist. split; [exact P|]. split; [reflexivity|exact X].
Qed.

(** Two paths: on the first, the packet 1 is acknowledged and not 0; on the second, 0
    is sent and 1 is skipped. *)
Definition first_events : list event := [send 21050; send 21050; EAck [(1, 1)] false rtt1 121050].
Definition second_events : list event := [send 0; EHole 1].

Lemma multipath_null : exists cf pa first start es1 es2 sp1 sp2 hist1 hist2 x rep now1 now2 wake1 wake2 sps w,
  possible cf pa first start es1 /\ possible cf pa first start es2 /\
  clock start es1 <= now1 /\ clock start es2 <= now1 /\ now1 <= now2 /\ small now2 /\
  run cf (space_start pa first start) [] es1 = Some (Some sp1, hist1) /\
  run cf (space_start pa first start) [] es2 = Some (Some sp2, hist2) /\
  needed_paths cf x 0 rep now1 wake1 false [sp1; sp2] = Some (sps, w) /\
  needed_paths cf x 0 rep now2 wake2 false sps = None.
Proof.
  exists cf1, path1, 0, 0, first_events, second_events.
  assert (P1 : possible cf1 path1 0 0 first_events) by poss.
  assert (P2 : possible cf1 path1 0 0 second_events) by poss.
  assert (X : match run cf1 (space_start path1 0 0) [] first_events, run cf1 (space_start path1 0 0) [] second_events with
    | Some (Some sp1, hist1), Some (Some sp2, hist2) =>
      match needed_paths cf1 0 0 (fun _ => rep1) 151010 max64 false [sp1; sp2] with
      | Some (sps, w) => needed_paths cf1 0 0 (fun _ => rep1) 151100 max64 false sps = None
      | None => False end
    | _, _ => False end) by (vm_compute; reflexivity).
  destruct (run cf1 (space_start path1 0 0) [] first_events) as [[[sp1|] hist1]|]; try contradiction.
  destruct (run cf1 (space_start path1 0 0) [] second_events) as [[[sp2|] hist2]|]; try contradiction.
  destruct (needed_paths cf1 0 0 (fun _ => rep1) 151010 max64 false [sp1; sp2]) as [[sps w]|] eqn:E; try contradiction.
  exists sp1, sp2, hist1, hist2, 0%nat, (fun _ => rep1), 151010, 151100, max64, max64, sps, w.
  split; [exact P1|]. split; [exact P2|]. split; [vm_compute; discriminate|]. split; [vm_compute; discriminate|].
  split; [vm_compute; discriminate|]. split; [vm_compute; reflexivity|]. repeat split; assumption.
Qed.

(** A packet of 0-RTT. *)
Definition zero_events : list event := [ESend true true false 0].

Lemma zero_no_wake : exists cf pa first start es sp hist same rep now later,
  possible cf pa first start (es ++ [EPoll same rep max64 now]) /\ small later /\ now <= later /\
  run cf (space_start pa first start) [] es = Some (Some sp, hist) /\
  let r := needed_loop cf sp same rep now max64 (sp_pending sp) in
  r_stop r = SEnd /\ r_wake r = max64 /\ r_gone r = [] /\
  r_gone (needed_loop cf sp same rep later max64 (sp_pending sp)) <> [].
Proof.
  exists cf1, path1, 0, 0, zero_events.
  assert (P : possible cf1 path1 0 0 (zero_events ++ [EPoll true rep1 max64 1000])) by poss.
  assert (X : match run cf1 (space_start path1 0 0) [] zero_events with
    | Some (Some sp, hist) => let r := needed_loop cf1 sp true rep1 1000 max64 (sp_pending sp) in
       r_stop r = SEnd /\ r_wake r = max64 /\ r_gone r = [] /\
       r_gone (needed_loop cf1 sp true rep1 400000 max64 (sp_pending sp)) <> []
    | _ => False end) by (vm_compute; repeat split; discriminate).
  destruct (run cf1 (space_start path1 0 0) [] zero_events) as [[[sp|] hist]|]; try contradiction.
  exists sp, hist, true, rep1, 1000, 400000. split; [exact P|]. split; [vm_compute; reflexivity|].
  split; [vm_compute; discriminate|]. split; [reflexivity|exact X].
Qed.
