(** Property C63: the spin bit changes once in each round trip. *)
From Verif Require Import Base Spin_model Spin_spec Spin_proofs.

(** The bit that is read in the first byte of a short header is the one that was written, whatever the
    key phase and the greased bit. *)
Theorem C63_header : forall kp g rnd spin,
  parse_spin (first_byte kp g rnd spin) = N.testbit spin 5.
Proof. exact header_thm. Qed.
Print Assumptions C63_header.

Example C63_header_ex : first_byte true true 0 32 = 36 /\ parse_spin 36 = true /\ parse_spin (first_byte true false 0 0) = false.
Proof. vm_compute. repeat split. Qed.

(** After any history in which packets arrive in order, or are lost, there is exactly one change of
    value on the way from the client to the server and back. *)
Theorem C63_edge : forall l s, sp_start s -> Forall in_order l ->
  exists s', srun s l = Some s' /\ changes (ring s') = 1%nat.
Proof. exact edge_thm. Qed.
Print Assumptions C63_edge.

Definition C63_s0 : snet := mk_sn (sp_new true 0 200) (sp_new false 0 100) [] [].
Definition C63_l : list sop :=
  [SendC false false 0 0; SendC true false 0 0; RecvS 0; SendS false false 0 0; LoseUp 0; SendC false true 0 0; RecvC 0;
   SendC false false 0 0; SendS false false 0 0].

Example C63_edge_ex : sp_start C63_s0 /\ Forall in_order C63_l /\
  option_map ring (srun C63_s0 C63_l) = Some [true; true; false; false; false; false].
Proof.
  split; [|split; [|vm_compute; reflexivity]].
  - repeat split; exists false, []; reflexivity.
  - unfold C63_l. repeat (constructor; [try exact I; reflexivity|]). constructor.
Qed.

(** When the value of the client changes, every packet on the way and the server have the value that
    it had: what it sent after its last change has come back. *)
Theorem C63_flip : forall l s s1 s2, sp_start s -> Forall in_order l -> srun s l = Some s1 ->
  sstep s1 (RecvC 0) = Some s2 -> value (n_client s2) <> value (n_client s1) ->
  Forall (fun b => bit b = value (n_client s1)) (n_up s1) /\
  Forall (fun b => bit b = value (n_client s1)) (n_down s1) /\
  value (n_server s1) = value (n_client s1).
Proof. exact flip_thm. Qed.
Print Assumptions C63_flip.

(** When the value of the server changes, it is that of the client and of every packet behind. *)
Theorem C63_follow : forall l s s1 s2, sp_start s -> Forall in_order l -> srun s l = Some s1 ->
  sstep s1 (RecvS 0) = Some s2 -> value (n_server s2) <> value (n_server s1) ->
  value (n_client s1) = value (n_server s2) /\
  Forall (fun b => bit b = value (n_server s2)) (n_up s1) /\
  Forall (fun b => bit b = value (n_server s1)) (n_down s1).
Proof. exact follow_thm. Qed.
Print Assumptions C63_follow.

Example C63_flip_ex :
  (exists s1 s2, srun C63_s0 (firstn 6 C63_l) = Some s1 /\ sstep s1 (RecvC 0) = Some s2 /\
     value (n_client s2) <> value (n_client s1)) /\
  (exists s1 s2, srun C63_s0 (C63_l ++ [LoseUp 0]) = Some s1 /\ sstep s1 (RecvS 0) = Some s2 /\
     value (n_server s2) <> value (n_server s1)).
Proof.
  split; eexists _, _; (split; [vm_compute; reflexivity|]); (split; [vm_compute; reflexivity|]); discriminate.
Qed.

(** A round trip: a packet from the client to the server, then one from the server to the client, with
    all that is before them, inverts the value of the client. *)
Theorem C63_trip : forall kp g r r' kp2 g2 r2 r2' s, spins true (n_client s) -> spins false (n_server s) ->
  exists s', srun s ([SendC kp g r r'] ++ repeat (RecvS 0) (S (length (n_up s))) ++
                     [SendS kp2 g2 r2 r2'] ++ repeat (RecvC 0) (S (length (n_down s)))) = Some s' /\
    value (n_client s') = negb (value (n_client s)) /\ value (n_server s') = value (n_client s).
Proof. exact trip_thm. Qed.
Print Assumptions C63_trip.

Example C63_trip_ex : spins true (n_client C63_s0) /\ spins false (n_server C63_s0).
Proof. repeat split; exists false, []; reflexivity. Qed.

(** The policies set for the context and for a connection by picoquic_set_default_spinbit_policy and
    picoquic_set_spinbit_policy are always in the table, and then the functions are defined; without
    spin the bit is 0. *)
Theorem C63_policy : forall v old r client, old <= 3 ->
  let d := fst (set_default v old) in
  d <= 3 /\ sp_policy (sp_new client d r) <= 2 /\
  forall e w, sp_policy e <= 2 -> sp_policy (fst (set_policy w e)) <= 2.
Proof. exact policy_thm. Qed.
Print Assumptions C63_policy.

Example C63_policy_ex : set_default 3 0 = (3, true) /\ set_default 4 1 = (1, false) /\ sp_policy (sp_new true 0 16) = 2.
Proof. vm_compute. repeat split. Qed.

(** See above. *)
Theorem C63_defined : forall e i b rnd, sp_policy e <= 2 -> (i < length (sp_paths e))%nat ->
  (exists e', incoming i b e = Some e' /\ sp_policy e' = sp_policy e /\ length (sp_paths e') = length (sp_paths e)) /\
  (exists v, outgoing rnd e = Some v /\ (v = 0 \/ v = 32) /\
     (sp_policy e = 2 -> v = 0) /\ (sp_policy e = 0 -> (v = 32 <-> value e = true))).
Proof. exact defined_thm. Qed.
Print Assumptions C63_defined.

Example C63_defined_ex : incoming 1 true (mk_sp false 0 [false; false]) = Some (mk_sp false 0 [false; true]) /\
  outgoing 255 (mk_sp false 1 [false]) = Some 32.
Proof. vm_compute. split; reflexivity. Qed.

(** With the default policy at least 1 of 16 connections of an endpoint, and 1 of 8 between two
    endpoints, do not spin. *)
Theorem C63_reserve :
  256 <= 16 * how_many (fun r => negb (sp_policy (sp_new true 0 r) =? 0)) all_bytes /\
  65536 <= 8 * how_many (fun rr => negb (sp_policy (sp_new true 0 (fst rr)) =? 0) ||
                                   negb (sp_policy (sp_new false 0 (snd rr)) =? 0)) (list_prod all_bytes all_bytes) /\
  (forall c r, sp_policy (sp_new c 3 r) = 0) /\ forall c d r, 1 <= d <= 2 -> sp_policy (sp_new c d r) = d.
Proof. exact reserve_thm. Qed.
Print Assumptions C63_reserve.

Example C63_reserve_ex : how_many (fun r => negb (sp_policy (sp_new true 0 r) =? 0)) all_bytes = 17.
Proof. vm_compute. reflexivity. Qed.

(** FINDING: the value is set by every packet that is decrypted, not only by those with the highest number
    so far as RFC 9000 section 17.4 asks (packet.c 1950, spinbit.c 32-35): after packets that arrive
    out of order there are three changes on the way, and the client changes twice in a round trip. *)
Theorem C63_order_refuted : exists s l s', sp_start s /\ srun s l = Some s' /\ changes (ring s') = 3%nat.
Proof.
  exists C63_s0,
    [SendC false false 0 0; RecvS 0; SendC false false 0 0; SendS false false 0 0; RecvC 0; SendC false false 0 0;
     RecvS 1; SendS false false 0 0; RecvS 0; SendC false false 0 0].
  eexists. split; [repeat split; exists false, []; reflexivity|]. split; vm_compute; reflexivity.
Qed.
Print Assumptions C63_order_refuted.

(** FINDING: the value is kept for each path, but a packet carries that of path 0, whatever its own path
    (spinbit.c 37-42): on path 1 the server does not send back the bit that it received there. *)
Theorem C63_path_refuted : exists e e', spins false e /\ incoming 1 true e = Some e' /\
  nth_error (sp_paths e') 1 = Some true /\ outgoing 0 e' = Some 0.
Proof.
  exists (mk_sp false 0 [false; false]), (mk_sp false 0 [false; true]).
  repeat split; exists false, [false]; reflexivity.
Qed.
Print Assumptions C63_path_refuted.

(** FINDING: picoquic_cnx_set_spinbit_policy accepts picoquic_spinbit_on (3) and any other number
    (quicctx.c 4278-4281); the table has three entries (spinbit.c 79-83), and the next packet sent
    calls a function out of it. *)
Theorem C63_table_refuted : exists e, sp_policy e <= 2 /\ outgoing 0 (cnx_set_policy 3 e) = None.
Proof. exists (sp_new true 0 200). split; [vm_compute; discriminate|vm_compute; reflexivity]. Qed.
Print Assumptions C63_table_refuted.
