(** Proofs about the port filter. *)
From Coq Require Import Sorted.
From Verif Require Import Base Ports_model.

Lemma check_in_exact : forall l port, StronglySorted (fun a b => b < a) l ->
  (check_port_in l port = true <-> In port l).
Proof.
  induction l as [|p l IH]; intros port H; cbn [check_port_in In].
  - split; [ discriminate | tauto ].
  - inversion H as [|? ? Hs Hf]; subst.
    destruct (N.leb_spec port p) as [Hl|Hl].
    + destruct (N.eqb_spec port p) as [->|Hne]; [ tauto | ].
      rewrite IH by exact Hs. split; [ tauto | intros [E|E]; [ congruence | exact E ] ].
    + split; [ discriminate | ]. intros [E|E]; [ lia | ].
      eapply Forall_forall in Hf; [ | exact E ]. lia.
Qed.

Lemma list_sorted : StronglySorted (fun a b => b < a) blocked_port_list.
Proof. unfold blocked_port_list. repeat (constructor; [ | repeat (constructor; [ lia | ]); constructor ]). constructor. Qed.

Lemma check_exact : forall port, check_port_blocked port = true <-> In port blocked_port_list.
Proof. intro port. apply check_in_exact, list_sorted. Qed.

Lemma check_addr_exact : forall hi lo, check_addr_blocked (Inet4 hi lo) = true <-> In (hi * 256 + lo) blocked_port_list.
Proof. intros. apply check_exact. Qed.

Lemma check_addr6_exact : forall hi lo, check_addr_blocked (Inet6 hi lo) = true <-> In (hi * 256 + lo) blocked_port_list.
Proof. intros. apply check_exact. Qed.

Lemma check_addr_other : check_addr_blocked Other_family = false.
Proof. reflexivity. Qed.

(** The published list (RFC 9000 section 21.5 discussion and the comment of
    picoquic/port_blocking.c 37-106), as a specification on numbers. *)
Lemma published : forall port, check_port_blocked port = true <->
  (port = 27015 \/ port = 20800 \/ port = 11211 \/ port = 5353 \/ port = 1900 \/ port = 520 \/
   port = 500 \/ port = 389 \/ port = 161 \/ port = 138 \/ port = 137 \/ port = 123 \/
   port = 111 \/ port = 53 \/ port = 19 \/ port = 17 \/ port = 7 \/ port = 0).
Proof.
  intro port. rewrite check_exact. unfold blocked_port_list. cbn [In].
  split; intro H; repeat (destruct H as [H|H]; [ subst; tauto | ]); subst; tauto.
Qed.
