(** C27: the port filter answers blocked exactly for the ports of the list. *)
From Coq Require Import Sorted.
From Verif Require Import Base Ports_model Ports_proofs.

(** For every list sorted in decreasing order the early exit of the loop loses
    nothing. *)
Theorem C27_sorted_list : forall l port, StronglySorted (fun a b => b < a) l ->
  (check_port_in l port = true <-> In port l).
Proof. exact check_in_exact. Qed.
Print Assumptions C27_sorted_list.

(** The published ports, and no others, are blocked. *)
Theorem C27_published : forall port, check_port_blocked port = true <->
  (port = 27015 \/ port = 20800 \/ port = 11211 \/ port = 5353 \/ port = 1900 \/ port = 520 \/
   port = 500 \/ port = 389 \/ port = 161 \/ port = 138 \/ port = 137 \/ port = 123 \/
   port = 111 \/ port = 53 \/ port = 19 \/ port = 17 \/ port = 7 \/ port = 0).
Proof. exact published. Qed.
Print Assumptions C27_published.

(** Addresses are judged by their port in host order. *)
Theorem C27_address : forall hi lo,
  (check_addr_blocked (Inet4 hi lo) = true <-> In (hi * 256 + lo) blocked_port_list) /\
  (check_addr_blocked (Inet6 hi lo) = true <-> In (hi * 256 + lo) blocked_port_list) /\
  check_addr_blocked Other_family = false.
Proof. exact (fun hi lo => conj (check_addr_exact hi lo) (conj (check_addr6_exact hi lo) check_addr_other)). Qed.
Print Assumptions C27_address.

Example C27_ex : StronglySorted (fun a b => b < a) [9; 5; 2] /\ check_port_in [9; 5; 2] 5 = true /\
  check_port_in [9; 5; 2] 6 = false /\ check_port_blocked 123 = true /\ check_port_blocked 443 = false /\
  check_addr_blocked (Inet4 0 53) = true /\ check_addr_blocked (Inet4 53 0) = false.
Proof.
  split; [ | vm_compute; repeat split ].
  repeat (constructor; [ | repeat (constructor; [ lia | ]); constructor ]). constructor.
Qed.
