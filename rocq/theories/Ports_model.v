(** Model of the blocked port filter, picoquic/port_blocking.c (definitions only). *)
From Verif Require Import Base.

(** picoquic/port_blocking.c 109-128, picoquic_blocked_port_list. *)
Definition blocked_port_list : list N :=
  [27015; 20800; 11211; 5353; 1900; 520; 500; 389; 161; 138; 137; 123; 111; 53; 19; 17; 7; 0].

(** picoquic/port_blocking.c 132-144, picoquic_check_port_blocked, for any list:
    the loop runs while there are entries and [port <= entry], and stops at the
    first equal entry. *)
Fixpoint check_port_in (l : list N) (port : N) : bool :=
  match l with
  | [] => false
  | p :: l' =>
    if port <=? p then (if port =? p then true else check_port_in l' port)
    else false
  end.

(** The function itself. *)
Definition check_port_blocked (port : N) : bool := check_port_in blocked_port_list port.

(** A socket address (struct sockaddr): its family and the two bytes of its port
    in network order; other families have no port. *)
Inductive sockaddr := Inet4 (hi lo : N) | Inet6 (hi lo : N) | Other_family.

(** picoquic/port_blocking.c 146-160, picoquic_check_addr_blocked: ntohs of the
    port, or UINT16_MAX. *)
Definition check_addr_blocked (a : sockaddr) : bool :=
  check_port_blocked
    (match a with
     | Inet4 hi lo | Inet6 hi lo => hi * 256 + lo
     | Other_family => 65535
     end).
