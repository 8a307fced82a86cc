(** Specification vocabulary for the settings of HTTP/3 that are sent (independent of the functions of
    the model that writes them). *)
From Verif Require Import Base Ctl_model.

(** Settings that can be written: numbers below 2^62, or UINT64_MAX for a value that is not given; two
    flags of one bit. *)
Definition set_ok (st : settings) : Prop :=
  (se_table st < two62 \/ se_table st = max64) /\ (se_blocked st < two62 \/ se_blocked st = max64) /\
  se_connect st < 2 /\ se_datagram st < 2 /\ se_sessions st < two62.

(** At least one value is given. *)
Definition some_given (st : settings) : Prop :=
  se_table st <> max64 \/ se_blocked st <> max64 \/ se_connect st <> 0 \/ se_datagram st <> 0 \/ se_sessions st <> 0.

(** What a peer with no previous settings keeps: zero for what is not given. *)
Definition kept (st : settings) : settings :=
  mk_set (se_sessions st) (if se_table st =? max64 then 0 else se_table st)
    (if se_blocked st =? max64 then 0 else se_blocked st) (se_connect st) (se_datagram st) true.
