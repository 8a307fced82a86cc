(** Specification of the token store: what the observed history must satisfy. *)
From Verif Require Import Base Token_model.

(** The arguments of the calls have the sizes of their C types (sni and token lengths
    on 16 bits, address length on 8 bits), and the clock does not overflow. *)
Definition sane_tev (e : tev) : bool :=
  match e with
  | EvStore now sni ip tok =>
    (now <? 9223372036854775808) && (blen sni <? 65536) && (blen ip <? 256) && (blen tok <? 65536) &&
    bytes_okb sni && bytes_okb ip && bytes_okb tok
  | _ => true
  end.

(** One day, in microseconds. *)
Definition one_day : N := 86400000000.

(** A token [tok] for [sni] was accepted (for the address [ip]) and is less than a day
    old at time [now]. *)
Definition accepted (log : list (tev * tout)) (now : N) (sni : list N) (ip : list N) (tok : list N) : Prop :=
  exists t, In (EvStore t sni ip tok, TStored) log /\ now < t + one_day.

(** Number of times [tok] was accepted for [sni], and handed out to be used. *)
Definition eqb_bytes (a b : list N) : bool := if list_eq_dec N.eq_dec a b then true else false.
Fixpoint times_stored (sni tok : list N) (log : list (tev * tout)) : N :=
  match log with
  | [] => 0
  | (EvStore _ s _ k, TStored) :: r =>
    (if eqb_bytes s sni && eqb_bytes k tok then 1 else 0) + times_stored sni tok r
  | _ :: r => times_stored sni tok r
  end.
Fixpoint times_used (sni tok : list N) (log : list (tev * tout)) : N :=
  match log with
  | [] => 0
  | (EvGet _ s _ true, TGot k) :: r =>
    (if eqb_bytes s sni && eqb_bytes k tok then 1 else 0) + times_used sni tok r
  | _ :: r => times_used sni tok r
  end.

(** The file is not loaded when a token was used after it was saved. *)
Fixpoint fresh_loads (dirty : bool) (l : list tev) : bool :=
  match l with
  | [] => true
  | EvSave _ :: r => fresh_loads false r
  | EvGet _ _ _ true :: r => fresh_loads true r
  | EvLoad _ :: r => negb dirty && fresh_loads dirty r
  | _ :: r => fresh_loads dirty r
  end.

(** A token that can be used. *)
Definition usable (now : N) (sni ip : list N) (t : token) : Prop :=
  now < tk_valid t /\ tk_sni t = sni /\ tk_used t = false /\ (ip <> [] -> tk_ip t = ip).

(** Contents that fit the C types. *)
Definition sane_token (t : token) : Prop :=
  tk_valid t < two64 /\ blen (tk_sni t) < 65536 /\ blen (tk_ip t) < 256 /\ blen (tk_tok t) < 65536 /\
  bytes_ok (tk_sni t) /\ bytes_ok (tk_ip t) /\ bytes_ok (tk_tok t).

(** Size of the record of a token. *)
Definition record_size (t : token) : N := 14 + blen (tk_sni t) + blen (tk_ip t) + blen (tk_tok t).

(** Events that leave a token stored for ([sni], [ip]) in place. *)
Definition leaves (sni ip : list N) (e : tev) : bool :=
  match e with
  | EvStore _ s i _ => negb (eqb_bytes s sni && eqb_bytes i ip)
  | EvGet _ s _ mark => negb (mark && eqb_bytes s sni)
  | EvSave _ => true
  | EvLoad _ => false
  | EvFresh => false
  end.
