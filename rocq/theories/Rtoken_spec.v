(** Specification of the address validation tokens of a server. *)
From Verif Require Import Base Varint_spec Rtoken_model.

(** What is required of the AEAD. *)
Record aead_ok (ae : aead) : Prop := {
  ao_len : forall n a p, blen (ae_enc ae n a p) = blen p + 16;
  ao_dec : forall n a p, ae_dec ae n a (ae_enc ae n a p) = Some p
}.

(** When a token made at [time] expires: tokens of Retry packets name the original
    connection id and live four seconds, the others a day. *)
Definition expiry (time : N) (odcid : list N) : N :=
  match odcid with [] => time + 24 * 3600 * 1000000 | _ => time + 4 * 1000000 end.

(** [token] was made by the server for [addr], in a buffer of 256 bytes. *)
Definition issued (ae : aead) (addr : list N) (time : N) (odcid rcid : list N) (pn : N) (token : list N) : Prop :=
  (exists rnd, blen rnd = 8 /\ bytes_ok rnd /\
    prepare_retry_token ae addr time odcid rcid pn rnd 256 = Some (Some token)) /\
  blen odcid <= 20 /\ blen rcid <= 20 /\ pn < 4294967296 /\ expiry time odcid < two64.

(** The identity under which a token is remembered: its last eight bytes. *)
Definition last8 (token : list N) : N := be_value (skipn (length token - 8) token).

(** The token is not accepted for another address. *)
Definition bound_to (ae : aead) (addr token : list N) : Prop :=
  forall a, a <> addr -> ae_dec ae (be_value (firstn 8 token)) a (skipn 8 token) = None.

(** One presentation of a token, as in picoquic_screen_initial_packet. *)
Record present := mk_present { pr_addr : list N; pr_now : N; pr_rcid : list N; pr_pn : N; pr_token : list N }.

(** A history of presentations and which ones were accepted. *)
Fixpoint presents (ae : aead) (reg : registry) (l : list present) : option (registry * list (present * bool)) :=
  match l with
  | [] => Some (reg, [])
  | p :: r =>
    match verify_retry_token ae reg (pr_addr p) (pr_now p) (pr_rcid p) (pr_pn p) (pr_token p) true with
    | None => None
    | Some v =>
      match presents ae (v_reg v) r with
      | None => None
      | Some (reg', log) => Some (reg', (p, v_ok v) :: log)
      end
    end
  end.

(** The clock does not go back. *)
Fixpoint clock_ok (now : N) (l : list present) : Prop :=
  match l with [] => True | p :: r => now <= pr_now p /\ clock_ok (pr_now p) r end.

(** How often [token] was accepted. *)
Fixpoint times_accepted (token : list N) (log : list (present * bool)) : N :=
  match log with
  | [] => 0
  | (p, ok) :: r =>
    (if ok then if list_eq_dec N.eq_dec (pr_token p) token then 1 else 0 else 0) + times_accepted token r
  end.

(** An AEAD for the examples: the checksum has the sequence number, the length of the text
    and the address. *)
Definition toy_seal (n : N) (a p : list N) : list N :=
  match a with
  | [_; _; _; _] => n mod 256 :: blen p mod 256 :: 0 :: a ++ repeat 7 9
  | _ => n mod 256 :: blen p mod 256 :: 1 :: firstn 13 (a ++ repeat 7 13)
  end.
Definition toy_aead : aead := mk_aead
  (fun n a p => map (N.lxor 90) p ++ toy_seal n a p)
  (fun n a c =>
     if blen c <? 16 then None
     else let p := map (N.lxor 90) (firstn (length c - 16) c) in
          if list_eq_dec N.eq_dec (skipn (length c - 16) c) (toy_seal n a p) then Some p else None).
