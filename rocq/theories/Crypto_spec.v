(** Specification vocabulary for the CRYPTO streams. *)
From Verif Require Import Base Reasm_model Reasm_spec Crypto_model.

(** The CRYPTO frames received at one epoch. *)
Definition crypto_frames (e : N) (ops : list cop) : list sframe :=
  flat_map (fun o => match o with
                     | CoFrame e' off d => if e' =? e then [mk_sframe off d false] else []
                     | CoProcess => [] end) ops.

(** The bytes passed to TLS at one epoch. *)
Definition handed (e : N) (out : list (N * list N)) : list N :=
  flat_map (fun p => if fst p =? e then snd p else []) out.

(** The TLS stack never goes back to a lower read epoch. *)
Definition forward {T} (P : tls T) : Prop :=
  forall t e d, tls_read_epoch P t <= tls_read_epoch P (fst (tls_handle P t e d)).

(** The TLS stack accepts all it is given. *)
Definition accepting {T} (P : tls T) : Prop :=
  forall t e d, snd (tls_handle P t e d) = TlsContinue.

(** Number of bytes stored at an epoch. *)
Definition buffered {T} (c : ccnx T) (e : N) : N :=
  fold_right (fun x n => blen (c_data x) + n) 0 (snd (cr_streams c e)).
