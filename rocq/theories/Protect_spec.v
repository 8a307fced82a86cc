(** Specification of packet protection. *)
From Verif Require Import Base Header_model Protect_model.

(** What is required of the ciphers: masks are five bytes, encryption adds a checksum of
    16 bytes, and decryption with the same number and the same authenticated data undoes
    it. *)
Record ciphers_ok (cy : crypto) : Prop := {
  ck_mask : forall s, blen (cy_mask cy s) = 5;
  ck_enc_len : forall n a p, blen (cy_enc cy n a p) = blen p + 16;
  ck_dec : forall n a p, cy_dec cy n a (cy_enc cy n a p) = Some p
}.

(** The packet number window of RFC 9000 appendix A.3 for [pnl] bytes. *)
Definition in_window (pnl n last : N) : Prop :=
  n < two62 /\ last < two64 - 1 /\ last + 1 <= n + 256 ^ pnl / 2 /\ n < last + 1 + 256 ^ pnl / 2.

(** Ciphers for the examples: the text is exclusive-ored with 90 and the checksum repeats
    the number and the length of the authenticated data; the mask is taken from the
    sample. *)
Definition toy_tag (n : N) (a : list N) : list N := n mod 256 :: blen a mod 256 :: repeat 7 14.
Definition toy : crypto := mk_crypto
  (fun s => [nth 0 s 0; nth 3 s 0; 60; 70; 80])
  (fun n a p => map (N.lxor 90) p ++ toy_tag n a)
  (fun n a c =>
     if blen c <? 16 then None
     else if list_eq_dec N.eq_dec (skipn (length c - 16) c) (toy_tag n a)
          then Some (map (N.lxor 90) (firstn (length c - 16) c)) else None).
