(** Common vocabulary of the model: bytes, buffers, writers and readers.

    A read cursor [(bytes, bytes_max)] of the C code is modelled by the list of
    bytes between the two pointers; a write cursor by the number of bytes left
    before [bytes_max] (the room) and the bytes already written.  A NULL return
    is [None]. *)
From Coq Require Export NArith ZArith List Lia Bool.
From Coq Require Export ZifyBool ZifyNat ZifyN.
Export ListNotations.
Ltac Zify.zify_post_hook ::= Z.div_mod_to_equations.
Open Scope N_scope.

(** Length of a buffer, as a machine-sized number. *)
Definition blen (l : list N) : N := N.of_nat (length l).

(** [uint8_t], [uint16_t], [uint32_t], [uint64_t] conversions. *)
Definition u8 (n : N) : N := n mod 256.
Definition u16 (n : N) : N := n mod 65536.
Definition u32 (n : N) : N := n mod 4294967296.
Definition two62 : N := 4611686018427387904.
Definition two64 : N := 18446744073709551616.
Definition u64 (n : N) : N := n mod two64.

(** UINT64_MAX *)
Definition max64 : N := 18446744073709551615.

(** Buffers hold bytes. *)
Definition is_byte (b : N) : Prop := b < 256.
Definition bytes_ok (l : list N) : Prop := Forall is_byte l.

Definition bytes_okb (l : list N) : bool := forallb (fun b => b <? 256) l.

(** A writer receives the room left and returns the bytes it wrote. *)
Definition writer := N -> option (list N).

(** Chaining of writers, the C idiom
    [(bytes = f(bytes, max, ..)) != NULL && (bytes = g(bytes, max, ..)) != NULL]. *)
Definition wseq (a b : writer) : writer := fun room =>
  match a room with
  | None => None
  | Some x =>
    match b (room - blen x) with
    | None => None
    | Some y => Some (x ++ y)
    end
  end.

Declare Scope writer_scope.
Notation "a >>> b" := (wseq a b) (at level 61, right associativity) : writer_scope.
Open Scope writer_scope.

(** A reader consumes a prefix of the buffer. *)
Definition reader (A : Type) := list N -> option (A * list N).

(** A skipper consumes a prefix and returns no value. *)
Definition skipper := list N -> option (list N).

Definition rbind {A B} (r : reader A) (f : A -> reader B) : reader B := fun l =>
  match r l with
  | None => None
  | Some (a, l') => f a l'
  end.

Definition rret {A} (a : A) : reader A := fun l => Some (a, l).

Definition rfail {A} : reader A := fun _ => None.

Definition sbind (a b : skipper) : skipper := fun l =>
  match a l with None => None | Some l' => b l' end.

Notation "x <-- r ;; k" := (rbind r (fun x => k))
  (at level 61, r at next level, right associativity).
