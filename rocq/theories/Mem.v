(** Fixed-size memory areas: C arrays and buffers addressed by index.  An access
    outside the area is undefined behaviour in C and is [None] here.  Nothing in
    this file models a particular function of the code. *)
From Verif Require Import Base.

(** The [n] bytes at [off], as copied by memcpy or read one by one. *)
Definition mem_read (off n : N) (m : list N) : option (list N) :=
  if off + n <=? blen m then Some (firstn (N.to_nat n) (skipn (N.to_nat off) m))
  else None.

(** Storing the bytes [src] at [off]. *)
Definition mem_write (off : N) (src : list N) (m : list N) : option (list N) :=
  if off + blen src <=? blen m then
    Some (firstn (N.to_nat off) m ++ src ++ skipn (N.to_nat off + length src) m)
  else None.

(** Reading one byte. *)
Definition mem_get (off : N) (m : list N) : option N := nth_error m (N.to_nat off).

(** Sequencing of operations that may be undefined. *)
Definition obind {A B} (x : option A) (f : A -> option B) : option B :=
  match x with None => None | Some a => f a end.

Notation "x <~ r ;; k" := (obind r (fun x => k))
  (at level 61, r at next level, right associativity).

(** A block of [n] equal bytes, as set by memset. *)
Definition mem_fill (v : N) (n : N) : list N := repeat v (N.to_nat n).
