(** Specification vocabulary for stream reassembly. *)
From Verif Require Import Base.

(** A STREAM frame of one stream: offset, data, FIN bit. *)
Record sframe := mk_sframe { f_off : N; f_data : list N; f_fin : bool }.
Definition f_end (f : sframe) : N := f_off f + blen (f_data f).

(** The frame carries a slice of the byte sequence [D]; FIN marks its end. *)
Definition carries (D : list N) (f : sframe) : Prop :=
  (exists a b, D = a ++ f_data f ++ b /\ blen a = f_off f) /\
  (f_fin f = true -> f_end f = blen D).

(** Byte [i] is in one of the frames. *)
Definition covered (fs : list sframe) (i : N) : Prop :=
  exists f, In f fs /\ f_off f <= i < f_end f.

(** [n] is the length of the longest prefix covered by the frames. *)
Definition longest_covered (fs : list sframe) (n : N) : Prop :=
  (forall i, i < n -> covered fs i) /\ ~ covered fs n.
