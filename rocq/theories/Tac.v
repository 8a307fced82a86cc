(** Small proof tools shared by the proof files. *)
From Verif Require Import Base.

Lemma some_pair_inj : forall {A B} (a c : A) (b d : B),
  Some (a, b) = Some (c, d) -> a = c /\ b = d.
Proof. intros A B a c b d H. inversion H. split; reflexivity. Qed.

Lemma some_inj : forall {A} (a b : A), Some a = Some b -> a = b.
Proof. intros A a b H. inversion H. reflexivity. Qed.

(** [inv_pair H]: from [Some (a, b) = Some (c, d)], without reduction. *)
Ltac inv_pair H :=
  let H1 := fresh in let H2 := fresh in
  apply some_pair_inj in H; destruct H as [H1 H2];
  try (first [subst | idtac]).
