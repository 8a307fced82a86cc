(** Proofs about frame skipping and dispatching. *)
From Verif Require Import Base Tac Varint_model Varint_spec Varint_proofs Sack_model Ack_model
  Ack2_proofs Frames_model Frames_spec.

(** ** Progress of the elementary skips *)

Definition tail_of (l rest : list N) : Prop := exists p, l = p ++ rest.

Lemma tail_refl : forall l, tail_of l l.
Proof. intro l. exists []. reflexivity. Qed.

Lemma tail_trans : forall a b c, tail_of a b -> tail_of b c -> tail_of a c.
Proof. intros a b c [p ->] [q ->]. exists (p ++ q). apply app_assoc. Qed.

Lemma progress_tail : forall a b, progress a b -> tail_of a b.
Proof. intros a b (x & p & ->). exists (x :: p). reflexivity. Qed.

Lemma progress_trans : forall a b c, progress a b -> tail_of b c -> progress a c.
Proof. intros a b c (x & p & ->) [q ->]. exists x, (p ++ q). cbn [app]. f_equal. rewrite <- app_assoc. reflexivity. Qed.

Lemma tail_progress : forall a b c, tail_of a b -> progress b c -> progress a c.
Proof.
  intros a b c [p ->] (x & q & ->). destruct p as [|y p].
  - exists x, q. reflexivity.
  - exists y, (p ++ x :: q). cbn [app]. f_equal. rewrite <- app_assoc. reflexivity.
Qed.

Lemma tail_cons : forall b l rest, tail_of l rest -> progress (b :: l) rest.
Proof. intros b l rest [p ->]. exists b, p. reflexivity. Qed.

Lemma progress_len : forall a b, progress a b -> (length b < length a)%nat.
Proof. intros a b (x & p & ->). cbn [length]. rewrite app_length. lia. Qed.

Lemma varint_skip_progress : forall l l', frames_varint_skip l = Some l' -> progress l l'.
Proof.
  intros l l' H. rewrite frames_varint_skip_decode in H.
  destruct (frames_varint_decode l) as [[v r]|] eqn:E; [|discriminate]. apply some_inj in H. subst r.
  destruct (frames_varint_decode_suffix _ _ _ E) as (p & -> & Hp).
  destruct p as [|b p]; [rewrite blen_nil in Hp; lia|]. exists b, p. reflexivity.
Qed.

Lemma varint_decode_progress : forall l v l', frames_varint_decode l = Some (v, l') -> progress l l'.
Proof.
  intros l v l' E. destruct (frames_varint_decode_suffix _ _ _ E) as (p & -> & Hp).
  destruct p as [|b p]; [rewrite blen_nil in Hp; lia|]. exists b, p. reflexivity.
Qed.

Lemma skipn_tail : forall n l, tail_of l (skipn n l).
Proof. intros n l. exists (firstn n l). symmetry. apply firstn_skipn. Qed.

Lemma fixed_skip_tail : forall n l l', frames_fixed_skip n l = Some l' -> tail_of l l'.
Proof.
  intros n l l' H. unfold frames_fixed_skip in H. destruct (n <=? blen l); [|discriminate].
  apply some_inj in H. subst l'. apply skipn_tail.
Qed.

Lemma take_bytes_tail : forall n l d l', take_bytes n l = Some (d, l') -> tail_of l l'.
Proof.
  intros n l d l' H. unfold take_bytes in H. destruct (n <=? blen l); [|discriminate].
  apply some_pair_inj in H. destruct H as [_ <-]. apply skipn_tail.
Qed.

Lemma skip_varints_tail : forall k l l', skip_varints k l = Some l' -> tail_of l l'.
Proof.
  induction k as [|k IH]; intros l l' H; cbn [skip_varints] in H.
  - apply some_inj in H. subst l'. apply tail_refl.
  - unfold sbind in H. destruct (frames_varint_skip l) as [l1|] eqn:E; [|discriminate].
    eapply tail_trans; [apply progress_tail, varint_skip_progress, E|]. apply IH, H.
Qed.

Lemma skip_varints_progress : forall k l l', skip_varints (S k) l = Some l' -> progress l l'.
Proof.
  intros k l l' H. cbn [skip_varints] in H. unfold sbind in H.
  destruct (frames_varint_skip l) as [l1|] eqn:E; [|discriminate].
  eapply progress_trans; [apply varint_skip_progress, E|]. eapply skip_varints_tail, H.
Qed.

Lemma length_data_skip_tail : forall l l', frames_length_data_skip l = Some l' -> tail_of l l'.
Proof.
  intros l l' H. unfold frames_length_data_skip in H.
  destruct (frames_varint_decode l) as [[n r]|] eqn:E; [|discriminate].
  eapply tail_trans; [apply progress_tail; eapply varint_decode_progress, E|].
  eapply fixed_skip_tail, H.
Qed.

Lemma skip_run_tail : forall f l, tail_of l (skip_run f l).
Proof.
  induction l as [|b l IH]; cbn [skip_run]; [apply tail_refl|].
  destruct (b =? f); [|apply tail_refl]. destruct IH as [p Hp]. exists (b :: p).
  cbn [app]. f_equal. exact Hp.
Qed.

Lemma nil_tail : forall l, tail_of l [].
Proof. intro l. exists l. rewrite app_nil_r. reflexivity. Qed.

Lemma skip_blocks_spec : forall fuel nb l, (length l < fuel)%nat ->
  match skip_blocks fuel nb l with
  | Ok l' => tail_of l l'
  | Fail => True
  | UB => False
  end.
Proof.
  induction fuel as [|f IH]; intros nb l Hf; [lia|]. cbn [skip_blocks].
  destruct (nb =? 0) eqn:E; [apply tail_refl|].
  destruct (skip_varints 2 l) as [l'|] eqn:E2; [|exact I].
  pose proof (skip_varints_progress _ _ _ E2) as P.
  specialize (IH (nb - 1) l'). destruct (skip_blocks f (nb - 1) l').
  - eapply tail_trans; [apply progress_tail, P|]. apply IH. apply progress_len in P. lia.
  - exact I.
  - apply IH. apply progress_len in P. lia.
Qed.

Lemma skip_ack_spec : forall e p l,
  match skip_ack_frame_maybe_ecn e p l with
  | Ok l' => progress l l'
  | Fail => True
  | UB => False
  end.
Proof.
  intros e p l. unfold skip_ack_frame_maybe_ecn.
  destruct (skip_varints (if p then 4 else 3) l) as [l1|] eqn:E1; [|exact I].
  assert (P1 : progress l l1) by (destruct p; eapply skip_varints_progress, E1).
  destruct (frames_varint_decode l1) as [[nb l2]|] eqn:E2; [|exact I].
  destruct (frames_varint_skip l2) as [l3|] eqn:E3; [|exact I].
  assert (P3 : progress l l3).
  { eapply progress_trans; [exact P1|].
    eapply tail_trans; [apply progress_tail; eapply varint_decode_progress, E2|].
    apply progress_tail, varint_skip_progress, E3. }
  pose proof (skip_blocks_spec (S (length l3)) nb l3 (le_n _)) as H.
  destruct (skip_blocks (S (length l3)) nb l3) as [l4| |]; [|exact I|exact H].
  assert (P4 : progress l l4) by (eapply progress_trans; eassumption).
  destruct e; [|exact P4].
  unfold of_skip. destruct (skip_varints 3 l4) as [l5|] eqn:E5; [|exact I].
  eapply progress_trans; [exact P4|]. eapply skip_varints_tail, E5.
Qed.

(** ** Skipping a frame *)

Definition good (l : list N) (r : outcome (list N)) : Prop :=
  match r with Ok l' => progress l l' | Fail => True | UB => False end.

Lemma good_skip : forall l0 l r, progress l0 l ->
  (forall l', r = Some l' -> tail_of l l') -> good l0 (of_skip r).
Proof.
  intros l0 l r P H. unfold of_skip, good. destruct r as [l'|]; [|exact I].
  eapply progress_trans; [exact P|]. apply H. reflexivity.
Qed.

Lemma varint_skip_tail : forall l l', frames_varint_skip l = Some l' -> tail_of l l'.
Proof. intros. apply progress_tail, varint_skip_progress. assumption. Qed.

Lemma sbind_tail : forall a b l l',
  (forall x y, a x = Some y -> tail_of x y) -> (forall x y, b x = Some y -> tail_of x y) ->
  sbind a b l = Some l' -> tail_of l l'.
Proof.
  intros a b l l' Ha Hb H. unfold sbind in H. destruct (a l) as [x|] eqn:E; [|discriminate].
  eapply tail_trans; [apply Ha, E|apply Hb, H].
Qed.

Lemma skip_new_cid_progress : forall mp l l',
  skip_new_connection_id_frame mp l = Some l' -> progress l l'.
Proof.
  intros mp l l' H. unfold skip_new_connection_id_frame in H.
  destruct (skip_varints (if mp then 4 else 3) l) as [l1|] eqn:E1; [|discriminate].
  assert (P1 : progress l l1) by (destruct mp; eapply skip_varints_progress, E1).
  unfold frames_uint8_decode in H. destruct l1 as [|c l2]; [discriminate|].
  apply fixed_skip_tail in H. eapply progress_trans; [exact P1|].
  apply progress_tail, tail_cons, H.
Qed.

Lemma skip_datagram_tail : forall b l l', skip_datagram_frame b l = Some l' -> tail_of l l'.
Proof.
  intros b l l' H. unfold skip_datagram_frame in H. destruct (N.land b 1 =? 0).
  - apply some_inj in H. subst. apply nil_tail.
  - destruct (frames_varint_decode l) as [[n l1]|] eqn:E; [|discriminate].
    destruct (blen l1 <? n); [discriminate|]. apply some_inj in H. subst.
    eapply tail_trans; [apply progress_tail; eapply varint_decode_progress, E|apply skipn_tail].
Qed.

Lemma skip_observed_tail : forall t l l', skip_observed_address_frame t l = Some l' -> tail_of l l'.
Proof.
  intros t l l' H. unfold skip_observed_address_frame in H.
  destruct (frames_varint_skip l) as [l1|] eqn:E; [|discriminate].
  eapply tail_trans; [apply varint_skip_tail, E|]. eapply fixed_skip_tail, H.
Qed.

Lemma skip_stream_tail : forall b l l', skip_stream_frame b l = Some l' -> tail_of l l'.
Proof.
  intros b l l' H. unfold skip_stream_frame in H.
  destruct (skip_varints (if N.land b 4 =? 0 then 1 else 2) l) as [l1|] eqn:E; [|discriminate].
  apply skip_varints_tail in E. destruct (N.land b 2 =? 0).
  - apply some_inj in H. subst. apply nil_tail.
  - eapply tail_trans; [exact E|]. apply length_data_skip_tail, H.
Qed.

Lemma good_progress_skip : forall l r, (forall l', r = Some l' -> progress l l') -> good l (of_skip r).
Proof. intros l r H. destruct r; cbn; [apply H; reflexivity|exact I]. Qed.

Ltac tails :=
  intros;
  first [ apply varint_skip_tail; assumption
        | eapply skip_varints_tail; eassumption
        | apply length_data_skip_tail; assumption
        | eapply skip_datagram_tail; eassumption
        | eapply skip_observed_tail; eassumption
        | eapply skip_stream_tail; eassumption
        | eapply fixed_skip_tail; eassumption
        | eapply sbind_tail; [| |eassumption]; tails ].

Lemma skip_extension_good : forall t l0 l, progress l0 l -> good l0 (fst (skip_extension t l0 l)).
Proof.
  intros t l0 l P. unfold skip_extension.
  repeat (match goal with |- context [if ?c then _ else _] => destruct c end; cbn [fst];
    [first [ eapply good_skip; [exact P|]; solve [tails]
           | apply skip_ack_spec
           | apply good_progress_skip; first [exact (skip_new_cid_progress true l0)
                                             | exact (skip_varints_progress 2 l0)]
           | exact P ]|]).
  exact I.
Qed.

Lemma skip_frame_good : forall l, l <> [] -> good l (fst (skip_frame l)).
Proof.
  intros l0 Hne. destruct l0 as [|b l]; [congruence|]. unfold skip_frame.
  assert (P : progress (b :: l) l) by apply tail_cons, tail_refl.
  repeat (match goal with |- context [if ?c then _ else _] => destruct c end; cbn [fst];
    [first [ eapply good_skip; [exact P|]; solve [tails]
           | apply skip_ack_spec
           | apply good_progress_skip; exact (skip_new_cid_progress false (b :: l))
           | apply tail_cons, skip_run_tail
           | exact P ]|]).
  destruct (frames_varint_decode (b :: l)) as [[t l1]|] eqn:E; [|exact I].
  apply skip_extension_good. eapply varint_decode_progress, E.
Qed.

Lemma closing_walk_ok : forall fuel l, (length l <= fuel)%nat ->
  exists r, decode_closing_frames fuel l = Ok r /\ r <> WalkFuel.
Proof.
  induction fuel as [|f IH]; intros l Hf.
  - destruct l; [|cbn [length] in Hf; lia]. exists WalkDone. split; [reflexivity|discriminate].
  - destruct l as [|b l]; [exists WalkDone; split; [reflexivity|discriminate]|].
    cbn [decode_closing_frames].
    destruct ((b =? ft_connection_close) || (b =? ft_application_close));
      [exists WalkClosing; split; [reflexivity|discriminate]|].
    pose proof (skip_frame_good (b :: l) ltac:(discriminate)) as G.
    destruct (fst (skip_frame (b :: l))) as [l'| |]; cbn [good] in G.
    + apply IH. apply progress_len in G. lia.
    + exists WalkError. split; [reflexivity|discriminate].
    + contradiction.
Qed.
