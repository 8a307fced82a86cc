(** Facts about memory areas. *)
From Verif Require Import Base Mem.

Lemma mem_blen_app : forall a b, blen (a ++ b) = blen a + blen b.
Proof. intros; unfold blen; rewrite app_length; lia. Qed.

Lemma mem_read_some : forall off n m, off + n <= blen m ->
  mem_read off n m = Some (firstn (N.to_nat n) (skipn (N.to_nat off) m)).
Proof.
  intros off n m H; unfold mem_read. destruct (N.leb_spec (off + n) (blen m)); [ reflexivity | lia ].
Qed.

Lemma mem_read_length : forall off n m b, mem_read off n m = Some b -> blen b = n.
Proof.
  intros off n m b H; unfold mem_read in H. destruct (N.leb_spec (off + n) (blen m)) as [Hl|]; [ | discriminate ].
  injection H as <-. unfold blen in *. rewrite firstn_length, skipn_length. lia.
Qed.

Lemma mem_write_length : forall off s m m', mem_write off s m = Some m' -> blen m' = blen m.
Proof.
  intros off s m m' H; unfold mem_write in H.
  destruct (N.leb_spec (off + blen s) (blen m)) as [Hl|]; [ | discriminate ].
  injection H as <-. unfold blen in *. rewrite !app_length, firstn_length, skipn_length. lia.
Qed.

(** An area cut in three. *)
Lemma mem_split3 : forall a s b off n, off = blen a -> n = blen s ->
  mem_read off n (a ++ s ++ b) = Some s.
Proof.
  intros a s b off n -> ->. rewrite mem_read_some.
  - unfold blen; rewrite !Nat2N.id. rewrite skipn_app, skipn_all, Nat.sub_diag. cbn.
    rewrite firstn_app, firstn_all, Nat.sub_diag. cbn. rewrite app_nil_r; reflexivity.
  - rewrite !mem_blen_app; lia.
Qed.

Lemma mem_write3 : forall a s b off s', off = blen a -> blen s' = blen s ->
  mem_write off s' (a ++ s ++ b) = Some (a ++ s' ++ b).
Proof.
  intros a s b off s' -> H. unfold mem_write.
  destruct (N.leb_spec (blen a + blen s') (blen (a ++ s ++ b))) as [Hl|Hl].
  - unfold blen; rewrite Nat2N.id. rewrite firstn_app, firstn_all, Nat.sub_diag. cbn.
    rewrite app_nil_r. do 3 f_equal.
    rewrite app_assoc, skipn_app.
    replace (skipn (length a + length s') (a ++ s)) with (@nil N).
    + cbn. replace (length a + length s' - length (a ++ s))%nat with 0%nat; [ reflexivity | ].
      rewrite app_length. unfold blen in H; lia.
    + symmetry; apply skipn_all2. rewrite app_length. unfold blen in H; lia.
  - rewrite !mem_blen_app in Hl. lia.
Qed.

Lemma mem_cut : forall off n m, off + n <= blen m ->
  exists a s b, m = a ++ s ++ b /\ blen a = off /\ blen s = n.
Proof.
  intros off n m H.
  exists (firstn (N.to_nat off) m), (firstn (N.to_nat n) (skipn (N.to_nat off) m)),
    (skipn (N.to_nat n) (skipn (N.to_nat off) m)).
  unfold blen in *. repeat split.
  - rewrite firstn_skipn, firstn_skipn; reflexivity.
  - rewrite firstn_length; lia.
  - rewrite firstn_length, skipn_length; lia.
Qed.

Lemma mem_get_lt : forall off m, off < blen m -> exists b, mem_get off m = Some b /\ In b m.
Proof.
  intros off m H. unfold mem_get. destruct (nth_error m (N.to_nat off)) as [b|] eqn:E.
  - exists b; split; [ reflexivity | eapply nth_error_In; exact E ].
  - apply nth_error_None in E. unfold blen in H; lia.
Qed.
