(** Proofs about the values of queries: escapes, strings and numbers. *)
From Verif Require Import Base Tac Mem Mem_proofs Varint_proofs Qpack_model H3_model H3b_proofs Uri_model Uri_spec Uri_proofs.

(** ** Escapes *)

Lemma digit_hex : forall x d, digit x = Some d <-> hex x d.
Proof.
  intros x d. unfold digit, hex.
  destruct ((48 <=? x) && (x <=? 57)) eqn:A; [split; [intros H; apply some_inj in H; lia | intros H; f_equal; lia] |].
  destruct ((97 <=? x) && (x <=? 102)) eqn:B; [split; [intros H; apply some_inj in H; lia | intros H; f_equal; lia] |].
  destruct ((65 <=? x) && (x <=? 70)) eqn:C; [split; [intros H; apply some_inj in H; lia | intros H; f_equal; lia] |].
  split; [discriminate | lia].
Qed.

Lemma hex_lt : forall x d, hex x d -> d < 16.
Proof. unfold hex. intros x d H. lia. Qed.

Lemma hex_fun : forall x d e, hex x d -> hex x e -> d = e.
Proof. unfold hex. intros x d e H1 H2. lia. Qed.

Lemma two_digits : forall i j, i < 16 -> j < 16 ->
  (N.shiftl ((N.shiftl 37 4 mod 256 + i) mod 256) 4 mod 256 + j) mod 256 = 16 * i + j.
Proof.
  intros i j I J. replace (N.shiftl 37 4 mod 256) with 80 by reflexivity.
  rewrite (N.mod_small (80 + i)) by lia. rewrite N.shiftl_mul_pow2.
  replace ((80 + i) * 2 ^ 4) with (16 * i + 5 * 256) by lia.
  rewrite N.mod_add by lia. rewrite (N.mod_small (16 * i)) by lia. apply N.mod_small. lia.
Qed.

Lemma escape_ok : forall a b i j l, hex a i -> hex b j -> escape 2 (a :: b :: l) 37 = (l, 16 * i + j, true).
Proof.
  intros a b i j l A B. pose proof (hex_lt _ _ A). pose proof (hex_lt _ _ B).
  apply digit_hex in A. apply digit_hex in B. cbn [escape]. rewrite A, B. rewrite two_digits by assumption. reflexivity.
Qed.

Lemma escape_inv : forall l l' v, escape 2 l 37 = (l', v, true) -> exists a b i j, l = a :: b :: l' /\ hex a i /\ hex b j /\ v = 16 * i + j.
Proof.
  intros [| a [| b l]] l' v H; cbn [escape] in H; [discriminate | destruct (digit a); discriminate |].
  destruct (digit a) as [i |] eqn:A; [| discriminate]. destruct (digit b) as [j |] eqn:B; [| discriminate].
  apply digit_hex in A. apply digit_hex in B. pose proof (escape_ok a b i j l A B) as E. cbn [escape] in E.
  pose proof A as A'. pose proof B as B'. apply digit_hex in A'. apply digit_hex in B'. rewrite A', B' in E. rewrite E in H.
  injection H as <- <-. exists a, b, i, j. repeat split; assumption.
Qed.

Lemma escape_length : forall i l v, (length (fst (fst (escape i l v))) <= length l)%nat.
Proof.
  induction i as [| i IH]; intros [| x l] v; cbn [escape fst]; try lia.
  destruct (digit x); [specialize (IH l ((N.shiftl v 4 mod 256 + n) mod 256)); cbn [length]; lia | cbn [fst length]; lia].
Qed.

Lemma pchar_defined : forall c l, exists l' v ok, pchar (c :: l) = Ret (l', v, ok) /\ (length l' <= length l)%nat.
Proof.
  intros c l. unfold pchar. destruct (c =? 37).
  - pose proof (escape_length 2 l c). destruct (escape 2 l c) as [[l' v] ok]. exists l', v, ok. split; [reflexivity | assumption].
  - exists l, c, true. split; [reflexivity | lia].
Qed.

(** The cases of a correct byte. *)
Inductive onechar : list N -> N -> list N -> Prop :=
| onechar_plain : forall c l, c <> 37 -> onechar (c :: l) c l
| onechar_hex : forall a b i j l, hex a i -> hex b j -> onechar (37 :: a :: b :: l) (16 * i + j) l.

Lemma pchar_iff : forall l v l', pchar l = Ret (l', v, true) <-> onechar l v l'.
Proof.
  intros l v l'. split.
  - destruct l as [| c l]; [discriminate |]. unfold pchar. destruct (N.eqb_spec c 37) as [-> | NE]; intros H.
    + injection H as H. apply escape_inv in H. destruct H as (a & b & i & j & -> & A & B & ->). constructor; assumption.
    + injection H as <- <-. constructor. exact NE.
  - intros H. destruct H as [c l NE | a b i j l A B]; unfold pchar.
    + replace (c =? 37) with false by lia. reflexivity.
    + cbn [N.eqb Pos.eqb]. rewrite (escape_ok a b i j l A B). reflexivity.
Qed.

Lemma unescaped_cons : forall l v l' x, onechar l v l' -> unescaped l' x -> unescaped l (v :: x).
Proof. intros l v l' x H U. destruct H; constructor; assumption. Qed.

Lemma unescaped_inv : forall l x, unescaped l x -> (l = [] /\ x = []) \/ exists v l' x', onechar l v l' /\ x = v :: x' /\ unescaped l' x'.
Proof.
  intros l x H. destruct H as [| c l x NE U | a b i j l x A B U]; [left; split; reflexivity | |]; right.
  - exists c, l, x. repeat split; [constructor; exact NE | exact U].
  - exists (16 * i + j), l, x. repeat split; [constructor; assumption | exact U].
Qed.

Lemma onechar_fun : forall l v l' w l'', onechar l v l' -> onechar l w l'' -> v = w /\ l' = l''.
Proof. intros l v l' w l'' H1 H2. apply pchar_iff in H1. apply pchar_iff in H2. rewrite H1 in H2. injection H2 as <- <-. split; reflexivity. Qed.

Lemma unescaped_fun : forall l x, unescaped l x -> forall y, unescaped l y -> x = y.
Proof.
  induction 1 as [| c l x NE U IH | a b i j l x A B U IH]; intros y H; apply unescaped_inv in H.
  - destruct H as [[_ ->] | (v & l' & x' & O & _)]; [reflexivity | inversion O].
  - destruct H as [[E _] | (v & l' & x' & O & -> & U')]; [discriminate |].
    destruct (onechar_fun _ _ _ _ _ (onechar_plain c l NE) O) as [-> <-]. f_equal. apply IH. exact U'.
  - destruct H as [[E _] | (v & l' & x' & O & -> & U')]; [discriminate |].
    destruct (onechar_fun _ _ _ _ _ (onechar_hex a b i j l A B) O) as [<- <-]. f_equal. apply IH. exact U'.
Qed.

Lemma onechar_length : forall l v l', onechar l v l' -> (length l' < length l)%nat.
Proof. intros l v l' H. destruct H; cbn [length]; lia. Qed.

(** ** Strings *)

Lemma string_goes : forall l x, unescaped l x -> forall f a s r, (length l < f)%nat -> blen s = blen x ->
  string_loop f l (a ++ s ++ r) (blen a) = Ret (true, a ++ x ++ r, blen a + blen x).
Proof.
  assert (Step : forall l v l' x, onechar l v l' -> unescaped l' x ->
    (forall f a s r, (length l' < f)%nat -> blen s = blen x -> string_loop f l' (a ++ s ++ r) (blen a) = Ret (true, a ++ x ++ r, blen a + blen x)) ->
    forall f a s r, (length l < f)%nat -> blen s = blen (v :: x) -> string_loop f l (a ++ s ++ r) (blen a) = Ret (true, a ++ (v :: x) ++ r, blen a + blen (v :: x))).
  { intros l v l' x O U IH f a s r Lf Ls. destruct f as [| f]; [lia |]. pose proof (onechar_length _ _ _ O) as Ll.
    destruct s as [| s0 s]; [rewrite blen_nil, blen_cons in Ls; lia |]. rewrite !blen_cons in Ls.
    cbn [string_loop]. destruct l as [| c l]; [inversion O |]. apply pchar_iff in O. rewrite O. cbn [bind].
    replace (blen a <? blen (a ++ (s0 :: s) ++ r)) with true by (rewrite !blen_app, blen_cons; lia).
    pose proof (mem_write3 a [s0] (s ++ r) (blen a) [v] eq_refl eq_refl) as Wr. cbn [app] in Wr. cbn [app]. rewrite Wr. cbn [mem bind].
    replace (a ++ v :: s ++ r) with ((a ++ [v]) ++ s ++ r) by (rewrite <- app_assoc; reflexivity).
    replace (blen a + 1) with (blen (a ++ [v])) by (rewrite blen_app, blen_cons, blen_nil; lia).
    rewrite IH by lia. rewrite <- app_assoc, blen_app, !blen_cons, blen_nil. cbn [app].
    replace (blen a + (1 + 0) + blen x) with (blen a + (1 + blen x)) by lia. reflexivity. }
  induction 1 as [| c l x NE U IH | a0 b0 i j l x A B U IH].
  - intros f a s r Lf Ls. rewrite blen_nil in Ls. apply blen0 in Ls. subst s. destruct f as [| f]; [lia |]. cbn [string_loop app].
    rewrite blen_nil, N.add_0_r. reflexivity.
  - exact (Step (c :: l) c l x (onechar_plain c l NE) U IH).
  - exact (Step _ _ l x (onechar_hex a0 b0 i j l A B) U IH).
Qed.

(** The loop is defined and ends; a string is only accepted if there is one, and it fits. *)
Lemma string_inv : forall f l buf n, (length l < f)%nat -> n <= blen buf ->
  exists ok buf' n', string_loop f l buf n = Ret (ok, buf', n') /\ blen buf' = blen buf /\ n' <= blen buf /\
  (ok = true -> exists x, unescaped l x /\ n' = n + blen x).
Proof.
  induction f as [| f IH]; intros l buf n Lf Ln; [lia |]. cbn [string_loop]. destruct l as [| c l].
  { exists true, buf, n. repeat split; [exact Ln |]. intros _. exists []. split; [constructor | rewrite blen_nil; lia]. }
  cbn [length] in Lf. destruct (pchar_defined c l) as (l' & v & ok & P & Ll). rewrite P. cbn [bind].
  destruct (n <? blen buf) eqn:Lb.
  - destruct (mem_write n [v] buf) as [buf1 |] eqn:Wr.
    2:{ unfold mem_write in Wr. rewrite blen_cons, blen_nil in Wr. replace (n + (1 + 0) <=? blen buf) with true in Wr by lia. discriminate. }
    pose proof (mem_write_length _ _ _ _ Wr) as Lw. cbn [mem bind]. destruct ok.
    + destruct (IH l' buf1 (n + 1) ltac:(lia) ltac:(lia)) as (ok & buf' & n' & -> & L' & N' & H).
      exists ok, buf', n'. split; [reflexivity |]. split; [lia |]. split; [lia |]. intros E. destruct (H E) as (x & U & ->).
      exists (v :: x). apply pchar_iff in P. split; [exact (unescaped_cons _ _ _ _ P U) | rewrite blen_cons; lia].
    + exists false, buf1, (n + 1). repeat split; [exact Lw | lia | discriminate].
  - exists false, buf, n. repeat split; [lia | discriminate].
Qed.

Lemma to_string_ok : forall l x buf, unescaped l x -> blen x <= blen buf ->
  exists r, buf = firstn (N.to_nat (blen x)) buf ++ r /\
  bytes_to_string l buf = Ret (true, x ++ (match r with [] => [] | _ :: t => 0 :: t end), blen x).
Proof.
  intros l x buf U Le. destruct (mem_cut 0 (blen x) buf ltac:(lia)) as (a & s & r & -> & La & Ls). apply blen0 in La. subst a.
  exists r. cbn [app]. rewrite <- Ls at 1. rewrite firstn_at. split; [reflexivity |].
  unfold bytes_to_string. pose proof (string_goes l x U (S (length l)) [] s r ltac:(lia) Ls) as G. cbn [app] in G. rewrite blen_nil in G.
  rewrite G. cbn [bind]. rewrite N.add_0_l. destruct r as [| r0 r].
  - rewrite app_nil_r. replace (blen x <? blen x) with false by lia. reflexivity.
  - replace (blen x <? blen (x ++ r0 :: r)) with true by (rewrite blen_app, blen_cons; lia).
    pose proof (mem_write3 x [r0] r (blen x) [0] eq_refl eq_refl) as Wr. cbn [app] in Wr. rewrite Wr. reflexivity.
Qed.

Lemma to_string_inv : forall l buf, exists ok buf' n, bytes_to_string l buf = Ret (ok, buf', n) /\ blen buf' = blen buf /\ n <= blen buf /\
  (ok = true -> exists x, unescaped l x /\ n = blen x).
Proof.
  intros l buf. unfold bytes_to_string. destruct (string_inv (S (length l)) l buf 0 ltac:(lia) ltac:(lia)) as (ok & buf' & n & -> & L & Ln & H).
  cbn [bind]. destruct (n <? blen buf') eqn:Lb.
  - destruct (mem_write n [0] buf') as [b2 |] eqn:Wr.
    2:{ unfold mem_write in Wr. rewrite blen_cons, blen_nil in Wr. replace (n + (1 + 0) <=? blen buf') with true in Wr by lia. discriminate. }
    pose proof (mem_write_length _ _ _ _ Wr). cbn [mem bind]. exists ok, b2, n. repeat split; [lia | exact Ln |].
    intros E. destruct (H E) as (x & U & ->). exists x. split; [exact U | lia].
  - exists ok, buf', n. repeat split; [exact L | exact Ln |]. intros E. destruct (H E) as (x & U & ->). exists x. split; [exact U | lia].
Qed.

(** ** Numbers *)

Definition value_from (v : N) (x : list N) : N := fold_left (fun v c => 10 * v + (c - 48)) x v.

Lemma value_from_le : forall x v, v <= value_from v x.
Proof. induction x as [| c x IH]; intros v; [reflexivity |]. cbn [value_from fold_left]. pose proof (IH (10 * v + (c - 48))) as H. unfold value_from in H. lia. Qed.

Lemma small_step : forall v d, v < 1844674407370955161 -> d < 10 ->
  (max64 - d <? u64 (v * 10)) = false /\ u64 (u64 (v * 10) + d) = 10 * v + d.
Proof.
  intros v d V D. assert (E : u64 (v * 10) = v * 10) by (unfold u64, two64; apply N.mod_small; lia).
  rewrite E. split; [unfold max64, two64; lia |]. unfold u64, two64. rewrite N.mod_small by lia. lia.
Qed.

Lemma number_goes : forall f l v, (length l < f)%nat -> v < limit ->
  exists ok r, number_loop f l v = Ret (ok, r) /\
  (ok = true -> exists x, unescaped l x /\ digits x /\ r = value_from v x /\ r < limit) /\
  (forall x, unescaped l x -> digits x -> value_from v x < limit -> ok = true).
Proof.
  unfold limit. induction f as [| f IH]; intros l v Lf Lv; [lia |]. cbn [number_loop]. destruct l as [| c l].
  { exists true, v. split; [reflexivity |]. split; [| reflexivity]. intros _. exists []. repeat split; [constructor | constructor | exact Lv]. }
  cbn [length] in Lf. destruct (pchar_defined c l) as (l' & w & ok & P & Ll). rewrite P. cbn [bind].
  assert (Inv : forall x, unescaped (c :: l) x -> digits x -> exists x', pchar (c :: l) = Ret (l', w, true) /\ x = w :: x' /\ unescaped l' x' /\ digits x' /\ 48 <= w <= 57).
  { intros x U D. apply unescaped_inv in U. destruct U as [[E _] | (v1 & l1 & x' & O & -> & U)]; [discriminate |].
    apply pchar_iff in O. pose proof O as O'. rewrite P in O'. injection O' as <- <- ->. inversion D; subst.
    exists x'. repeat split; try assumption; lia. }
  destruct ok.
  2:{ exists false, v. split; [reflexivity |]. split; [discriminate |]. intros x U D _. destruct (Inv x U D) as (x' & E & _). rewrite P in E. discriminate. }
  destruct ((48 <=? w) && (w <=? 57)) eqn:Dg.
  2:{ exists false, v. split; [reflexivity |]. split; [discriminate |]. intros x U D _. destruct (Inv x U D) as (x' & _ & _ & _ & _ & W). lia. }
  replace (max64 / 10) with 1844674407370955161 by reflexivity.
  destruct (1844674407370955161 <=? v) eqn:Big.
  { exists false, v. split; [reflexivity |]. split; [discriminate |]. intros x U D B. destruct (Inv x U D) as (x' & _ & -> & _).
    cbn [value_from fold_left] in B. pose proof (value_from_le x' (10 * v + (w - 48))) as H. unfold value_from in H. lia. }
  destruct (small_step v (w - 48) ltac:(lia) ltac:(lia)) as (E1 & E2). rewrite E1, E2.
  destruct (IH l' (10 * v + (w - 48)) ltac:(lia) ltac:(lia)) as (ok & r & -> & H1 & H2).
  exists ok, r. split; [reflexivity |]. split.
  - intros E. destruct (H1 E) as (x & U & D & -> & B). exists (w :: x). apply pchar_iff in P. split; [exact (unescaped_cons _ _ _ _ P U) |].
    split; [constructor; [lia | exact D] |]. split; [reflexivity | exact B].
  - intros x U D B. destruct (Inv x U D) as (x' & _ & -> & U' & D' & _). apply (H2 x' U' D'). exact B.
Qed.

Lemma to_number : forall l, exists ok r, bytes_to_uint64 l = Ret (ok, r) /\
  (ok = true -> exists x, unescaped l x /\ digits x /\ r = decimal x /\ r < limit) /\
  (forall x, unescaped l x -> digits x -> decimal x < limit -> ok = true).
Proof. intros l. exact (number_goes (S (length l)) l 0 ltac:(lia) ltac:(reflexivity)). Qed.

(** ** Parameters *)

Section Named.

Variables (cs : list (list N)) (q id : list N).
Hypothesis Q : query cs q.
Hypothesis NE : id <> [].
Hypothesis W : without 38 id.

Lemma string_found : forall v x buf parsed, first_value id cs (Some v) -> unescaped v x -> blen x <= blen buf ->
  exists r, buf = firstn (N.to_nat (blen x)) buf ++ r /\
  parameter_string q id buf parsed = Ret (true, x ++ (match r with [] => [] | _ :: t => 0 :: t end), blen x).
Proof.
  intros v x buf parsed F U Le. destruct (position_found cs q id _ Q NE W F) as (p & E & P0 & V).
  unfold parameter_string. rewrite E. cbn [bind]. replace (p =? 0) with false by lia. cbn [negb]. rewrite V. cbn [bind].
  apply to_string_ok; assumption.
Qed.

Lemma string_refused : forall v buf parsed, first_value id cs (Some v) -> (forall x, unescaped v x -> blen buf < blen x) ->
  exists buf' n, parameter_string q id buf parsed = Ret (false, buf', n) /\ blen buf' = blen buf /\ n <= blen buf.
Proof.
  intros v buf parsed F No. destruct (position_found cs q id _ Q NE W F) as (p & E & P0 & V).
  unfold parameter_string. rewrite E. cbn [bind]. replace (p =? 0) with false by lia. cbn [negb]. rewrite V. cbn [bind].
  destruct (to_string_inv v buf) as (ok & buf' & n & -> & L & Ln & H). exists buf', n. destruct ok; [| repeat split; assumption].
  exfalso. destruct (H eq_refl) as (x & U & ->). specialize (No x U). lia.
Qed.

Lemma string_absent : forall buf parsed, first_value id cs None -> parameter_string q id buf parsed = Ret (true, buf, parsed).
Proof.
  intros buf parsed F. pose proof (position_found cs q id _ Q NE W F) as E. cbn [located] in E. unfold parameter_string. rewrite E. reflexivity.
Qed.

Lemma first_value_fun : forall r1 r2 ds, first_value id ds r1 -> first_value id ds r2 -> r1 = r2.
Proof.
  intros r1 r2 ds H. revert r2. induction H as [| c ds v G | c ds r G F IH]; intros r2 H2; inversion H2 as [| c' ds' v' G' | c' ds' r' G' F']; subst.
  - reflexivity.
  - f_equal. destruct G as [[-> ->] | ->], G' as [[E ->] | E]; try reflexivity.
    + exfalso. apply (f_equal (@length N)) in E. rewrite app_length in E. cbn [length] in E. lia.
    + exfalso. apply (f_equal (@length N)) in E. rewrite app_length in E. cbn [length] in E. lia.
    + apply app_inv_head in E. injection E as E. exact E.
  - exfalso. exact (G' v G).
  - exfalso. exact (G v' G').
  - apply IH. exact F'.
Qed.

Lemma number_result : forall default, exists ok n, parameter_number q id default = Ret (ok, n) /\
  (ok = true -> asks id default cs n) /\ (ok = false -> n = default) /\ (forall m, asks id default cs m -> ok = true /\ n = m).
Proof.
  intros default. destruct (first_total id cs) as (r & F). pose proof (position_found cs q id r Q NE W F) as E.
  unfold parameter_number. destruct r as [v |]; cbn [located] in E.
  - destruct E as (p & -> & P0 & V). cbn [bind]. replace (p =? 0) with false by lia. cbn [negb]. rewrite V. cbn [bind].
    destruct (to_number v) as (ok & r & En & H1 & H2). rewrite En. cbn [bind]. eexists _, _. split; [reflexivity |].
    destruct v as [| v0 v].
    { rewrite blen_nil. cbn [N.eqb orb]. assert (ok = true) as -> by (apply (H2 []); [constructor | constructor | reflexivity]).
      split; [intros _; apply asks_empty; exact F |]. split; [discriminate |]. intros m A. split; [reflexivity |].
      destruct A as [F' | F' | v' x F' Nv]; [reflexivity | reflexivity |].
      pose proof (first_value_fun _ _ _ F F') as Ev. congruence. }
    replace (blen (v0 :: v) =? 0) with false by (rewrite blen_cons; lia). cbn [orb]. split; [| split].
    + intros ->. cbn [negb]. destruct (H1 eq_refl) as (x & U & D & -> & B). apply (asks_number id default cs (v0 :: v) x); try assumption. discriminate.
    + intros ->. reflexivity.
    + intros m A. destruct A as [F' | F' | v' x F' Nv U D B]; pose proof (first_value_fun _ _ _ F F') as Ev; try discriminate.
      injection Ev as <-. pose proof (H2 x U D B) as Ok. split; [exact Ok |]. subst ok. cbn [negb].
      destruct (H1 eq_refl) as (x' & U' & D' & -> & _). rewrite (unescaped_fun _ _ U _ U'). reflexivity.
  - rewrite E. cbn [bind N.eqb negb]. exists true, default. split; [reflexivity |]. split; [intros _; apply asks_absent; exact F |]. split; [discriminate |].
    intros m A. split; [reflexivity |]. destruct A as [F' | F' | v' x F' Nv]; [reflexivity | reflexivity |].
    pose proof (first_value_fun _ _ _ F F') as Ev. discriminate.
Qed.

Lemma number_iff : forall default n, parameter_number q id default = Ret (true, n) <-> asks id default cs n.
Proof.
  intros default n. destruct (number_result default) as (ok & m & E & H1 & _ & H2). rewrite E. split.
  - intros H. injection H as -> ->. apply H1. reflexivity.
  - intros A. destruct (H2 n A) as (-> & ->). reflexivity.
Qed.

Lemma number_refused : forall default, (forall n, ~ asks id default cs n) -> parameter_number q id default = Ret (false, default).
Proof.
  intros default No. destruct (number_result default) as (ok & m & E & H1 & H0 & _). rewrite E. destruct ok.
  - exfalso. exact (No m (H1 eq_refl)).
  - rewrite (H0 eq_refl). reflexivity.
Qed.

End Named.

(** ** Everything is defined *)

Lemma found_defined : forall q id begin, exists k, found q id begin = Ret k /\ (k = true -> begin + blen id <= blen q).
Proof.
  intros q id begin. unfold found. destruct (begin + blen id <=? blen q) eqn:L; [| exists false; split; [reflexivity | discriminate]].
  rewrite mem_read_some by lia. cbn [mem bind]. destruct (same _ id); [| exists false; split; [reflexivity | discriminate]].
  destruct (begin + blen id =? blen q) eqn:E; [exists true; split; [reflexivity | lia] |].
  destruct (mem_get_lt (begin + blen id) q ltac:(lia)) as (b & -> & _). cbn [mem bind]. eexists. split; [reflexivity | lia].
Qed.

Lemma position_defined : forall f q id begin, begin <= blen q -> (N.to_nat (blen q - begin) < f)%nat ->
  exists p, position_loop f q id begin = Ret p /\ p <= blen q.
Proof.
  induction f as [| f IH]; intros q id begin Le Lf; [lia |].
  destruct (N.eq_dec begin (blen q)) as [-> | NE]; [rewrite position_end by lia; exists 0; split; [reflexivity | lia] |].
  rewrite position_step by lia. destruct (found_defined q id begin) as (k & -> & Hk). cbn [bind]. destruct k.
  - specialize (Hk eq_refl). unfold found_at. destruct (begin + blen id <? blen q) eqn:L; [| exists (begin + blen id); split; [reflexivity | lia]].
    destruct (mem_get_lt (begin + blen id) q ltac:(lia)) as (b & -> & _). cbn [mem bind]. eexists. split; [reflexivity | destruct (b =? 61); lia].
  - cbv zeta. pose proof (value_part_le (skipn (N.to_nat begin) q)) as V.
    assert (Ls : blen (skipn (N.to_nat begin) q) = blen q - begin) by (unfold blen; rewrite skipn_length; lia). rewrite Ls in V.
    destruct (begin + value_part (skipn (N.to_nat begin) q) <? blen q) eqn:L.
    + apply IH; lia.
    + apply IH; lia.
Qed.

Lemma value_defined : forall q p, exists v, value_at q p = Ret v.
Proof.
  intros q p. unfold value_at. rewrite mem_read_some by (pose proof (value_part_le (skipn (N.to_nat p) q)); lia). eexists. reflexivity.
Qed.

Lemma string_defined : forall q id buf parsed, exists ok buf' n, parameter_string q id buf parsed = Ret (ok, buf', n) /\ blen buf' = blen buf.
Proof.
  intros q id buf parsed. unfold parameter_string, position.
  destruct (position_defined (S (length q)) q id 0 ltac:(lia) ltac:(unfold blen; lia)) as (p & -> & _). cbn [bind].
  destruct (negb (p =? 0)); [| exists true, buf, parsed; split; reflexivity].
  destruct (value_defined q p) as (v & ->). cbn [bind]. destruct (to_string_inv v buf) as (ok & buf' & n & -> & L & _).
  exists ok, buf', n. split; [reflexivity | exact L].
Qed.

Lemma number_defined : forall q id default, exists ok n, parameter_number q id default = Ret (ok, n).
Proof.
  intros q id default. unfold parameter_number, position.
  destruct (position_defined (S (length q)) q id 0 ltac:(lia) ltac:(unfold blen; lia)) as (p & -> & _). cbn [bind].
  destruct (negb (p =? 0)); [| exists true, default; reflexivity].
  destruct (value_defined q p) as (v & ->). cbn [bind]. destruct (to_number v) as (ok & r & -> & _). cbn [bind].
  eexists _, _. reflexivity.
Qed.

Lemma offset_defined : forall l, exists o, query_offset l = Ret o /\ o <= blen l.
Proof.
  intros l. unfold query_offset. destruct (path_part l <? blen l) eqn:L; [| exists (blen l); split; [reflexivity | lia]].
  destruct (mem_get_lt (path_part l) l ltac:(lia)) as (b & -> & _). cbn [mem bind]. eexists. split; [reflexivity | destruct (b =? 63); lia].
Qed.

Lemma params_defined : forall path, exists r, path_params path = Ret r.
Proof.
  intros path. unfold path_params. destruct (offset_defined path) as (o & -> & _). cbn [bind].
  destruct (o <? blen path); [| eexists; reflexivity].
  destruct (number_defined (skipn (N.to_nat o) path) name_version 0) as (k1 & n1 & ->). cbn [bind]. destruct (negb k1); [eexists; reflexivity |].
  destruct (number_defined (skipn (N.to_nat o) path) name_baton 0) as (k2 & n2 & ->). cbn [bind]. destruct (negb k2); [eexists; reflexivity |].
  destruct (number_defined (skipn (N.to_nat o) path) name_count 1) as (k3 & n3 & ->). cbn [bind]. destruct (negb k3); [eexists; reflexivity |].
  destruct (number_defined (skipn (N.to_nat o) path) name_inject 0) as (k4 & n4 & ->). cbn [bind]. destruct (negb k4); [eexists; reflexivity |].
  destruct (_ || _); eexists; reflexivity.
Qed.

Lemma uri_defined : forall path q id buf parsed default,
  (exists o, query_offset path = Ret o /\ o <= blen path) /\
  (exists ok buf' n, parameter_string q id buf parsed = Ret (ok, buf', n) /\ blen buf' = blen buf) /\
  (exists ok n, parameter_number q id default = Ret (ok, n)) /\
  exists r, path_params path = Ret r.
Proof.
  intros. split; [apply offset_defined |]. split; [apply string_defined |]. split; [apply number_defined | apply params_defined].
Qed.

(** ** Requests *)

Lemma params_query : forall p q cs b, without 63 p -> q <> [] -> query cs q ->
  path_params (p ++ 63 :: q) = Ret (Some b) <->
  asks name_version 0 cs (b_version b) /\ asks name_baton 0 cs (b_initial b) /\ asks name_count 1 cs (b_lanes b) /\ asks name_inject 0 cs (b_inject b) /\
  b_version b = 0 /\ b_initial b <= 255 /\ 1 <= b_lanes b <= 256.
Proof.
  intros p q cs b Wp Nq Q. unfold path_params. rewrite (offset_query p q Wp). cbn [bind].
  assert (Lq : blen q <> 0) by (destruct q; [congruence | rewrite blen_cons; lia]).
  replace (blen p + 1 <? blen (p ++ 63 :: q)) with true by (rewrite blen_app, blen_cons; lia).
  replace (p ++ 63 :: q) with ((p ++ [63]) ++ q) by (rewrite <- app_assoc; reflexivity).
  replace (blen p + 1) with (blen (p ++ [63])) by (rewrite blen_app, blen_cons, blen_nil; lia). rewrite skipn_at. cbv zeta.
  assert (No : forall id, forallb (fun c => negb (c =? 38)) id = true -> without 38 id).
  { intros id H I. rewrite forallb_forall in H. specialize (H 38 I). discriminate. }
  destruct (number_result cs q name_version Q ltac:(discriminate) (No name_version eq_refl) 0) as (k1 & n1 & -> & A1 & _ & B1).
  destruct (number_result cs q name_baton Q ltac:(discriminate) (No name_baton eq_refl) 0) as (k2 & n2 & -> & A2 & _ & B2).
  destruct (number_result cs q name_count Q ltac:(discriminate) (No name_count eq_refl) 1) as (k3 & n3 & -> & A3 & _ & B3).
  destruct (number_result cs q name_inject Q ltac:(discriminate) (No name_inject eq_refl) 0) as (k4 & n4 & -> & A4 & _ & B4).
  cbn [bind]. split.
  - destruct k1; [| discriminate]. destruct k2; [| discriminate]. destruct k3; [| discriminate]. destruct k4; [| discriminate]. cbn [negb].
    destruct (negb (n1 =? 0) || (255 <? n2) || (256 <? n3) || (n3 <? 1)) eqn:T; [discriminate |].
    intros H. injection H as <-. cbn [b_version b_initial b_lanes b_inject].
    split; [exact (A1 eq_refl) |]. split; [exact (A2 eq_refl) |]. split; [exact (A3 eq_refl) |]. split; [exact (A4 eq_refl) |].
    apply orb_false_iff in T. destruct T as [T T4]. apply orb_false_iff in T. destruct T as [T T3]. apply orb_false_iff in T. destruct T as [T1 T2].
    apply negb_false_iff in T1. lia.
  - destruct b as [v i n e]. cbn [b_version b_initial b_lanes b_inject]. intros (C1 & C2 & C3 & C4 & V0 & I & Ln).
    destruct (B1 _ C1) as (-> & ->). destruct (B2 _ C2) as (-> & ->). destruct (B3 _ C3) as (-> & ->). destruct (B4 _ C4) as (-> & ->). cbn [negb].
    replace (negb (v =? 0) || (255 <? i) || (256 <? n) || (n <? 1)) with false; [reflexivity |].
    subst v. cbn [N.eqb negb orb]. lia.
Qed.
