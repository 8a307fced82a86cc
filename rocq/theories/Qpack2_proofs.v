(** The Huffman decoder: the register, the tree, and the code. *)
From Verif Require Import Base Tac Qpack_model Qpack_spec Qpack_proofs.

(** ** The register holds the first bits of what remains *)

Definition holds (val_in bits_in : N) (reg : list bool) : Prop :=
  bits_in = N.of_nat (length reg) /\ bits_in <= 64 /\
  (forall k, k < 64 -> N.testbit val_in k = nth (N.to_nat (63 - k)) reg false) /\
  val_in < two64.

Lemma u64_bits : forall x k, k < 64 -> N.testbit (u64 x) k = N.testbit x k.
Proof. intros x k K. unfold u64. change two64 with (2 ^ 64). apply N.mod_pow2_bits_low. exact K. Qed.

Lemma u64_lt : forall x, u64 x < two64.
Proof. intros x. unfold u64. apply N.mod_lt. discriminate. Qed.

Lemma lor_lt : forall a b, a < two64 -> b < two64 -> N.lor a b < two64.
Proof.
  intros a b A B. replace (N.lor a b) with (N.lor a b mod 2 ^ 64).
  - apply N.mod_lt. discriminate.
  - change two64 with (2 ^ 64) in A, B. apply N.bits_inj. intros k.
    destruct (N.lt_ge_cases k 64) as [K | K].
    + apply N.mod_pow2_bits_low. exact K.
    + rewrite N.mod_pow2_bits_high by exact K. rewrite N.lor_spec.
      rewrite <- (N.mod_small a (2 ^ 64)), <- (N.mod_small b (2 ^ 64)) by assumption.
      rewrite !N.mod_pow2_bits_high by exact K. reflexivity.
Qed.

Lemma digits_length : forall n v, length (digits n v) = n.
Proof. induction n as [| n IH]; intros v; cbn [digits length]; [reflexivity | rewrite IH; reflexivity]. Qed.

Lemma digits_nth : forall n v j, (j < n)%nat -> nth j (digits n v) false = N.testbit v (N.of_nat (n - 1 - j)).
Proof.
  induction n as [| n IH]; intros v j J; [lia |]. cbn [digits].
  destruct j as [| j]; cbn [nth].
  - f_equal. lia.
  - rewrite IH by lia. f_equal. lia.
Qed.

Lemma byte_bits : forall b k, b < 256 -> 8 <= k -> N.testbit b k = false.
Proof.
  intros b k B K. rewrite <- (N.mod_small b (2 ^ 8)) by exact B. apply N.mod_pow2_bits_high. exact K.
Qed.

Lemma holds_add : forall v n reg b, holds v n reg -> n < 57 -> b < 256 ->
  holds (N.lor v (u64 (N.shiftl b (64 - n - 8)))) (n + 8) (reg ++ digits 8 b).
Proof.
  intros v n reg b (L & M & T & V) N57 B. unfold holds.
  rewrite app_length, digits_length. repeat split; try lia.
  - intros k K. rewrite N.lor_spec, T, u64_bits by exact K.
    destruct (N.lt_ge_cases (63 - k) n) as [C | C].
    + rewrite app_nth1 by lia.
      replace (N.testbit (N.shiftl b (64 - n - 8)) k) with false; [apply orb_false_r |].
      symmetry. rewrite N.shiftl_spec_high' by lia. apply byte_bits; [exact B | lia].
    + rewrite (nth_overflow reg) by lia. rewrite orb_false_l. rewrite app_nth2 by lia.
      destruct (N.lt_ge_cases k (64 - n - 8)) as [C2 | C2].
      * rewrite N.shiftl_spec_low by exact C2. symmetry. apply nth_overflow. rewrite digits_length. lia.
      * rewrite N.shiftl_spec_high' by exact C2.
        rewrite digits_nth by lia. f_equal. lia.
  - apply lor_lt; [exact V | apply u64_lt].
Qed.

Lemma refill_holds : forall l n v reg, bytes_ok l -> holds v n reg ->
  let '(l', n', v') := refill l n v in
  exists reg', holds v' n' reg' /\ reg' ++ bits l' = reg ++ bits l /\ bytes_ok l' /\ (n' = 0 -> l' = []).
Proof.
  induction l as [| b l IH]; intros n v reg O H; cbn [refill].
  - exists reg. split; [exact H |]. split; [reflexivity |]. split; [exact O | reflexivity].
  - inversion O as [| x y Ob Ol]; subst. unfold is_byte in Ob.
    destruct (n <? 57) eqn:T.
    + pose proof (holds_add v n reg b H ltac:(lia) Ob) as H'.
      specialize (IH _ _ _ Ol H').
      destruct (refill l (n + 8) (N.lor v (u64 (N.shiftl b (64 - n - 8))))) as [[l' n'] v'].
      destruct IH as (reg' & A & B & C & D). exists reg'. split; [exact A |]. split; [| split; assumption].
      rewrite B, <- app_assoc. reflexivity.
    + exists reg. split; [exact H |]. split; [reflexivity |]. split; [exact O |]. lia.
Qed.

Lemma holds_take : forall v n b reg, holds v n (b :: reg) ->
  N.testbit v 63 = b /\ holds (u64 (N.shiftl v 1)) (n - 1) reg.
Proof.
  intros v n b reg (L & M & T & V). cbn [length] in L. split.
  - rewrite T by lia. reflexivity.
  - unfold holds. repeat split; try lia; [| apply u64_lt].
    intros k K. rewrite u64_bits by exact K.
    destruct (N.eq_dec k 0) as [-> | K0].
    + rewrite N.shiftl_spec_low by lia. symmetry. apply nth_overflow. lia.
    + rewrite N.shiftl_spec_high' by lia. rewrite T by lia.
      replace (N.to_nat (63 - (k - 1))) with (S (N.to_nat (63 - k))) by lia. reflexivity.
Qed.

(** ** The machine on bits *)

Definition inner (i : nat) : bool :=
  match nth_error huff_bit (N.to_nat (N.shiftr (N.of_nat i) 3)) with
  | Some b => N.testbit b (7 - N.land (N.of_nat i) 7)
  | None => false
  end.

Definition leap (i : nat) : N := nth i huff_val 0.

Fixpoint hrun (fuel : nat) (B : list bool) (i : nat) (o : bool) (room : nat) : outcome (bool * list N) :=
  match fuel with
  | O => NoFuel
  | S f =>
    if inner i then
      match B with
      | [] => Ret (o, [])
      | true :: B' =>
        if (512 <=? i + N.to_nat (leap i))%nat then Ret (o, []) else hrun f B' (i + N.to_nat (leap i)) o room
      | false :: B' =>
        if (512 <=? i + 1)%nat then Ret (false, []) else hrun f B' (i + 1) false room
      end
    else
      match room with
      | S room' =>
        match hrun f B 0 true room' with
        | Ret (ok, out) => Ret (ok, leap i :: out)
        | r => r
        end
      | O => Ret (true, [])
      end
  end.

Lemma table_sizes : length huff_bit = 64%nat /\ length huff_val = 512%nat.
Proof. split; vm_compute; reflexivity. Qed.

Lemma nth_nth_error : forall (l : list N) i, (i < length l)%nat -> nth_error l i = Some (nth i l 0).
Proof. intros l i H. apply nth_error_nth'. exact H. Qed.

Lemma machine_eq : forall f l n v i o room reg, bytes_ok l -> holds v n reg -> i < 512 ->
  huff_loop f l n v i o room = hrun f (reg ++ bits l) (N.to_nat i) o (N.to_nat room).
Proof.
  induction f as [| f IH]; intros l n v i o room reg O H I; cbn [huff_loop hrun]; [reflexivity |].
  pose proof (refill_holds l n v reg O H) as R.
  destruct (refill l n v) as [[l' n'] v']. destruct R as (reg' & H' & E & O' & Z).
  rewrite <- E. destruct table_sizes as [S1 S2].
  assert (X : nth_error huff_bit (N.to_nat (N.shiftr i 3)) = Some (nth (N.to_nat (N.shiftr i 3)) huff_bit 0)).
  { apply nth_nth_error. rewrite S1, N.shiftr_div_pow2. change (2 ^ 3) with 8. lia. }
  unfold inner. rewrite N2Nat.id. rewrite X.
  assert (Y : nth_error huff_val (N.to_nat i) = Some (leap (N.to_nat i))).
  { apply nth_nth_error. rewrite S2. lia. }
  rewrite Y.
  destruct (N.testbit (nth (N.to_nat (N.shiftr i 3)) huff_bit 0) (7 - N.land i 7)).
  - destruct reg' as [| b reg'].
    + destruct H' as (L & _). cbn [length] in L. subst n'. rewrite Z by reflexivity. reflexivity.
    + replace (n' =? 0) with false by (destruct H' as (L & _); cbn [length] in L; lia).
      destruct (holds_take _ _ _ _ H') as [Tb Ht]. cbv zeta. rewrite Tb. cbn [app].
      destruct b.
      * replace (512 <=? N.to_nat i + N.to_nat (leap (N.to_nat i)))%nat with (512 <=? i + leap (N.to_nat i)) by lia.
        destruct (512 <=? i + leap (N.to_nat i)) eqn:C; [reflexivity |].
        rewrite (IH l' (n' - 1) _ _ o room reg' O' Ht) by lia. f_equal. lia.
      * replace (512 <=? N.to_nat i + 1)%nat with (512 <=? i + 1) by lia.
        destruct (512 <=? i + 1) eqn:C; [reflexivity |].
        rewrite (IH l' (n' - 1) _ _ false room reg' O' Ht) by lia. f_equal. lia.
  - destruct (N.eq_dec room 0) as [-> | R0].
    + reflexivity.
    + replace (0 <? room) with true by lia.
      replace (N.to_nat room) with (S (N.to_nat (room - 1))) by lia.
      rewrite (IH l' n' v' 0 true (room - 1) reg' O' H') by lia. reflexivity.
Qed.

Lemma decode_machine : forall l max, bytes_ok l ->
  huff_decode l max = hrun (8 * length l + N.to_nat max + 2) (bits l) 0 true (N.to_nat max).
Proof.
  intros l max O. unfold huff_decode.
  rewrite (machine_eq _ l 0 0 0 true max [] O); [reflexivity | | lia].
  unfold holds. cbn [length]. repeat split; try lia.
  intros k K. rewrite N.bits_0. symmetry. apply nth_overflow. cbn [length]. lia.
Qed.

Lemma bits_length : forall l, length (bits l) = (8 * length l)%nat.
Proof.
  induction l as [| b l IH]; [reflexivity |]. unfold bits in *. cbn [flat_map].
  rewrite app_length, IH, digits_length. cbn [length]. lia.
Qed.

(** ** The tree is the tree of the code *)

Fixpoint dfs (fuel : nat) (i : nat) (p : list bool) : list (nat * list bool) :=
  match fuel with
  | O => []
  | S f =>
    if (512 <=? i)%nat then []
    else if inner i then
      (i, p) :: dfs f (i + 1) (p ++ [false]) ++ dfs f (i + N.to_nat (leap i)) (p ++ [true])
    else [(i, p)]
  end.

Definition paths : list (list bool) := Eval vm_compute in map snd (dfs 40 0 []).
Definition code_table : list (list bool) := Eval vm_compute in map hcode (seq 0 257).

Definition path (i : nat) : list bool := nth i paths [].

Fixpoint beq (a b : list bool) : bool :=
  match a, b with
  | [], [] => true
  | x :: r, y :: s => Bool.eqb x y && beq r s
  | _, _ => false
  end.

Lemma beq_eq : forall a b, beq a b = true -> a = b.
Proof.
  induction a as [| x a IH]; intros [| y b] H; cbn [beq] in H; try discriminate; [reflexivity |].
  apply andb_true_iff in H. destruct H as [H1 H2]. apply Bool.eqb_prop in H1. subst y.
  f_equal. exact (IH b H2).
Qed.

Lemma code_eq : forall s, (s <= 256)%nat -> hcode s = nth s code_table [].
Proof.
  intros s S. assert (E : map hcode (seq 0 257) = code_table) by (vm_compute; reflexivity).
  rewrite <- E. rewrite (nth_indep _ [] (hcode 0)) by (rewrite map_length, seq_length; lia).
  rewrite map_nth, seq_nth by lia. reflexivity.
Qed.

Lemma all_below : forall (f : nat -> bool) n, forallb f (seq 0 n) = true -> forall i, (i < n)%nat -> f i = true.
Proof.
  intros f n H i I. rewrite forallb_forall in H. apply H. apply in_seq. lia.
Qed.

Lemma tree_steps : forall i, (i < 512)%nat -> inner i = true ->
  (i + 1 < 512)%nat /\ path (i + 1) = path i ++ [false] /\
  ((i + N.to_nat (leap i) < 512)%nat -> path (i + N.to_nat (leap i)) = path i ++ [true]) /\
  ((512 <= i + N.to_nat (leap i))%nat -> path i ++ [true] = ones 30).
Proof.
  assert (E : forallb (fun i => implb (inner i)
    (Nat.ltb (i + 1) 512 && beq (path (i + 1)) (path i ++ [false]) &&
     (if Nat.ltb (i + N.to_nat (leap i)) 512 then beq (path (i + N.to_nat (leap i))) (path i ++ [true])
      else beq (path i ++ [true]) (ones 30)))) (seq 0 512) = true) by (vm_compute; reflexivity).
  intros i I N. pose proof (all_below _ _ E i I) as H. cbv beta in H. rewrite N in H.
  cbn [implb] in H. apply andb_true_iff in H. destruct H as [H H3]. apply andb_true_iff in H.
  destruct H as [H1 H2]. apply Nat.ltb_lt in H1. apply beq_eq in H2.
  split; [exact H1 |]. split; [exact H2 |].
  destruct (Nat.ltb (i + N.to_nat (leap i)) 512) eqn:T; apply beq_eq in H3.
  - split; [intros _; exact H3 |]. apply Nat.ltb_lt in T. lia.
  - split; [| intros _; exact H3]. apply Nat.ltb_ge in T. lia.
Qed.

Lemma tree_leaves : forall i, (i < 512)%nat -> inner i = false -> leap i < 256 /\ hcode (N.to_nat (leap i)) = path i.
Proof.
  assert (E : forallb (fun i => inner i ||
    ((leap i <? 256) && beq (nth (N.to_nat (leap i)) code_table []) (path i))) (seq 0 512) = true)
    by (vm_compute; reflexivity).
  intros i I N. pose proof (all_below _ _ E i I) as H. cbv beta in H. rewrite N in H.
  rewrite orb_false_l in H. apply andb_true_iff in H. destruct H as [H1 H2].
  assert (L : leap i < 256) by lia. split; [exact L |].
  rewrite code_eq by lia. exact (beq_eq _ _ H2).
Qed.

Fixpoint strip (p c : list bool) : option (list bool) :=
  match p, c with
  | [], _ => Some c
  | x :: r, y :: s => if Bool.eqb x y then strip r s else None
  | _ :: _, [] => None
  end.

Lemma strip_some : forall p c r, strip p c = Some r -> c = p ++ r.
Proof.
  induction p as [| x p IH]; intros c r H; cbn [strip] in H.
  - injection H as <-. reflexivity.
  - destruct c as [| y c]; [discriminate |]. destruct (Bool.eqb x y) eqn:T; [| discriminate].
    apply Bool.eqb_prop in T. subst y. cbn [app]. f_equal. exact (IH c r H).
Qed.

Lemma strip_app : forall p r, strip p (p ++ r) = Some r.
Proof. induction p as [| x p IH]; intros r; cbn [strip app]; [reflexivity |]. rewrite Bool.eqb_reflx. apply IH. Qed.

(** An inner node is within a code word. *)
Lemma tree_inner : forall i, (i < 512)%nat -> inner i = true ->
  exists s r, (s <= 256)%nat /\ r <> [] /\ hcode s = path i ++ r.
Proof.
  assert (E : forallb (fun i => implb (inner i)
    (existsb (fun s => match strip (path i) (nth s code_table []) with Some (_ :: _) => true | _ => false end)
       (seq 0 257))) (seq 0 512) = true) by (vm_compute; reflexivity).
  intros i I N. pose proof (all_below _ _ E i I) as H. cbv beta in H. rewrite N in H. cbn [implb] in H.
  apply existsb_exists in H. destruct H as (s & S & H). apply in_seq in S.
  destruct (strip (path i) (nth s code_table [])) as [r |] eqn:T; [| discriminate].
  apply strip_some in T. exists s, r. split; [lia |]. split; [destruct r; discriminate |].
  rewrite code_eq by lia. exact T.
Qed.

Lemma path_root : path 0 = [] /\ inner 0 = true.
Proof. split; vm_compute; reflexivity. Qed.

(** ** The code has the prefix property *)

Lemma prefix_free : forall a b x y, (a <= 256)%nat -> (b <= 256)%nat -> hcode a ++ x = hcode b ++ y -> a = b.
Proof.
  assert (E : forallb (fun a => forallb (fun b => Nat.eqb a b ||
    match strip (nth a code_table []) (nth b code_table []) with Some _ => false | None => true end)
    (seq 0 257)) (seq 0 257) = true) by (vm_compute; reflexivity).
  assert (F : forall a b x, (a <= 256)%nat -> (b <= 256)%nat -> hcode b = hcode a ++ x -> a = b).
  { intros a b x A B H.
    pose proof (all_below _ _ E a ltac:(lia)) as H1. cbv beta in H1.
    pose proof (all_below _ _ H1 b ltac:(lia)) as H2. cbv beta in H2.
    rewrite <- !code_eq in H2 by assumption. rewrite H, strip_app in H2.
    rewrite orb_false_r in H2. apply Nat.eqb_eq. exact H2. }
  intros a b x y A B H.
  assert (G : (exists z, hcode b = hcode a ++ z) \/ (exists z, hcode a = hcode b ++ z)).
  { clear - H. revert H. generalize (hcode a) (hcode b). intros p q. revert q x y.
    induction p as [| u p IH]; intros q x y H.
    - left. exists q. reflexivity.
    - destruct q as [| w q]; [right; exists (u :: p); reflexivity |].
      cbn [app] in H. injection H as -> H. destruct (IH q x y H) as [(z & ->) | (z & ->)].
      + left. exists z. reflexivity.
      + right. exists z. reflexivity. }
  destruct G as [(z & G) | (z & G)].
  - exact (F a b z A B G).
  - symmetry. exact (F b a z B A G).
Qed.

Lemma code_eos : hcode 256 = ones 30.
Proof. rewrite code_eq by lia. vm_compute. reflexivity. Qed.

Lemma not_ones : forall s x k, (s < 256)%nat -> hcode s ++ x <> ones k.
Proof.
  assert (E : forallb (fun s => negb (forallb (fun b => b) (nth s code_table []))) (seq 0 256) = true)
    by (vm_compute; reflexivity).
  intros s x k S H. pose proof (all_below _ _ E s S) as N. cbv beta in N.
  rewrite <- code_eq in N by lia.
  assert (T : forallb (fun b => b) (hcode s ++ x) = true).
  { rewrite H. clear. induction k as [| k IH]; [reflexivity | exact IH]. }
  rewrite forallb_app in T. apply andb_true_iff in T. destruct T as [T _]. rewrite T in N. discriminate.
Qed.

(** ** What the machine does *)

Lemma all_app : forall a b, forallb (fun x : bool => x) (a ++ b) = forallb (fun x => x) a && forallb (fun x => x) b.
Proof. intros a b. apply forallb_app. Qed.

Lemma run_total : forall f B i o room, (length B + room < f)%nat -> (i < 512)%nat -> 
  o = forallb (fun b => b) (path i) ->
  exists ok out tail, hrun f B i o room = Ret (ok, out) /\ path i ++ B = hcodes out ++ tail /\
    bytes_ok out /\ (length out <= room)%nat /\ stops ok tail (Nat.eqb (length out) room).
Proof.
  induction f as [| f IH]; intros B i o room F I O; [lia |]. cbn [hrun].
  destruct (inner i) eqn:N.
  - destruct (tree_steps i I N) as (S1 & S2 & S3 & S4).
    destruct B as [| [|] B].
    + exists o, [], (path i). split; [reflexivity |]. split; [apply app_nil_r |]. split; [constructor |].
      split; [cbn [length]; lia |]. right. right. split; [exact O |]. exact (tree_inner i I N).
    + cbn [length] in F. destruct (512 <=? i + N.to_nat (leap i))%nat eqn:T.
      * exists o, [], (path i ++ true :: B). split; [reflexivity |]. split; [reflexivity |]. split; [constructor |].
        split; [cbn [length]; lia |]. apply Nat.leb_le in T. specialize (S4 T). left. split.
        { rewrite O. assert (X : forallb (fun b => b) (path i ++ [true]) = true) by (rewrite S4; reflexivity).
          rewrite all_app in X. apply andb_true_iff in X. exact (proj1 X). }
        { exists B. rewrite <- S4, <- app_assoc. reflexivity. }
      * apply Nat.leb_gt in T. specialize (S3 T).
        destruct (IH B (i + N.to_nat (leap i))%nat o room) as (ok & out & tail & E1 & E2 & E3); [lia | exact T | |].
        { rewrite S3, all_app, O. rewrite andb_true_r. reflexivity. }
        exists ok, out, tail. split; [exact E1 |]. split; [| exact E3].
        rewrite <- E2, S3, <- app_assoc. reflexivity.
    + cbn [length] in F. replace (512 <=? i + 1)%nat with false by lia.
      destruct (IH B (i + 1)%nat false room) as (ok & out & tail & E1 & E2 & E3); [lia | exact S1 | |].
      { rewrite S2, all_app. rewrite andb_false_r. reflexivity. }
      exists ok, out, tail. split; [exact E1 |]. split; [| exact E3].
      rewrite <- E2, S2, <- app_assoc. reflexivity.
  - destruct (tree_leaves i I N) as [L C]. destruct room as [| room].
    + exists true, [], (path i ++ B). split; [reflexivity |]. split; [reflexivity |]. split; [constructor |].
      split; [cbn [length]; lia |]. right. left. split; [reflexivity |]. split; [reflexivity |].
      exists (N.to_nat (leap i)), B. split; [lia |]. rewrite C. reflexivity.
    + destruct path_root as [P0 _].
      destruct (IH B 0%nat true room) as (ok & out & tail & E1 & E2 & E3 & E4 & E5); [lia | lia | rewrite P0; reflexivity |].
      rewrite E1. exists ok, (leap i :: out), tail. split; [reflexivity |].
      rewrite P0 in E2. cbn [app] in E2. split; [| split; [| split]].
      * rewrite E2. unfold hcodes. cbn [flat_map]. rewrite C, <- app_assoc. reflexivity.
      * constructor; [exact L | exact E3].
      * cbn [length]. lia.
      * exact E5.
Qed.

(** The decoder is defined on all inputs, terminates, and decodes the code. *)
Theorem huff_total : forall l max, bytes_ok l ->
  exists ok out tail, huff_decode l max = Ret (ok, out) /\ bits l = hcodes out ++ tail /\
    bytes_ok out /\ blen out <= max /\ stops ok tail (blen out =? max).
Proof.
  intros l max O. rewrite decode_machine by exact O. destruct path_root as [P0 _].
  destruct (run_total (8 * length l + N.to_nat max + 2) (bits l) 0 true (N.to_nat max))
    as (ok & out & tail & E1 & E2 & E3 & E4 & E5); [rewrite bits_length; lia | lia | rewrite P0; reflexivity |].
  exists ok, out, tail. rewrite P0 in E2. cbn [app] in E2.
  repeat split; try assumption.
  - unfold blen. lia.
  - replace (blen out =? max) with (Nat.eqb (length out) (N.to_nat max)); [exact E5 |].
    unfold blen. destruct (Nat.eqb_spec (length out) (N.to_nat max)); lia.
Qed.

(** Unique decoding. *)
Lemma unique : forall t out tail k ok full, bytes_ok t -> bytes_ok out ->
  hcodes out ++ tail = hcodes t ++ ones k -> stops ok tail full ->
  (full = true -> (length t <= length out)%nat) -> out = t /\ tail = ones k.
Proof.
  induction t as [| s t IH]; intros out tail k ok full Ot Oo E S Fu.
  - destruct out as [| x out].
    + split; [reflexivity | exact E].
    + exfalso. unfold hcodes in E. cbn [flat_map] in E. rewrite <- app_assoc in E. cbn [app] in E.
      inversion Oo as [| a b Ox Oo']; subst. unfold is_byte in Ox.
      exact (not_ones (N.to_nat x) _ k ltac:(lia) E).
  - inversion Ot as [| a b Os Ot']; subst. unfold is_byte in Os.
    destruct out as [| x out].
    + exfalso. unfold hcodes in E. cbn [flat_map app] in E. rewrite <- app_assoc in E.
      destruct S as [(_ & r & ->) | [(_ & Ff & s' & r & S' & ->) | (_ & s' & r & S' & R & C)]].
      * rewrite <- code_eos in E. apply prefix_free in E; lia.
      * specialize (Fu Ff). cbn [length] in Fu. lia.
      * rewrite E in C. rewrite <- app_assoc in C.
        assert (Q : s' = N.to_nat s).
        { apply (prefix_free s' (N.to_nat s) []
            ((flat_map (fun s0 => hcode (N.to_nat s0)) t ++ ones k) ++ r) S' ltac:(lia)).
          rewrite app_nil_r. exact C. }
        subst s'. apply R.
        assert (Z : length (hcode (N.to_nat s)) = length (hcode (N.to_nat s) ++ (flat_map (fun s0 => hcode (N.to_nat s0)) t ++ ones k) ++ r))
          by (rewrite <- C; reflexivity).
        rewrite !app_length in Z. destruct r; [reflexivity | cbn [length] in Z; lia].
    + inversion Oo as [| a b Ox Oo']; subst. unfold is_byte in Ox.
      unfold hcodes in E. cbn [flat_map] in E. rewrite <- !app_assoc in E.
      assert (Q : N.to_nat x = N.to_nat s) by (apply prefix_free in E; lia).
      rewrite Q in E. apply app_inv_head in E.
      assert (x = s) by lia. subst x.
      destruct (IH out tail k ok full Ot' Oo' E S) as [-> ->].
      { intros Ff. specialize (Fu Ff). cbn [length] in Fu. lia. }
      split; reflexivity.
Qed.

(** The decoding of a well-formed string is its text. *)
Theorem huff_text : forall t raw max, bytes_ok raw -> huffman_of t raw -> blen t <= max ->
  huff_decode raw max = Ret (true, t).
Proof.
  intros t raw max O (Ot & k & K & E) L.
  destruct (huff_total raw max O) as (ok & out & tail & E1 & E2 & E3 & E4 & E5).
  rewrite E in E2. symmetry in E2.
  destruct (unique t out tail k ok _ Ot E3 E2 E5) as [-> ->].
  { intros F. unfold blen in *. lia. }
  rewrite E1. f_equal. f_equal.
  destruct E5 as [(-> & _) | [(-> & _) | (-> & _)]]; try reflexivity.
  clear. induction k as [| k IH]; [reflexivity | exact IH].
Qed.

(** Different texts have different codes. *)
Theorem huff_unique : forall t t' raw, huffman_of t raw -> huffman_of t' raw -> t = t'.
Proof.
  intros t t' raw (O & k & K & E) (O' & k' & K' & E'). rewrite E in E'.
  destruct (unique t' t (ones k) k' true false O' O E') as [-> _]; [| discriminate | reflexivity].
  right. right. split.
  - clear. induction k as [| k IH]; [reflexivity | exact IH].
  - exists 256%nat, (ones (30 - k)). rewrite code_eos. split; [lia |]. split.
    + destruct (30 - k)%nat eqn:T; [lia | discriminate].
    + unfold ones. rewrite <- repeat_app. f_equal. lia.
Qed.
