(** Lemmas about stream reassembly. *)
From Verif Require Import Base Reasm_model Reasm_spec.

Lemma blen_app : forall a b, blen (a ++ b) = blen a + blen b.
Proof. intros. unfold blen. rewrite app_length. lia. Qed.

Lemma blen_nil : blen [] = 0.
Proof. reflexivity. Qed.

Lemma blen_pos : forall d, 0 < blen d <-> d <> [].
Proof. intros [|x d]; split; intros H; try congruence; unfold blen in *; cbn [length] in *; try lia; discriminate. Qed.

Lemma blen_zero : forall d, blen d = 0 -> d = [].
Proof. intros [|x d] H; [reflexivity|]. unfold blen in H. cbn [length] in H. lia. Qed.

Lemma blen_skipn : forall n d, blen (skipn n d) = blen d - N.of_nat n.
Proof. intros. unfold blen. rewrite skipn_length. lia. Qed.

Lemma blen_firstn : forall n d, (n <= length d)%nat -> blen (firstn n d) = N.of_nat n.
Proof. intros. unfold blen. rewrite firstn_length. lia. Qed.

(** ** Slices *)

(** The bytes [off, off+len[ of D. *)
Definition slice (D : list N) (off len : N) : list N := firstn (N.to_nat len) (skipn (N.to_nat off) D).

Definition slice_of (D : list N) (off : N) (d : list N) : Prop :=
  off + blen d <= blen D /\ d = slice D off (blen d).

Lemma slice_len : forall D off len, off + len <= blen D -> blen (slice D off len) = len.
Proof.
  intros. unfold slice. rewrite blen_firstn; [lia|]. rewrite skipn_length. unfold blen in H. lia.
Qed.

Lemma slice_is : forall D off len, off + len <= blen D -> slice_of D off (slice D off len).
Proof. intros. split; rewrite slice_len by assumption; [assumption|reflexivity]. Qed.

Lemma slice_slice : forall D off len o l, o + l <= len ->
  slice (slice D off len) o l = slice D (off + o) l.
Proof.
  intros D off len o l H. unfold slice. rewrite skipn_firstn_comm, firstn_firstn.
  rewrite Nat.min_l by lia. f_equal. rewrite N2Nat.inj_add.
  assert (G : forall (n m : nat) (l : list N), skipn n (skipn m l) = skipn (m + n) l).
  { intros n m. induction m as [|m IH]; intros l'; [reflexivity|]. destruct l'; [rewrite !skipn_nil; reflexivity|]. cbn [skipn Nat.add]. apply IH. }
  apply G.
Qed.

Lemma slice_app : forall D off l1 l2, slice D off l1 ++ slice D (off + l1) l2 = slice D off (l1 + l2).
Proof.
  intros D off l1 l2. unfold slice. rewrite !N2Nat.inj_add.
  assert (G : forall (n m : nat) (l : list N), skipn n (skipn m l) = skipn (m + n) l).
  { intros n m. induction m as [|m IH]; intros l'; [reflexivity|]. destruct l'; [rewrite !skipn_nil; reflexivity|]. cbn [skipn Nat.add]. apply IH. }
  rewrite <- G. generalize (skipn (N.to_nat off) D) as E. intros E.
  generalize (N.to_nat l1) as n. generalize (N.to_nat l2) as m. intros m n. revert E.
  induction n as [|n IH]; intros E; [reflexivity|]. destruct E as [|x E]; [rewrite !skipn_nil, !firstn_nil; reflexivity|].
  cbn [firstn skipn Nat.add app]. f_equal. apply IH.
Qed.

Lemma slice_zero : forall D n, slice D 0 n = firstn (N.to_nat n) D.
Proof. reflexivity. Qed.

Lemma sub_slice : forall D off d o l, slice_of D off d -> o + l <= blen d ->
  sub d o l = Some (slice D (off + o) l) .
Proof.
  intros D off d o l (H1 & H2) Hl. unfold sub.
  destruct (N.leb_spec (o + l) (blen d)); [|lia]. f_equal.
  change (firstn (N.to_nat l) (skipn (N.to_nat o) d)) with (slice d o l).
  rewrite H2. apply slice_slice. lia.
Qed.

Lemma skipn_slice : forall D off d o, slice_of D off d -> o <= blen d ->
  skipn (N.to_nat o) d = slice D (off + o) (blen d - o).
Proof.
  intros D off d o (H1 & H2) Hl.
  rewrite <- (slice_slice D off (blen d) o (blen d - o)) by lia. rewrite <- H2. unfold slice.
  rewrite firstn_all2; [reflexivity|]. rewrite skipn_length. unfold blen. lia.
Qed.

Lemma carries_slice : forall D f, carries D f -> slice_of D (f_off f) (f_data f).
Proof.
  intros D f ((a & b & HD & Ha) & _). subst D. rewrite <- Ha. split.
  - rewrite !blen_app. lia.
  - unfold slice, blen. rewrite !Nat2N.id. rewrite skipn_app, skipn_all, Nat.sub_diag. cbn [app skipn].
    rewrite firstn_app, firstn_all, Nat.sub_diag. cbn [firstn]. symmetry. apply app_nil_r.
Qed.

(** ** Chunk lists *)

Fixpoint wfc (D : list N) (lo : N) (cs : list chunk) : Prop :=
  match cs with
  | [] => True
  | c :: t => lo <= c_off c /\ 0 < blen (c_data c) /\ slice_of D (c_off c) (c_data c) /\ wfc D (c_end c) t
  end.

Definition incs (cs : list chunk) (i : N) : Prop := exists c, In c cs /\ c_off c <= i < c_end c.

Fixpoint last_end (lo : N) (cs : list chunk) : N :=
  match cs with [] => lo | c :: t => last_end (c_end c) t end.

Lemma wfc_app : forall D a lo b, wfc D lo (a ++ b) <-> wfc D lo a /\ wfc D (last_end lo a) b.
Proof.
  induction a as [|c a IH]; intros lo b; cbn [app wfc last_end]; [tauto|]. rewrite IH. tauto.
Qed.

Lemma wfc_weaken : forall D lo lo' cs, wfc D lo cs -> lo' <= lo -> wfc D lo' cs.
Proof. intros D lo lo' [|c t] H Hl; [exact I|]. cbn [wfc] in *. destruct H as (? & ? & ? & ?). repeat split; try assumption; try lia; apply H1. Qed.

Lemma wfc_in : forall D cs lo c, wfc D lo cs -> In c cs ->
  lo <= c_off c /\ 0 < blen (c_data c) /\ slice_of D (c_off c) (c_data c).
Proof.
  induction cs as [|x t IH]; intros lo c H Hc; [contradiction|]. cbn [wfc] in H. destruct H as (H1 & H2 & H3 & H4).
  destruct Hc as [<-|Hc]; [auto|]. destruct (IH _ _ H4 Hc) as (G1 & G2 & G3). split; [unfold c_end in G1; lia|auto].
Qed.

Lemma last_end_le : forall a lo fdo, (forall c, In c a -> c_end c <= fdo) -> lo <= fdo -> last_end lo a <= fdo.
Proof.
  induction a as [|c a IH]; intros lo fdo H Hl; cbn [last_end]; [exact Hl|].
  apply IH; [intros x Hx; apply H; right; exact Hx|apply H; left; reflexivity].
Qed.

Lemma last_end_snoc : forall a lo c, last_end lo (a ++ [c]) = c_end c.
Proof. induction a as [|x a IH]; intros lo c; cbn [app last_end]; [reflexivity|apply IH]. Qed.

Lemma incs_app : forall a b i, incs (a ++ b) i <-> incs a i \/ incs b i.
Proof.
  intros a b i. unfold incs. split.
  - intros (c & Hc & Hi). apply in_app_or in Hc. destruct Hc; [left|right]; eauto.
  - intros [(c & Hc & Hi)|(c & Hc & Hi)]; exists c; split; auto; apply in_or_app; auto.
Qed.

Lemma incs_cons : forall c b i, incs (c :: b) i <-> c_off c <= i < c_end c \/ incs b i.
Proof.
  intros c b i. unfold incs. split.
  - intros (x & [<-|Hc] & Hi); [left; exact Hi|right; eauto].
  - intros [Hi|(x & Hc & Hi)]; [exists c; split; [left; reflexivity|exact Hi]|exists x; split; [right; exact Hc|exact Hi]].
Qed.

Lemma incs_nil : forall i, ~ incs [] i.
Proof. intros i (c & [] & _). Qed.

Lemma chunk_insert_mid : forall pre post c,
  (forall x, In x pre -> c_off x <= c_off c) ->
  (match post with [] => True | x :: _ => c_off c < c_off x end) ->
  chunk_insert c (pre ++ post) = pre ++ c :: post.
Proof.
  induction pre as [|x pre IH]; intros post c H1 H2; cbn [app chunk_insert].
  - destruct post as [|x t]; [reflexivity|]. cbn [chunk_insert]. destruct (N.ltb_spec (c_off c) (c_off x)); [reflexivity|lia].
  - destruct (N.ltb_spec (c_off c) (c_off x)) as [H|H].
    + pose proof (H1 x (or_introl eq_refl)). lia.
    + f_equal. apply IH; [|exact H2]. intros y Hy. apply H1. right. exact Hy.
Qed.

Lemma filter_all_true : forall (A : Type) (f : A -> bool) l, (forall x, In x l -> f x = true) -> filter f l = l.
Proof.
  induction l as [|x l IH]; intros H; [reflexivity|]. cbn [filter]. rewrite (H x (or_introl eq_refl)). f_equal.
  apply IH. intros y Hy. apply H. right. exact Hy.
Qed.

Lemma filter_all_false : forall (A : Type) (f : A -> bool) l, (forall x, In x l -> f x = false) -> filter f l = [].
Proof.
  induction l as [|x l IH]; intros H; [reflexivity|]. cbn [filter]. rewrite (H x (or_introl eq_refl)).
  apply IH. intros y Hy. apply H. right. exact Hy.
Qed.

Lemma chunk_next_mid : forall pre post x,
  (forall c, In c pre -> c_off c <= x) -> (forall c, In c post -> x < c_off c) ->
  chunk_next (pre ++ post) x = hd_error post.
Proof.
  intros pre post x H1 H2. unfold chunk_next. rewrite filter_app.
  rewrite (filter_all_false _ _ pre), (filter_all_true _ _ post); [reflexivity| |].
  - intros c Hc. apply H2 in Hc. lia.
  - intros c Hc. apply H1 in Hc. lia.
Qed.

Lemma wfc_after : forall D cs lo x, wfc D lo cs -> x < lo -> forall c, In c cs -> x < c_off c.
Proof. intros D cs lo x H Hx c Hc. destruct (wfc_in _ _ _ _ H Hc) as (H1 & _). lia. Qed.

(** ** Queueing *)

Definition finish (begin end_ : N) (d : list N) (res : option (list chunk * N * bool)) : option (list chunk * bool) :=
  match res with
  | None => None
  | Some (tree', fdo'', new) =>
    if fdo'' <? end_ then
      match sub d (fdo'' - begin) (end_ - fdo'') with
      | None => None
      | Some b => Some (add_chunk_node tree' fdo'' b, true)
      end
    else Some (tree', new)
  end.

Lemma queue_loop_spec : forall D begin d lo, slice_of D begin d ->
  forall post pre fdo new fuel, (length post < fuel)%nat ->
  wfc D lo (pre ++ post) -> (forall c, In c pre -> c_end c <= fdo) ->
  (match post with [] => True | x :: _ => fdo <= c_off x end) ->
  begin <= fdo -> lo <= fdo ->
  exists t2 n2, finish begin (begin + blen d) d
      (queue_loop fuel (pre ++ post) begin (begin + blen d) d fdo (hd_error post) new) = Some (t2, n2) /\
    wfc D lo t2 /\
    (forall i, incs t2 i <-> incs (pre ++ post) i \/ fdo <= i < begin + blen d) /\
    (n2 = false -> new = false /\ t2 = pre ++ post).
Proof.
  intros D begin d lo Hd. induction post as [|nx post IH]; intros pre fdo new fuel Hf Hw Hpre Hpost Hb Hlo.
  - destruct fuel as [|n]; [cbn [length] in Hf; lia|]. cbn [hd_error queue_loop]. rewrite app_nil_r in *. cbn [finish].
    destruct (N.ltb_spec fdo (begin + blen d)) as [H|H].
    + rewrite (sub_slice D begin d) by (try assumption; lia). unfold add_chunk_node.
      replace (begin + (fdo - begin)) with fdo by lia.
      pose proof (slice_is D fdo (begin + blen d - fdo)) as Hs.
      assert (Hle : fdo + (begin + blen d - fdo) <= blen D) by (destruct Hd; lia).
      specialize (Hs Hle).
      assert (Hlen : blen (slice D fdo (begin + blen d - fdo)) = begin + blen d - fdo) by (apply slice_len; exact Hle).
      set (b := slice D fdo (begin + blen d - fdo)) in *.
      assert (E : chunk_insert (fdo, b) pre = pre ++ [(fdo, b)]).
      { pose proof (chunk_insert_mid pre [] (fdo, b)) as E. rewrite app_nil_r in E. apply E; [|exact I]. intros x Hx.
        destruct (wfc_in _ _ _ _ Hw Hx) as (_ & G & _). pose proof (Hpre x Hx) as G2. unfold c_end in G2. unfold c_off in *; cbn [fst]; lia. }
      rewrite E.
      eexists _, true. split; [reflexivity|]. split; [|split; [|discriminate]].
      * apply wfc_app. split; [exact Hw|]. cbn [wfc]. unfold c_off, c_data. cbn [fst snd].
        split; [apply last_end_le; assumption|]. split; [lia|]. split; [exact Hs|exact I].
      * intros i. rewrite incs_app, incs_cons. unfold c_end, c_off, c_data. cbn [fst snd]. rewrite Hlen.
        replace (fdo + (begin + blen d - fdo)) with (begin + blen d) by lia.
        pose proof (incs_nil i). tauto.
    + exists pre, new. split; [reflexivity|]. split; [exact Hw|]. split; [|auto].
      intros i. split; [tauto|]. intros [Hi|Hi]; [exact Hi|lia].
  - destruct fuel as [|n]; [cbn [length] in Hf; lia|]. cbn [hd_error queue_loop].
    pose proof Hw as Hw0. apply wfc_app in Hw0. destruct Hw0 as (Hw1 & Hw2). cbn [wfc] in Hw2.
    destruct Hw2 as (W1 & W2 & W3 & W4).
    destruct (N.ltb_spec fdo (begin + blen d)) as [H|H]; cbn [andb].
    2: { cbn [finish]. destruct (N.ltb_spec fdo (begin + blen d)); [lia|].
         exists (pre ++ nx :: post), new. split; [reflexivity|]. split; [exact Hw|]. split; [|auto].
         intros i. split; [tauto|]. intros [Hi|Hi]; [exact Hi|lia]. }
    destruct (N.ltb_spec (c_off nx) (begin + blen d)) as [H'|H'].
    + (* one more chunk *)
      destruct (N.ltb_spec fdo (c_off nx)) as [Hg|Hg].
      * destruct (N.ltb_spec 0 (c_off nx - fdo)); [|lia].
        rewrite (sub_slice D begin d) by (try assumption; lia). unfold add_chunk_node.
        replace (begin + (fdo - begin)) with fdo by lia.
        assert (Hle : fdo + (c_off nx - fdo) <= blen D) by (destruct Hd; lia).
        pose proof (slice_is D fdo (c_off nx - fdo) Hle) as Hs.
        pose proof (slice_len D fdo (c_off nx - fdo) Hle) as Hlen.
        set (b := slice D fdo (c_off nx - fdo)) in *.
        rewrite chunk_insert_mid; [|intros x Hx|exact Hg].
        2: { destruct (wfc_in _ _ _ _ Hw1 Hx) as (_ & G & _). pose proof (Hpre x Hx) as G2. unfold c_end in G2. unfold c_off in *; cbn [fst]; lia. }
        set (pre' := pre ++ [((fdo, b) : chunk); nx]).
        assert (E : pre ++ ((fdo, b) : chunk) :: nx :: post = pre' ++ post).
        { unfold pre'. rewrite <- app_assoc. reflexivity. }
        rewrite E.
        assert (Hw' : wfc D lo (pre' ++ post)).
        { rewrite <- E. apply wfc_app. split; [exact Hw1|]. cbn [wfc].
          split; [cbn [c_off fst]; apply last_end_le; assumption|].
          split; [cbn [c_data snd]; lia|]. split; [exact Hs|].
          split; [unfold c_end, c_off at 1, c_data; cbn [fst snd]; lia|]. split; [exact W2|]. split; [exact W3|exact W4]. }
        rewrite (chunk_next_mid pre' post (c_off nx)).
        2: { intros c Hc. unfold pre' in Hc. apply in_app_or in Hc. destruct Hc as [Hc|[<-|[<-|[]]]]; [|cbn [c_off fst]; unfold c_off in *; lia|lia].
             pose proof (Hpre c Hc). unfold c_end in *. lia. }
        2: { eapply wfc_after; [exact W4|]. unfold c_end. lia. }
        destruct (IH pre' (c_end nx) true n) as (t2 & n2 & G1 & G2 & G3 & G4).
        { cbn [length] in Hf. lia. }
        { exact Hw'. }
        { intros c Hc. unfold pre' in Hc. apply in_app_or in Hc. destruct Hc as [Hc|[<-|[<-|[]]]]; [| |lia].
          - pose proof (Hpre c Hc). unfold c_end in *. lia.
          - unfold c_end at 1. unfold c_off at 1, c_data. cbn [fst snd]. rewrite Hlen. unfold c_end. lia. }
        { destruct post as [|y post']; [exact I|]. cbn [wfc] in W4. tauto. }
        { unfold c_end. lia. }
        { unfold c_end. lia. }
        exists t2, n2. split; [exact G1|]. split; [exact G2|]. split.
        { intros i. rewrite G3. unfold pre'. rewrite !incs_app, !incs_cons.
          unfold c_end at 1. unfold c_off at 1 2, c_data at 1. cbn [fst snd]. rewrite Hlen.
          replace (fdo + (c_off nx - fdo)) with (c_off nx) by lia.
          pose proof (incs_nil i). split.
          - intros [[[Hi|[Hi|[Hi|Hi]]]|Hi]|Hi]; try tauto; unfold c_end in *; try (right; lia).
          - intros [[Hi|[Hi|Hi]]|Hi]; try tauto.
            destruct (N.lt_ge_cases i (c_off nx)); [tauto|]. destruct (N.lt_ge_cases i (c_end nx)); [tauto|].
            right. lia. }
        { intros Hn. apply G4 in Hn. destruct Hn; discriminate. }
      * destruct (N.ltb_spec 0 0); [lia|].
        set (pre' := pre ++ [nx]).
        assert (E : pre ++ nx :: post = pre' ++ post).
        { unfold pre'. rewrite <- app_assoc. reflexivity. }
        rewrite E in *.
        rewrite (chunk_next_mid pre' post (c_off nx)).
        2: { intros c Hc. unfold pre' in Hc. apply in_app_or in Hc. destruct Hc as [Hc|[<-|[]]]; [|lia].
             pose proof (Hpre c Hc). unfold c_end in *. lia. }
        2: { eapply wfc_after; [exact W4|]. unfold c_end. lia. }
        destruct (IH pre' (c_end nx) new n) as (t2 & n2 & G1 & G2 & G3 & G4).
        { cbn [length] in Hf. lia. }
        { exact Hw. }
        { intros c Hc. unfold pre' in Hc. apply in_app_or in Hc. destruct Hc as [Hc|[<-|[]]]; [|lia].
          pose proof (Hpre c Hc). unfold c_end in *. lia. }
        { destruct post as [|y post']; [exact I|]. cbn [wfc] in W4. tauto. }
        { unfold c_end. lia. }
        { unfold c_end. lia. }
        exists t2, n2. split; [exact G1|]. split; [exact G2|]. split; [|exact G4].
        intros i. rewrite G3. unfold pre'. rewrite !incs_app, !incs_cons.
        pose proof (incs_nil i). split.
        { intros [Hi|Hi]; [tauto|]. right. unfold c_end in *. lia. }
        { intros [Hi|Hi]; [tauto|]. destruct (N.lt_ge_cases i (c_end nx)); [|right; lia].
          left. left. right. left. lia. }
    + (* next chunk is beyond the frame *)
      cbn [finish]. destruct (N.ltb_spec fdo (begin + blen d)); [|lia].
      rewrite (sub_slice D begin d) by (try assumption; lia). unfold add_chunk_node.
      replace (begin + (fdo - begin)) with fdo by lia.
      assert (Hle : fdo + (begin + blen d - fdo) <= blen D) by (destruct Hd; lia).
      pose proof (slice_is D fdo (begin + blen d - fdo) Hle) as Hs.
      pose proof (slice_len D fdo (begin + blen d - fdo) Hle) as Hlen.
      set (b := slice D fdo (begin + blen d - fdo)) in *.
      rewrite chunk_insert_mid; [|intros x Hx|cbn [c_off fst]; unfold c_off in *; lia].
      2: { destruct (wfc_in _ _ _ _ Hw1 Hx) as (_ & G & _). pose proof (Hpre x Hx) as G2. unfold c_end in G2. unfold c_off in *; cbn [fst]; lia. }
      eexists _, true. split; [reflexivity|]. split; [|split; [|discriminate]].
      * apply wfc_app. split; [exact Hw1|]. cbn [wfc].
        split; [cbn [c_off fst]; apply last_end_le; assumption|]. split; [cbn [c_data snd]; lia|].
        split; [exact Hs|]. split; [unfold c_end, c_off at 1, c_data; cbn [fst snd]; lia|auto].
      * intros i. rewrite !incs_app, !incs_cons. unfold c_end at 1. unfold c_off at 1 2, c_data at 1. cbn [fst snd]. rewrite Hlen.
        replace (fdo + (begin + blen d - fdo)) with (begin + blen d) by lia. tauto.
Qed.

(** Splitting a chunk list at an offset. *)
Lemma split_at : forall D x cs lo, wfc D lo cs -> exists pre post, cs = pre ++ post /\
  (forall c, In c pre -> c_off c <= x) /\ (forall c, In c post -> x < c_off c).
Proof.
  intros D x. induction cs as [|c t IH]; intros lo H.
  - exists [], []. split; [reflexivity|]. split; intros c [].
  - cbn [wfc] in H. destruct H as (H1 & H2 & H3 & H4). destruct (N.le_gt_cases (c_off c) x) as [Hc|Hc].
    + destruct (IH _ H4) as (pre & post & -> & G1 & G2). exists (c :: pre), post. split; [reflexivity|]. split; [|exact G2].
      intros y [<-|Hy]; [exact Hc|apply G1; exact Hy].
    + exists [], (c :: t). split; [reflexivity|]. split; [intros y []|]. intros y [<-|Hy]; [exact Hc|].
      destruct (wfc_in _ _ _ _ H4 Hy) as (G & _). unfold c_end in G. lia.
Qed.

Lemma queue_spec : forall D tree consumed lo off d, wfc D lo tree -> slice_of D off d ->
  lo <= consumed + 1 -> consumed < off ->
  exists t2 n2, queue_network_input tree consumed off d = Some (t2, n2) /\ wfc D lo t2 /\
    (forall i, incs t2 i <-> incs tree i \/ off <= i < off + blen d) /\
    (n2 = false -> t2 = tree).
Proof.
  intros D tree consumed lo off d Hw Hd Hlo Hc. unfold queue_network_input.
  destruct (N.ltb_spec off consumed); [lia|].
  destruct (N.ltb_spec off (off + blen d)) as [Hl|Hl].
  2: { exists tree, false. split; [reflexivity|]. split; [exact Hw|]. split; [|reflexivity].
       intros i. split; [tauto|]. intros [Hi|Hi]; [exact Hi|lia]. }
  destruct (split_at D off tree lo Hw) as (pre & post & -> & Hpre & Hpost).
  assert (Hprev : chunk_previous (pre ++ post) off = hd_error (rev pre)).
  { unfold chunk_previous. rewrite filter_app, (filter_all_true _ _ pre), (filter_all_false _ _ post), app_nil_r; [reflexivity| |].
    - intros c Hx. apply Hpost in Hx. lia.
    - intros c Hx. apply Hpre in Hx. lia. }
  rewrite Hprev. clear Hprev.
  pose proof Hw as Hw0. apply wfc_app in Hw0. destruct Hw0 as (Hw1 & Hw2).
  destruct (rev pre) as [|p rpre] eqn:Er.
  - assert (pre = []) as -> by (apply (f_equal (@rev chunk)) in Er; rewrite rev_involutive in Er; exact Er).
    cbn [hd_error app]. cbn [app] in Hw.
    change (match queue_loop (S (length post)) post off (off + blen d) d off (hd_error post) false with
            | Some (tree', fdo'', new) => _ | None => None end)
      with (finish off (off + blen d) d (queue_loop (S (length post)) post off (off + blen d) d off (hd_error post) false)).
    destruct (queue_loop_spec D off d lo Hd post [] off false (S (length post))) as (t2 & n2 & G1 & G2 & G3 & G4).
    + lia.
    + exact Hw.
    + intros c [].
    + destruct post as [|x post']; [exact I|]. apply N.lt_le_incl. apply Hpost. left. reflexivity.
    + lia.
    + lia.
    + exists t2, n2. split; [exact G1|]. split; [exact G2|]. split; [exact G3|]. intros Hn. apply G4 in Hn. tauto.
  - assert (Epre : pre = rev rpre ++ [p]) by (apply (f_equal (@rev chunk)) in Er; rewrite rev_involutive in Er; exact Er).
    cbn [hd_error].
    assert (Hin : In p pre) by (rewrite Epre; apply in_or_app; right; left; reflexivity).
    assert (Hlast : last_end lo pre = c_end p) by (rewrite Epre; apply last_end_snoc).
    rewrite Hlast in Hw2.
    assert (Hends : forall c, In c pre -> c_end c <= c_end p /\ c_off c <= c_off p).
    { intros c Hx. rewrite Epre in Hx, Hw1. apply in_app_or in Hx. destruct Hx as [Hx|[<-|[]]]; [|lia].
      apply wfc_app in Hw1. destruct Hw1 as (A1 & A2). cbn [wfc] in A2.
      assert (G : forall cs l, wfc D l cs -> forall c, In c cs -> c_end c <= last_end l cs).
      { clear. induction cs as [|x cs IH]; intros l H c Hc; [contradiction|]. cbn [wfc last_end] in *.
        destruct H as (H1 & H2 & H3 & H4). destruct Hc as [<-|Hc]; [|apply IH; assumption].
        clear - H4. revert x H4. induction cs as [|y cs IH]; intros x H4; cbn [last_end]; [lia|]. cbn [wfc] in H4.
        destruct H4 as (A & B & C & E). specialize (IH y E). unfold c_end in *. lia. }
      specialize (G _ _ A1 _ Hx). unfold c_end in *. lia. }
    rewrite (chunk_next_mid pre post (c_off p)).
    2: { intros c Hx. apply Hends. exact Hx. }
    2: { intros c Hx. apply Hpost in Hx. pose proof (Hpre p Hin). lia. }
    assert (Hfdo : exists fdo, (if c_end p <? off then off else c_end p) = fdo /\ off <= fdo /\ c_end p <= fdo /\
       (fdo = off \/ fdo = c_end p)).
    { destruct (N.ltb_spec (c_end p) off); eexists; split; try reflexivity; lia. }
    destruct Hfdo as (fdo & -> & F1 & F2 & F3).
    change (match queue_loop (S (length (pre ++ post))) (pre ++ post) off (off + blen d) d fdo (hd_error post) false with
            | Some (tree', fdo'', new) => _ | None => None end)
      with (finish off (off + blen d) d (queue_loop (S (length (pre ++ post))) (pre ++ post) off (off + blen d) d fdo (hd_error post) false)).
    destruct (queue_loop_spec D off d lo Hd post pre fdo false (S (length (pre ++ post)))) as (t2 & n2 & G1 & G2 & G3 & G4).
    + rewrite app_length. lia.
    + exact Hw.
    + intros c Hx. apply Hends in Hx. lia.
    + destruct post as [|x post']; [exact I|]. pose proof (Hpost x (or_introl eq_refl)). cbn [wfc] in Hw2. destruct F3 as [-> | ->]; [lia|tauto].
    + lia.
    + lia.
    + exists t2, n2. split; [exact G1|]. split; [exact G2|]. split; [|intros Hn; apply G4 in Hn; tauto].
      intros i. rewrite G3. split; [intros [Hi|Hi]; [tauto|right; lia]|]. intros [Hi|Hi]; [tauto|].
      destruct (N.lt_ge_cases i fdo); [|right; lia]. left. exists p. split; [apply in_or_app; left; exact Hin|].
      pose proof (Hpre p Hin). destruct F3 as [-> | ->]; lia.
Qed.

(** ** Delivery *)

(** What a delivery step keeps and adds. *)
Definition total (ps : list piece) : list N := concat (map fst ps).

Lemma total_app : forall a b, total (a ++ b) = total a ++ total b.
Proof. intros. unfold total. rewrite map_app, concat_app. reflexivity. Qed.

Definition fin_last (ps : list piece) : Prop := forall a p b, ps = a ++ p :: b -> snd p = true -> b = [].

(** Fields that delivery does not change. *)
Definition same_frame (r r' : rx) : Prop :=
  rx_fin_received r' = rx_fin_received r /\ rx_reset_received r' = rx_reset_received r /\
  rx_reset_signalled r' = rx_reset_signalled r /\ rx_fin_offset r' = rx_fin_offset r /\ rx_maxdata r' = rx_maxdata r.

Lemma same_frame_refl : forall r, same_frame r r.
Proof. intros r. repeat split. Qed.
Lemma same_frame_trans : forall a b c, same_frame a b -> same_frame b c -> same_frame a c.
Proof. intros a b c (A1 & A2 & A3 & A4 & A5) (B1 & B2 & B3 & B4 & B5). repeat split; congruence. Qed.

(** Output so far is the prefix, FIN is signalled with the last piece only. *)
Definition delivered (D : list N) (r : rx) (out : list piece) : Prop :=
  rx_consumed r <= blen D /\ total out = firstn (N.to_nat (rx_consumed r)) D /\
  rx_fin_signalled r = existsb snd out /\ fin_last out /\
  (rx_fin_signalled r = true -> rx_fin_received r = true /\ rx_fin_offset r <= rx_consumed r).

Lemma fin_last_snoc : forall out p, existsb snd out = false -> fin_last (out ++ [p]).
Proof.
  intros out p H a q b E Hq. destruct b as [|y b]; [reflexivity|exfalso].
  assert (Hin : In q out).
  { clear - E. revert a E. induction out as [|o out IH]; intros a E.
    - destruct a as [|x [|z a]]; cbn [app] in E; discriminate.
    - destruct a as [|x a]; cbn [app] in E; inversion E; subst; [left; reflexivity|]. right. eapply IH. eassumption. }
  assert (existsb snd out = true) by (apply existsb_exists; exists q; auto). congruence.
Qed.

Lemma existsb_snoc : forall (out : list piece) (p : piece), existsb snd out = false -> existsb snd (out ++ [p]) = snd p.
Proof.
  induction out as [|o out IH]; intros p H; cbn [app existsb] in *; [apply orb_false_r|].
  apply orb_false_elim in H. destruct H as [-> H]. apply IH. exact H.
Qed.

(** One call of the chunk callback with the next bytes. *)
Lemma chunk_callback_spec : forall D r out d, delivered D r out ->
  slice_of D (rx_consumed r) d -> (rx_fin_signalled r = true -> d = []) ->
  exists r' ps, chunk_callback r d = (r', ps) /\ same_frame r r' /\ rx_chunks r' = rx_chunks r /\
    rx_consumed r' = rx_consumed r + blen d /\ delivered D r' (out ++ ps) /\
    (rx_fin_signalled r' = false -> rx_fin_received r = true -> rx_consumed r' < rx_fin_offset r).
Proof.
  intros D r out d (H1 & H2 & H3 & H4 & H5) (S1 & S2) Hf. unfold chunk_callback.
  eexists _, _. split; [reflexivity|]. split; [repeat split|]. split; [reflexivity|]. split; [reflexivity|].
  cbn [rx_fin_signalled rx_fin_received rx_consumed rx_fin_offset].
  set (fin_now := (rx_fin_offset r <=? rx_consumed r + blen d) && rx_fin_received r && negb (rx_fin_signalled r)).
  assert (Htot : total out ++ d = firstn (N.to_nat (rx_consumed r + blen d)) D).
  { rewrite H2, S2 at 1. rewrite <- !slice_zero. rewrite <- slice_app, N.add_0_l. reflexivity. }
  split.
  - unfold delivered. cbn [rx_fin_signalled rx_fin_received rx_consumed rx_fin_offset].
    destruct (rx_fin_signalled r) eqn:Es; cbn [orb].
    + rewrite (Hf eq_refl) in *. rewrite blen_nil, N.add_0_r in *.
      assert (fin_now = false) as -> by (unfold fin_now; cbn [negb]; rewrite andb_false_r; reflexivity).
      cbn. rewrite app_nil_r. split; [assumption|]. split; [exact H2|]. split; [exact H3|]. split; [exact H4|exact H5].
    + split; [exact S1|]. symmetry in H3. destruct ((0 <? blen d) || fin_now) eqn:Ec.
      * split; [rewrite total_app; unfold total at 2; cbn [map fst concat]; rewrite app_nil_r; exact Htot|].
        split; [symmetry; exact (existsb_snoc out (d, fin_now) H3)|].
        split; [apply fin_last_snoc; exact H3|]. intros Hn. unfold fin_now in Hn.
        apply andb_prop in Hn. destruct Hn as [Hn _]. apply andb_prop in Hn. destruct Hn as [Hn1 Hn2].
        split; [exact Hn2|]. apply N.leb_le. exact Hn1.
      * apply orb_false_elim in Ec. destruct Ec as [Ec1 Ec2]. rewrite Ec2.
        assert (d = []) by (apply blen_zero; lia). subst d. rewrite app_nil_r in *.
        split; [exact Htot|]. split; [symmetry; exact H3|]. split; [exact H4|discriminate].
  - intros Hn Hr. apply orb_false_elim in Hn. destruct Hn as [Hs Hn]. unfold fin_now in Hn. rewrite Hr, Hs in Hn.
    cbn [negb] in Hn. rewrite !andb_true_r in Hn. apply N.leb_gt in Hn. exact Hn.
Qed.

Lemma set_chunks_delivered : forall D r out t, delivered D r out -> delivered D (set_chunks r t) out.
Proof. intros D r out t H. exact H. Qed.

Lemma drain_spec : forall D tree r out lo, delivered D r out -> wfc D lo tree ->
  (forall c, In c tree -> c_end c <= rx_fin_offset r) ->
  exists r' ps, drain tree r = (r', ps) /\ same_frame r r' /\ delivered D r' (out ++ ps) /\
    wfc D (rx_consumed r' + 1) (rx_chunks r') /\ rx_consumed r <= rx_consumed r' /\
    (forall c, In c (rx_chunks r') -> In c tree) /\
    (forall i, i < rx_consumed r' \/ incs (rx_chunks r') i <-> i < rx_consumed r \/ incs tree i).
Proof.
  intros D. induction tree as [|c t IH]; intros r out lo Hd Hw He; cbn [drain].
  - eexists _, _. split; [reflexivity|]. split; [repeat split|]. rewrite app_nil_r. split; [exact Hd|]. split; [exact I|].
    split; [cbn [set_chunks rx_consumed]; lia|]. split; [intros c []|]. intros i. reflexivity.
  - cbn [wfc] in Hw. destruct Hw as (W1 & W2 & W3 & W4).
    destruct (N.leb_spec (c_off c) (rx_consumed r)) as [Hc|Hc].
    + destruct (N.leb_spec (rx_consumed r - c_off c) (blen (c_data c))) as [Hs|Hs].
      * rewrite (skipn_slice D (c_off c) (c_data c)) by assumption.
        replace (c_off c + (rx_consumed r - c_off c)) with (rx_consumed r) by lia.
        set (len := blen (c_data c) - (rx_consumed r - c_off c)).
        assert (Hle : rx_consumed r + len <= blen D) by (unfold len; destruct W3; lia).
        pose proof (slice_is D (rx_consumed r) len Hle) as Hsl.
        pose proof (slice_len D (rx_consumed r) len Hle) as Hlen.
        destruct (chunk_callback_spec D r out (slice D (rx_consumed r) len) Hd Hsl) as (r1 & p1 & E1 & F1 & C1 & N1 & D1 & _).
        { intros Hsig. destruct Hd as (_ & _ & _ & _ & G). apply G in Hsig. destruct Hsig as [_ G2].
          apply blen_zero. rewrite Hlen. unfold len. pose proof (He c (or_introl eq_refl)) as G3. unfold c_end in G3. lia. }
        rewrite E1. rewrite Hlen in N1.
        destruct (IH r1 (out ++ p1) (c_end c) D1 W4) as (r2 & p2 & E2 & F2 & D2 & G2 & N2 & I2 & V2).
        { intros x Hx. destruct F1 as (_ & _ & _ & -> & _). apply He. right. exact Hx. }
        rewrite E2. eexists _, _. split; [reflexivity|]. split; [eapply same_frame_trans; eassumption|].
        rewrite app_assoc. split; [exact D2|]. split; [exact G2|]. split; [lia|]. split; [intros x Hx; right; apply I2; exact Hx|].
        intros i. rewrite V2, N1, incs_cons. unfold len, c_end. split; intros [Hi|Hi]; try tauto.
        { destruct (N.lt_ge_cases i (rx_consumed r)); [tauto|]. right. left. lia. }
        { left. lia. }
        { destruct Hi as [Hi|Hi]; [left; lia|tauto]. }
      * destruct (IH r out (c_end c) Hd W4) as (r2 & p2 & E2 & F2 & D2 & G2 & N2 & I2 & V2).
        { intros x Hx. apply He. right. exact Hx. }
        exists r2, p2. split; [exact E2|]. split; [exact F2|]. split; [exact D2|]. split; [exact G2|]. split; [exact N2|].
        split; [intros x Hx; right; apply I2; exact Hx|].
        intros i. rewrite V2, incs_cons. unfold c_end. split; intros [Hi|Hi]; try tauto.
        destruct Hi as [Hi|Hi]; [left; lia|tauto].
    + eexists _, _. split; [reflexivity|]. split; [repeat split|]. rewrite app_nil_r. split; [exact Hd|].
      split; [cbn [set_chunks rx_chunks rx_consumed wfc]; split; [lia|auto]|].
      split; [cbn [set_chunks rx_consumed]; lia|]. split; [intros x Hx; exact Hx|]. intros i. reflexivity.
Qed.

Lemma data_callback_spec : forall D r out lo, delivered D r out -> wfc D lo (rx_chunks r) ->
  (forall c, In c (rx_chunks r) -> c_end c <= rx_fin_offset r) ->
  exists r' ps, data_callback r = (r', ps) /\ same_frame r r' /\ delivered D r' (out ++ ps) /\
    wfc D (rx_consumed r' + 1) (rx_chunks r') /\
    (forall c, In c (rx_chunks r') -> c_end c <= rx_fin_offset r') /\
    (forall i, i < rx_consumed r' \/ incs (rx_chunks r') i <-> i < rx_consumed r \/ incs (rx_chunks r) i) /\
    (rx_fin_received r' = true -> rx_fin_offset r' <= rx_consumed r' -> rx_fin_signalled r' = true).
Proof.
  intros D r out lo Hd Hw He. unfold data_callback.
  destruct (drain_spec D (rx_chunks r) r out lo Hd Hw He) as (r1 & p1 & E1 & F1 & D1 & G1 & N1 & I1 & V1).
  rewrite E1.
  destruct (chunk_callback_spec D r1 (out ++ p1) []) as (r2 & p2 & E2 & F2 & C2 & N2 & D2 & S2).
  - exact D1.
  - split; [rewrite blen_nil; destruct D1; lia|]. rewrite blen_nil. reflexivity.
  - reflexivity.
  - rewrite E2. rewrite blen_nil, N.add_0_r in N2. eexists _, _. split; [reflexivity|].
    split; [eapply same_frame_trans; eassumption|]. rewrite app_assoc. split; [exact D2|].
    rewrite N2, C2. split; [exact G1|]. split; [|split; [exact V1|]].
    + intros c Hc. destruct F2 as (_ & _ & _ & -> & _). destruct F1 as (_ & _ & _ & -> & _). apply He. apply I1. exact Hc.
    + intros Hr Ho. destruct F2 as (R & _ & _ & O & _). rewrite R in Hr. rewrite O in Ho. rewrite N2 in S2.
      destruct (rx_fin_signalled r2); [reflexivity|]. specialize (S2 eq_refl Hr). lia.
Qed.

(** ** The invariant of the receiving half *)

Definition rx_inv (D : list N) (fs : list sframe) (r : rx) (out : list piece) : Prop :=
  delivered D r out /\ wfc D (rx_consumed r + 1) (rx_chunks r) /\
  (forall i, i < rx_consumed r \/ incs (rx_chunks r) i <-> covered fs i) /\
  (forall f, In f fs -> f_end f <= rx_fin_offset r) /\
  (rx_fin_offset r = 0 \/ exists f, In f fs /\ f_end f = rx_fin_offset r) /\
  (forall c, In c (rx_chunks r) -> c_end c <= rx_fin_offset r) /\
  rx_fin_received r = existsb f_fin fs /\
  (rx_fin_received r = true -> rx_fin_offset r <= rx_consumed r -> rx_fin_signalled r = true).

(** Update of fin_received and fin_offset before delivery (frames.c 1210-1229,
    when there is no error). *)
Definition rx_note (r : rx) (fin : bool) (fend : N) : rx :=
  mk_rx (rx_fin_received r || fin) (rx_fin_signalled r) (rx_reset_received r) (rx_reset_signalled r)
        (rx_consumed r) (N.max (rx_fin_offset r) fend) (rx_maxdata r) (rx_chunks r).

Lemma rx_inv_init : forall D md, rx_inv D [] (mk_rx false false false false 0 0 md []) [].
Proof.
  intros D md. split; [|split; [exact I|split; [|split; [intros f []|split; [left; reflexivity|split; [intros c []|split; [reflexivity|discriminate]]]]]]].
  - split; [cbn [rx_consumed]; lia|]. split; [reflexivity|]. split; [reflexivity|].
    split; [intros a p b E; destruct a; discriminate|discriminate].
  - intros i. cbn [rx_consumed rx_chunks]. split.
    + intros [H|(c & [] & _)]. lia.
    + intros (f & [] & _).
Qed.

Lemma covered_cons : forall f fs i, covered (f :: fs) i <-> f_off f <= i < f_end f \/ covered fs i.
Proof.
  intros f fs i. unfold covered. split.
  - intros (x & [<-|Hx] & Hi); [left; exact Hi|right; eauto].
  - intros [Hi|(x & Hx & Hi)]; [exists f; split; [left; reflexivity|exact Hi]|exists x; split; [right; exact Hx|exact Hi]].
Qed.

(** Arrival of a frame that passed the checks of the final size. *)
Lemma rx_step : forall D fs r out f, rx_inv D fs r out -> Forall (carries D) fs -> carries D f ->
  exists r' ps, rx_input (rx_note r (f_fin f) (f_end f)) (f_off f) (f_data f) (f_fin f && negb (rx_fin_received r)) = Some (r', ps) /\
    rx_inv D (f :: fs) r' (out ++ ps) /\
    rx_reset_received r' = rx_reset_received r /\ rx_reset_signalled r' = rx_reset_signalled r /\
    rx_maxdata r' = rx_maxdata r /\ rx_fin_offset r' = N.max (rx_fin_offset r) (f_end f) /\
    rx_fin_received r' = rx_fin_received r || f_fin f.
Proof.
  intros D fs r out f (Hd & Hw & Hv & Ho & Hx & He & Hr & Hs) Hfs Hf.
  pose proof (carries_slice D f Hf) as Hsl. pose proof Hsl as [Hsl1 Hsl2].
  (* once FIN is known the final size is the length of D *)
  assert (Hfinal : rx_fin_received r = true -> rx_fin_offset r = blen D).
  { intros E. rewrite Hr in E. apply existsb_exists in E. destruct E as (g & Hg & Hgf).
    rewrite Forall_forall in Hfs. pose proof (Hfs g Hg) as [_ Gf]. specialize (Gf Hgf).
    apply N.le_antisymm; [|rewrite <- Gf; apply Ho; exact Hg].
    destruct Hx as [->|(h & Hh & <-)]; [lia|]. pose proof (carries_slice D h (Hfs h Hh)) as [G _]. exact G. }
  set (r0 := rx_note r (f_fin f) (f_end f)).
  assert (Hd0 : delivered D r0 out).
  { destruct Hd as (A1 & A2 & A3 & A4 & A5). unfold r0, rx_note. split; [exact A1|]. split; [exact A2|]. split; [exact A3|]. split; [exact A4|].
    cbn [rx_fin_signalled rx_fin_received rx_fin_offset rx_consumed]. intros E. destruct (A5 E) as [B1 B2]. rewrite B1. split; [reflexivity|].
    specialize (Hfinal B1). unfold f_end. lia. }
  assert (Ho0 : forall g, In g (f :: fs) -> f_end g <= rx_fin_offset r0).
  { intros g [<-|Hg]; unfold r0, rx_note; cbn [rx_fin_offset]; [lia|]. apply Ho in Hg. lia. }
  assert (He0 : forall c, In c (rx_chunks r0) -> c_end c <= rx_fin_offset r0).
  { intros c Hc. unfold r0, rx_note in *. cbn [rx_fin_offset rx_chunks] in *. apply He in Hc. lia. }
  assert (Hx0 : rx_fin_offset r0 = 0 \/ exists g, In g (f :: fs) /\ f_end g = rx_fin_offset r0).
  { unfold r0, rx_note; cbn [rx_fin_offset]. destruct (N.max_spec (rx_fin_offset r) (f_end f)) as [[_ ->]|[_ ->]].
    - right. exists f. split; [left; reflexivity|reflexivity].
    - destruct Hx as [Hx|(g & Hg & Hx)]; [left; exact Hx|right; exists g; split; [right; exact Hg|exact Hx]]. }
  assert (Hr0 : rx_fin_received r0 = existsb f_fin (f :: fs)).
  { unfold r0, rx_note. cbn [rx_fin_received existsb]. rewrite Hr. apply orb_comm. }
  unfold rx_input. fold r0.
  change (rx_consumed r0) with (rx_consumed r). change (rx_chunks r0) with (rx_chunks r) in *.
  destruct (N.leb_spec (f_off f) (rx_consumed r)) as [H1|H1].
  - destruct (N.leb_spec (rx_consumed r) (f_off f + blen (f_data f))) as [H2|H2].
    + (* in sequence *)
      rewrite (skipn_slice D (f_off f) (f_data f)) by (try assumption; lia).
      replace (f_off f + (rx_consumed r - f_off f)) with (rx_consumed r) by lia.
      set (len := blen (f_data f) - (rx_consumed r - f_off f)).
      assert (Hle : rx_consumed r + len <= blen D) by (unfold len; lia).
      pose proof (slice_is D (rx_consumed r) len Hle) as Hss. pose proof (slice_len D (rx_consumed r) len Hle) as Hlen.
      destruct (chunk_callback_spec D r0 out (slice D (rx_consumed r) len) Hd0 Hss) as (r1 & p1 & E1 & F1 & C1 & N1 & D1 & _).
      { intros E. change (rx_fin_signalled r0) with (rx_fin_signalled r) in E. destruct Hd as (_ & _ & _ & _ & G). apply G in E.
        destruct E as [G1 G2]. specialize (Hfinal G1). apply blen_zero. rewrite Hlen. unfold len, f_end in *. lia. }
      rewrite E1. change (rx_consumed r0) with (rx_consumed r) in N1. rewrite Hlen in N1.
      change (rx_chunks r0) with (rx_chunks r) in C1.
      destruct (data_callback_spec D r1 (out ++ p1) (rx_consumed r + 1) D1) as (r2 & p2 & E2 & F2 & D2 & W2 & X2 & V2 & S2).
      { rewrite C1. exact Hw. }
      { rewrite C1. destruct F1 as (_ & _ & _ & -> & _). exact He0. }
      rewrite E2. eexists _, _. split; [reflexivity|]. rewrite app_assoc.
      destruct (same_frame_trans _ _ _ F1 F2) as (A1 & A2 & A3 & A4 & A5).
      split; [|unfold r0, rx_note in A1, A2, A3, A4, A5; cbn in A1, A2, A3, A4, A5; repeat split; assumption].
      split; [exact D2|]. split; [exact W2|]. split.
      { intros i. rewrite V2, C1, N1, covered_cons. unfold len, f_end. rewrite <- Hv.
        split; intros [Hi|Hi]; try tauto.
        - destruct (N.lt_ge_cases i (rx_consumed r)); [tauto|]. left. lia.
        - left. lia.
        - destruct Hi as [Hi|Hi]; [left; lia|tauto]. }
      rewrite A4. split; [exact Ho0|]. split; [exact Hx0|]. split; [intros c Hc; rewrite <- A4; apply X2; exact Hc|]. split; [rewrite A1; exact Hr0|].
      intros B1 B2. apply S2; [exact B1|rewrite A4; exact B2].
    + (* duplicate *)
      eexists _, _. split; [reflexivity|]. rewrite app_nil_r. split; [|repeat split].
      split; [exact Hd0|]. split; [exact Hw|]. split.
      { intros i. change (rx_consumed r0) with (rx_consumed r). change (rx_chunks r0) with (rx_chunks r).
        rewrite covered_cons, <- Hv. unfold f_end. split; [tauto|]. intros [Hi|Hi]; [left; lia|tauto]. }
      split; [exact Ho0|]. split; [exact Hx0|]. split; [exact He0|]. split; [exact Hr0|].
      unfold r0, rx_note. cbn [rx_fin_received rx_fin_offset rx_consumed rx_fin_signalled]. intros B1 B2.
      destruct (rx_fin_received r) eqn:Er.
      * apply Hs; [reflexivity|]. lia.
      * cbn [orb] in B1. destruct Hf as [_ Hff]. specialize (Hff B1). unfold f_end in Hff. destruct Hd. lia.
  - (* out of sequence *)
    destruct (queue_spec D (rx_chunks r) (rx_consumed r) (rx_consumed r + 1) (f_off f) (f_data f) Hw Hsl) as (t2 & n2 & Q1 & Q2 & Q3 & Q4); [lia|lia|].
    rewrite Q1.
    assert (Het : forall c, In c t2 -> c_end c <= rx_fin_offset r0).
    { intros c Hc. destruct (wfc_in _ _ _ _ Q2 Hc) as (_ & Hp & _).
      assert (Hin : incs t2 (c_end c - 1)) by (exists c; split; [exact Hc|]; unfold c_end; lia).
      apply Q3 in Hin. destruct Hin as [(g & Hg & Hgi)|Hin].
      - apply He0 in Hg. lia.
      - assert (Gf : f_end f <= rx_fin_offset r0) by (apply Ho0; left; reflexivity). unfold f_end in Gf. lia. }
    assert (Hcov : forall i, i < rx_consumed r \/ incs t2 i <-> covered (f :: fs) i).
    { intros i. rewrite Q3, covered_cons, <- Hv. unfold f_end. tauto. }
    destruct ((f_fin f && negb (rx_fin_received r)) || n2) eqn:En.
    + destruct (data_callback_spec D (set_chunks r0 t2) out (rx_consumed r + 1)) as (r2 & p2 & E2 & F2 & D2 & W2 & X2 & V2 & S2).
      { apply set_chunks_delivered. exact Hd0. }
      { exact Q2. }
      { exact Het. }
      rewrite E2. eexists _, _. split; [reflexivity|].
      destruct F2 as (A1 & A2 & A3 & A4 & A5). cbn [set_chunks rx_fin_received rx_reset_received rx_reset_signalled rx_fin_offset rx_maxdata] in *.
      split; [|unfold r0, rx_note in A1, A2, A3, A4, A5; cbn in A1, A2, A3, A4, A5; repeat split; assumption].
      split; [exact D2|]. split; [exact W2|]. split.
      { intros i. rewrite V2. cbn [set_chunks rx_consumed rx_chunks]. apply Hcov. }
      rewrite A4. split; [exact Ho0|]. split; [exact Hx0|]. split; [intros c Hc; rewrite <- A4; apply X2; exact Hc|]. split; [rewrite A1; exact Hr0|].
      intros B1 B2. apply S2; [exact B1|rewrite A4; exact B2].
    + apply orb_false_elim in En. destruct En as [En1 En2]. specialize (Q4 En2). subst t2.
      eexists _, _. split; [reflexivity|]. rewrite app_nil_r. split; [|repeat split].
      split; [apply set_chunks_delivered; exact Hd0|]. split; [exact Hw|]. split.
      { intros i. cbn [set_chunks rx_consumed rx_chunks]. change (rx_consumed r0) with (rx_consumed r). apply Hcov. }
      split; [exact Ho0|]. split; [exact Hx0|]. split; [exact He0|]. split; [exact Hr0|].
      unfold r0, rx_note, set_chunks. cbn [rx_fin_received rx_fin_offset rx_consumed rx_fin_signalled]. intros B1 B2.
      destruct (rx_fin_received r) eqn:Er.
      * apply Hs; [reflexivity|]. lia.
      * cbn [orb] in B1. rewrite B1 in En1. cbn in En1. discriminate.
Qed.
