(** Proofs about the list of miscellaneous frames. *)
From Verif Require Import Base Misc_model Misc_spec.

Lemma upd_same : forall h a v, upd h a v a = v.
Proof. intros. unfold upd. rewrite Nat.eqb_refl. reflexivity. Qed.
Lemma upd_other : forall h a v b, a <> b -> upd h a v b = h b.
Proof. intros. unfold upd. destruct (Nat.eqb_spec a b); [contradiction|reflexivity]. Qed.

Lemma linked_app : forall h l1 l2 p a q b, linked h p a (l1 ++ l2) q b <-> exists r c, linked h p a l1 r c /\ linked h r c l2 q b.
Proof.
  intros h l1. induction l1 as [|[x it] l1 IH]; intros l2 p a q b; simpl.
  - split; [intros H; exists p, a; auto|intros [r [c [[-> ->] H]]]; exact H].
  - split.
    + intros [A [B [nx [C D]]]]. apply IH in D. destruct D as [r [c [D E]]]. exists r, c. split; [|exact E]. split; [exact A|]. split; [exact B|]. exists nx. auto.
    + intros [r [c [[A [B [nx [C D]]]] E]]]. split; [exact A|]. split; [exact B|]. exists nx. split; [exact C|]. apply IH. exists r, c. auto.
Qed.
Lemma linked_frame : forall h y v l p a q b, ~ In y (map fst l) -> linked h p a l q b -> linked (upd h y v) p a l q b.
Proof.
  intros h y v l. induction l as [|[x it] l IH]; intros p a q b N0 H; simpl in *; [exact H|].
  destruct H as [A [B [nx [C D]]]]. split; [exact A|]. split; [exact B|]. exists nx. rewrite upd_other by (intros Q; apply N0; left; congruence). split; [exact C|]. apply IH; [tauto|exact D].
Qed.
(** The node before, and its link. *)
Lemma linked_relink : forall h l y it p a q b c, linked h p a (l ++ [(y, it)]) q b -> NoDup (map fst (l ++ [(y, it)])) ->
  exists pr, h y = Some (mk_node b pr it) /\ q = y /\ y <> 0%nat /\ linked (upd h y (Some (mk_node c pr it))) p a (l ++ [(y, it)]) y c.
Proof.
  intros h l y it p a q b c H ND. apply linked_app in H. destruct H as [r [d [H1 H2]]]. simpl in H2.
  destruct H2 as [-> [Z [nx [X [Q ->]]]]]. exists r. split; [exact X|]. split; [congruence|]. split; [exact Z|].
  apply linked_app. exists r, y. split.
  - apply linked_frame; [|exact H1]. rewrite map_app in ND. simpl in ND. apply NoDup_remove_2 in ND. rewrite app_nil_r in ND. exact ND.
  - simpl. split; [reflexivity|]. split; [exact Z|]. exists c. rewrite upd_same. auto.
Qed.
Lemma linked_prev : forall h l y it p a q b c, linked h p a ((y, it) :: l) q b -> NoDup (map fst ((y, it) :: l)) ->
  exists nx, h y = Some (mk_node nx p it) /\ a = y /\ y <> 0%nat /\ linked (upd h y (Some (mk_node nx c it))) c a ((y, it) :: l) q b.
Proof.
  intros h l y it p a q b c H ND. simpl in H. destruct H as [-> [Z [nx [X L]]]]. exists nx. split; [exact X|]. split; [reflexivity|]. split; [exact Z|].
  simpl. split; [reflexivity|]. split; [exact Z|]. exists nx. rewrite upd_same. split; [reflexivity|]. apply linked_frame; [inversion ND; assumption|exact L].
Qed.
Lemma snoc : forall (A : Type) (l : list A), l = [] \/ exists l' x, l = l' ++ [x].
Proof. intros A l. destruct l as [|x l] using rev_ind; [left; reflexivity|right; eauto]. Qed.
Lemma linked_end : forall h l p a q b, linked h p a l q b -> l <> [] -> In q (map fst l).
Proof.
  intros h l. induction l as [|[x it] l IH]; intros p a q b H Q; [congruence|]. simpl in *. destruct H as [A [B [nx [C D]]]].
  destruct l as [|y l]; [left; simpl in D; tauto|right; eapply IH; [exact D|discriminate]].
Qed.

Lemma nodup_left : forall (a b : list nat), NoDup (a ++ b) -> NoDup a.
Proof. induction a as [|x a IH]; intros b H; [constructor|]. inversion H; subst. constructor; [intros Q; apply H2; apply in_or_app; auto|eapply IH; eassumption]. Qed.
Lemma nodup_right : forall (a b : list nat), NoDup (a ++ b) -> NoDup b.
Proof. induction a as [|x a IH]; intros b H; [exact H|]. inversion H; subst. apply IH. assumption. Qed.

Lemma queue_holds : forall m l a it, holds m l -> a <> 0%nat -> ml_heap m a = None ->
  exists m', queue a it m = Some (m', true) /\ holds m' (l ++ [(a, it)]).
Proof.
  intros m l a it [L ND] Z F. unfold queue. destruct (Nat.eqb_spec a 0); [contradiction|].
  assert (FR : forall l' p b q c, linked (ml_heap m) p b l' q c -> ~ In a (map fst l')).
  { induction l' as [|[x i] l' IH]; intros p b q c H; simpl in *; [tauto|]. destruct H as [A [B [nx [C D]]]]. intros [E|E]; [congruence|]. eapply IH; eassumption. }
  assert (NA : ~ In a (map fst l)) by (eapply FR; exact L).
  assert (ND' : NoDup (map fst (l ++ [(a, it)]))).
  { rewrite map_app. simpl. apply NoDup_Add with (a := a) (l := map fst l); [|auto]. rewrite <- (app_nil_r (map fst l)) at 1. apply Add_app. }
  destruct (snoc _ l) as [->|[l' [[y iy] ->]]].
  - simpl in L. destruct L as [L1 L2]. rewrite <- L1. simpl. eexists. split; [reflexivity|]. split; [|exact ND'].
    simpl. split; [reflexivity|]. split; [exact Z|]. exists 0%nat. rewrite upd_same. auto.
  - destruct (linked_relink _ _ _ _ _ _ _ _ a L ND) as [pr [X [Q [Y R]]]]. rewrite Q. destruct (Nat.eqb_spec y 0); [contradiction|]. rewrite X.
    eexists. split; [reflexivity|]. split; [|exact ND']. cbn [ml_heap ml_first ml_last nd_prev nd_item].
    apply linked_app. exists y, a. split; [apply linked_frame; [exact NA|exact R]|].
    simpl. split; [reflexivity|]. split; [exact Z|]. exists 0%nat. rewrite upd_same. auto.
Qed.

Lemma delete_holds : forall m l1 x it l2, holds m (l1 ++ (x, it) :: l2) ->
  exists m', delete x m = Some m' /\ holds m' (l1 ++ l2) /\ ml_heap m' x = None /\
    (forall y, ml_heap m y = None -> ml_heap m' y = None).
Proof.
  intros m l1 x it l2 [L ND]. apply linked_app in L. destruct L as [r [c [L1 L2]]].
  pose proof L2 as L2'. simpl in L2'. destruct L2' as [-> [Z [nx [X L3]]]]. clear L2.
  rewrite map_app in ND. simpl in ND.
  assert (NX : ~ In x (map fst (l1 ++ l2))) by (rewrite map_app; apply NoDup_remove_2 in ND; exact ND).
  assert (ND' : NoDup (map fst (l1 ++ l2))) by (rewrite map_app; apply NoDup_remove_1 in ND; exact ND).
  assert (N1 : ~ In x (map fst l1)) by (rewrite map_app in NX; intros Q; apply NX; apply in_or_app; auto).
  assert (N2 : ~ In x (map fst l2)) by (rewrite map_app in NX; intros Q; apply NX; apply in_or_app; auto).
  assert (DJ : forall y, In y (map fst l1) -> In y (map fst l2) -> False).
  { intros y I1 I2. rewrite map_app in ND'. clear - ND' I1 I2. induction (map fst l1) as [|z t IH]; [contradiction|].
    simpl in ND'. inversion ND'; subst. destruct I1 as [->|I1]; [apply H1; apply in_or_app; auto|apply IH; assumption]. }
  assert (NDa : NoDup (map fst l1)) by (rewrite map_app in ND'; eapply nodup_left; exact ND').
  assert (NDb : NoDup (map fst l2)) by (rewrite map_app in ND'; eapply nodup_right; exact ND').
  unfold delete. rewrite X. cbn [nd_next nd_prev nd_item].
  (* the node after *)
  assert (S1 : exists h1 lst, (if Nat.eqb nx 0 then Some (ml_heap m, r)
      else match ml_heap m nx with None => None | Some t => Some (upd (ml_heap m) nx (Some (mk_node (nd_next t) r (nd_item t))), ml_last m) end) = Some (h1, lst) /\
      linked h1 0 (ml_first m) l1 r x /\ linked h1 r nx l2 lst 0 /\ (forall y, ml_heap m y = None -> h1 y = None)).
  { destruct l2 as [|[z iz] l2].
    - simpl in L3. destruct L3 as [_ ->]. simpl. do 2 eexists. split; [reflexivity|]. split; [exact L1|]. split; [simpl; auto|auto].
    - destruct (linked_prev _ _ _ _ _ _ _ _ r L3 NDb) as [n2 [Y [-> [ZZ R]]]]. destruct (Nat.eqb_spec z 0); [contradiction|]. rewrite Y.
      cbn [nd_next nd_item]. do 2 eexists. split; [reflexivity|].
      split; [apply linked_frame; [|exact L1]; intros Q; eapply DJ; [exact Q|left; reflexivity]|]. split; [exact R|].
      intros y H. destruct (Nat.eq_dec z y); [subst; congruence|rewrite upd_other by assumption; exact H]. }
  destruct S1 as [h1 [lst [E1 [M1 [M2 M3]]]]]. rewrite E1.
  destruct (snoc _ l1) as [->|[l1' [[y iy] ->]]].
  - simpl in M1. destruct M1 as [<- M1]. simpl. eexists. split; [reflexivity|]. cbn [ml_heap ml_first ml_last]. split; [|split; [apply upd_same|]].
    + split; [|exact ND']. simpl. apply linked_frame; assumption.
    + intros y H. destruct (Nat.eq_dec x y); [subst; apply upd_same|rewrite upd_other by assumption; auto].
  - destruct (linked_relink _ _ _ _ _ _ _ _ nx M1 NDa) as [pr [Y [Q [ZZ R]]]]. subst r. destruct (Nat.eqb_spec y 0); [contradiction|]. rewrite Y.
    cbn [nd_prev nd_item]. eexists. split; [reflexivity|]. cbn [ml_heap ml_first ml_last]. split; [|split; [apply upd_same|]].
    + split; [|exact ND']. cbn [ml_heap ml_first ml_last]. apply linked_frame; [exact NX|]. apply linked_app. exists y, nx. split; [exact R|].
      apply linked_frame; [|exact M2]. intros I. eapply DJ; [|exact I]. rewrite map_app. apply in_or_app. right. left. reflexivity.
    + intros u H. destruct (Nat.eq_dec x u); [subst; apply upd_same|]. rewrite upd_other by assumption.
      destruct (Nat.eq_dec y u); [subst; apply M3 in H; congruence|]. rewrite upd_other by assumption. auto.
Qed.

Definition other (pc : N) (it : item) : bool := negb (it_pc it =? pc).
Definition mine (pc : N) (it : item) : bool := it_pc it =? pc.

Lemma find_thm : forall pc h l fuel p a q, linked h p a l q 0 -> (length l < fuel)%nat ->
  (filter (mine pc) (map snd l) = [] /\ find_first fuel h pc a = Some 0%nat) \/
  (exists l1 x it l2, l = l1 ++ (x, it) :: l2 /\ it_pc it = pc /\ Forall (fun i => it_pc i <> pc) (map snd l1) /\
     find_first fuel h pc a = Some x /\ x <> 0%nat /\ exists n, h x = Some n /\ nd_item n = it).
Proof.
  intros pc h l. induction l as [|[x it] l IH]; intros fuel p a q H F; simpl in *.
  - destruct H as [_ ->]. left. split; [reflexivity|]. destruct fuel; [lia|]. reflexivity.
  - destruct H as [-> [Z [nx [X L]]]]. destruct fuel as [|f]; [lia|]. simpl. destruct (Nat.eqb_spec x 0); [contradiction|]. rewrite X. cbn [nd_item nd_next].
    unfold mine at 1. destruct (it_pc it =? pc) eqn:E.
    + right. exists [], x, it, l. split; [reflexivity|]. split; [lia|]. split; [constructor|]. split; [reflexivity|]. split; [exact Z|]. eexists. split; [exact X|reflexivity].
    + destruct (IH f x nx q L ltac:(lia)) as [[A B]|[l1 [y [iy [l2 [A [B [C D]]]]]]]]; [left; auto|].
      right. exists ((x, it) :: l1), y, iy, l2. split; [rewrite A; reflexivity|]. split; [exact B|]. split; [simpl; constructor; [lia|exact C]|]. exact D.
Qed.
Lemma sent_skip : forall pc l1 l2 room s, Forall (fun i => it_pc i <> pc) l1 -> sent pc room l2 s -> sent pc room (l1 ++ l2) s.
Proof. intros pc l1 l2 room s H K. induction H; [exact K|]. simpl. apply sent_other; assumption. Qed.
Lemma sent_unskip : forall pc l1 l2 room s, Forall (fun i => it_pc i <> pc) l1 -> sent pc room (l1 ++ l2) s -> sent pc room l2 s.
Proof. intros pc l1 l2 room s H. induction H; intros K; [exact K|]. simpl in K. inversion K; subst; try congruence. apply IHForall. assumption. Qed.
Lemma sent_nothing : forall pc l room, filter (mine pc) l = [] -> sent pc room l [].
Proof.
  intros pc l. induction l as [|it l IH]; intros room H; [constructor|]. simpl in H. unfold mine in H at 1. destruct (it_pc it =? pc) eqn:E; [discriminate|].
  apply sent_other; [lia|apply IH; exact H].
Qed.
Lemma filter_skip : forall pc l1, Forall (fun i => it_pc i <> pc) l1 -> filter (mine pc) l1 = [].
Proof. intros pc l1 H. induction H; [reflexivity|]. simpl. unfold mine at 1. replace (it_pc x =? pc) with false by lia. exact IHForall. Qed.

Lemma format_step : forall f room pc m more pure, format_misc (S f) room pc m more pure =
    (match find_first (S f) (ml_heap m) pc (ml_first m) with
    | None => None
    | Some O => Some ([], m, more, pure)
    | Some x =>
      match ml_heap m x with
      | None => None
      | Some n =>
        let b := it_bytes (nd_item n) in
        if room <? blen b then Some ([], m, true, pure)
        else
          match delete x m with
          | None => None
          | Some m' =>
            let pure' := pure && it_pure (nd_item n) in
            if blen b =? 0 then Some ([], m', more, pure')
            else
              match format_misc f (room - blen b) pc m' more pure' with
              | None => None
              | Some (bs, m'', more', pure'') => Some (b ++ bs, m'', more', pure'')
              end
          end
      end
    end).
Proof. reflexivity. Qed.
Lemma format_thm : forall fuel room pc m l more pure, holds m l -> (length l < fuel)%nat ->
  exists bs m' more' pure' l' s, format_misc fuel room pc m more pure = Some (bs, m', more', pure') /\ holds m' l' /\
    sent pc room (map snd l) s /\ bs = concat (map it_bytes s) /\ blen bs <= room /\
    filter (fun i => it_pc i =? pc) (map snd l) = s ++ filter (fun i => it_pc i =? pc) (map snd l') /\
    filter (fun i => negb (it_pc i =? pc)) (map snd l') = filter (fun i => negb (it_pc i =? pc)) (map snd l) /\
    pure' = pure && forallb it_pure s /\ (more = true -> more' = true) /\
    (filter (fun i => it_pc i =? pc) (map snd l') = [] -> more' = more) /\
    (filter (fun i => it_pc i =? pc) (map snd l') <> [] -> Forall (fun i => it_bytes i <> []) s -> more' = true) /\
    (forall y, ml_heap m y = None -> ml_heap m' y = None).
Proof.
  induction fuel as [|f IH]; intros room pc m l more pure H F; [lia|].
  rewrite format_step.
  pose proof H as [L ND]. destruct (find_thm pc _ _ (S f) _ _ _ L F) as [[A B]|[l1 [x [it [l2 [A [B [C [D [Z [n [N1 N2]]]]]]]]]]]].
  - rewrite B. exists [], m, more, pure, l, []. split; [reflexivity|]. split; [exact H|]. split; [apply sent_nothing; exact A|].
    split; [reflexivity|]. split; [unfold blen; simpl; lia|]. split; [reflexivity|]. split; [reflexivity|]. split; [simpl; rewrite andb_true_r; reflexivity|].
    split; [auto|]. split; [auto|]. split; [|auto]. intros Q. exfalso. apply Q. exact A.
  - rewrite D. destruct x as [|x']; [congruence|]. set (x := S x') in *. rewrite N1. cbv zeta. rewrite N2. subst l.
    pose proof (filter_skip pc (map snd l1) C) as FS. unfold mine in FS.
    destruct (room <? blen (it_bytes it)) eqn:E.
    + exists [], m, true, pure, (l1 ++ (x, it) :: l2), []. split; [reflexivity|]. split; [exact H|]. split.
      { rewrite map_app. apply sent_skip; [exact C|]. simpl. apply sent_full; [exact B|lia]. }
      split; [reflexivity|]. split; [unfold blen; simpl; lia|]. split; [reflexivity|]. split; [reflexivity|]. split; [simpl; rewrite andb_true_r; reflexivity|].
      split; [auto|]. split; [|auto]. rewrite map_app, filter_app, FS. simpl. replace (it_pc it =? pc) with true by lia. discriminate.
    + destruct (delete_holds _ _ _ _ _ H) as [m' [D1 [D2 [_ D4]]]]. rewrite D1.
      assert (G1 : filter (fun i => it_pc i =? pc) (map snd (l1 ++ (x, it) :: l2)) = it :: filter (fun i => it_pc i =? pc) (map snd (l1 ++ l2))).
      { rewrite !map_app, !filter_app, FS. simpl. replace (it_pc it =? pc) with true by lia. reflexivity. }
      assert (G2 : filter (fun i => negb (it_pc i =? pc)) (map snd (l1 ++ l2)) = filter (fun i => negb (it_pc i =? pc)) (map snd (l1 ++ (x, it) :: l2))).
      { rewrite !map_app, !filter_app. simpl. replace (it_pc it =? pc) with true by lia. reflexivity. }
      destruct (blen (it_bytes it) =? 0) eqn:E0.
      * assert (NB : it_bytes it = []) by (destruct (it_bytes it); [reflexivity|unfold blen in E0; simpl in E0; lia]).
        exists [], m', more, (pure && it_pure it), (l1 ++ l2), [it]. split; [reflexivity|]. split; [exact D2|]. split.
        { rewrite map_app. apply sent_skip; [exact C|]. simpl. apply sent_empty; assumption. }
        split; [simpl; rewrite NB; reflexivity|]. split; [unfold blen; simpl; lia|]. split; [exact G1|]. split; [exact G2|].
        split; [simpl; rewrite andb_true_r; reflexivity|]. split; [auto|]. split; [auto|]. split; [|exact D4].
        intros _ Q. inversion Q; congruence.
      * destruct (IH (room - blen (it_bytes it)) pc m' (l1 ++ l2) more (pure && it_pure it) D2) as [bs [m2 [more' [pure' [l' [s [I1 [I2 [I3 [I4 [I5 [I6 [I7 [I8 [I9 [I10 [I11 I12]]]]]]]]]]]]]]]]].
        { rewrite app_length in *. simpl in F. lia. }
        rewrite I1. exists (it_bytes it ++ bs), m2, more', pure', l', (it :: s). split; [reflexivity|]. split; [exact I2|]. split.
        { rewrite map_app. apply sent_skip; [exact C|]. simpl. apply sent_one; [exact B|intros Q; rewrite Q in E0; discriminate|lia|].
          rewrite map_app in I3. eapply sent_unskip; eassumption. }
        split; [simpl; rewrite I4; reflexivity|]. split; [unfold blen in *; rewrite app_length; lia|].
        split; [rewrite G1, I6; reflexivity|]. split; [rewrite I7; exact G2|]. split; [rewrite I8; simpl; rewrite andb_assoc; reflexivity|].
        split; [exact I9|]. split; [exact I10|]. split; [intros Q1 Q2; inversion Q2; subst; apply I11; assumption|]. auto.
Qed.

Lemma fuel_more : forall fuel room pc m l more pure r, holds m l -> format_misc fuel room pc m more pure = Some r ->
  format_misc (S (length l) + fuel) room pc m more pure = Some r.
Proof.
  assert (FF : forall h pc fuel k a x, find_first fuel h pc a = Some x -> find_first (fuel + k) h pc a = Some x).
  { intros h pc. induction fuel as [|f IH]; intros k a x H; [discriminate|]. simpl in *. destruct (Nat.eqb a 0); [exact H|].
    destruct (h a); [|discriminate]. destruct (it_pc (nd_item n) =? pc); [exact H|apply IH; exact H]. }
  assert (G : forall fuel k room pc m more pure r, format_misc fuel room pc m more pure = Some r -> format_misc (fuel + k) room pc m more pure = Some r).
  { induction fuel as [|f IH]; intros k room pc m more pure r H; [discriminate|]. rewrite format_step in H. change (S f + k)%nat with (S (f + k)). rewrite format_step.
    destruct (find_first (S f) (ml_heap m) pc (ml_first m)) as [x|] eqn:E; [|discriminate]. apply (FF _ _ _ k) in E. change (S f + k)%nat with (S (f + k)) in E. rewrite E.
    destruct x; [exact H|]. destruct (ml_heap m (S x)); [|discriminate]. cbv zeta in *. destruct (room <? _); [exact H|]. destruct (delete (S x) m); [|discriminate].
    destruct (_ =? 0); [exact H|]. destruct (format_misc f _ pc _ more _) as [[[[? ?] ?] ?]|] eqn:Q; [|discriminate]. rewrite (IH k _ _ _ _ _ _ Q). exact H. }
  intros fuel room pc m l more pure r _ H. rewrite Nat.add_comm. apply G. exact H.
Qed.

(** The purge. *)
Definition head (l : list (nat * item)) : nat := match l with [] => 0%nat | (x, _) :: _ => x end.
Lemma linked_head : forall h l p a q, linked h p a l q 0 -> a = head l.
Proof. intros h [|[x it] l] p a q H; simpl in *; tauto. Qed.
Lemma node_of : forall m l1 x it l2, holds m (l1 ++ (x, it) :: l2) -> x <> 0%nat /\ exists pr, ml_heap m x = Some (mk_node (head l2) pr it).
Proof.
  intros m l1 x it l2 [L _]. apply linked_app in L. destruct L as [r [c [_ L]]]. simpl in L. destruct L as [_ [Z [nx [X L]]]].
  split; [exact Z|]. exists r. rewrite X. apply linked_head in L. congruence.
Qed.
Lemma purge_gen : forall fuel l2 l1 m, holds m (l1 ++ l2) -> (length l2 < fuel)%nat ->
  exists m', purge_from fuel (head l2) m = Some m' /\ holds m' (l1 ++ filter (fun e => it_pc (snd e) =? 0) l2) /\
    (forall y, ml_heap m y = None -> ml_heap m' y = None).
Proof.
  induction fuel as [|f IH]; intros l2 l1 m H F; [lia|]. destruct l2 as [|[x it] l2].
  - exists m. split; [reflexivity|]. split; [exact H|auto].
  - destruct (node_of _ _ _ _ _ H) as [Z [pr X]]. simpl. destruct (Nat.eqb_spec x 0); [contradiction|]. rewrite X. cbn [nd_item nd_next]. simpl in F.
    destruct (it_pc it =? 0) eqn:E.
    + destruct (IH l2 (l1 ++ [(x, it)]) m) as [m' [A [B C]]]; [rewrite <- app_assoc; exact H|lia|]. exists m'. split; [exact A|]. split; [|exact C].
      rewrite <- app_assoc in B. exact B.
    + destruct (delete_holds _ _ _ _ _ H) as [m1 [D1 [D2 [_ D4]]]]. rewrite D1. destruct (IH l2 l1 m1 D2 ltac:(lia)) as [m' [A [B C]]].
      exists m'. split; [exact A|]. split; [exact B|auto].
Qed.
Lemma purge_thm : forall fuel m l, holds m l -> (length l < fuel)%nat ->
  exists m', purge fuel m = Some m' /\ holds m' (filter (fun e => it_pc (snd e) =? 0) l) /\
    (forall y, ml_heap m y = None -> ml_heap m' y = None).
Proof.
  intros fuel m l H F. unfold purge. pose proof H as [L _]. rewrite (linked_head _ _ _ _ _ L). exact (purge_gen fuel l [] m H F).
Qed.
Lemma purge_more : forall fuel k a m r, purge_from fuel a m = Some r -> purge_from (fuel + k) a m = Some r.
Proof.
  induction fuel as [|f IH]; intros k a m r H; [discriminate|]. simpl in *. destruct (Nat.eqb a 0); [exact H|]. destruct (ml_heap m a); [|discriminate].
  destruct (it_pc (nd_item n) =? 0); [apply IH; exact H|]. destruct (delete a m); [|discriminate]. apply IH. exact H.
Qed.

(** All histories. *)
Lemma run_gen : forall m ops m', run m ops m' -> forall l, holds m l -> exists l', holds m' l'.
Proof.
  intros m ops m' H. induction H as [m|m a it m1 ok ops m' F Q R IH|m room pc fuel bs m1 more pure ops m' Q R IH|m fuel m1 ops m' Q R IH]; intros l K.
  - exists l. exact K.
  - destruct (Nat.eq_dec a 0) as [->|Z].
    + unfold queue in Q. simpl in Q. inversion Q; subst. eapply IH. exact K.
    + destruct (queue_holds m l a it K Z F) as [m2 [A B]]. rewrite A in Q. inversion Q; subst. eapply IH. exact B.
  - pose proof (fuel_more _ _ _ _ _ _ _ _ K Q) as Q'.
    destruct (format_thm (S (length l) + fuel) room pc m l false true K ltac:(lia)) as [bs2 [m2 [more2 [pure2 [l' [s [A [B _]]]]]]]].
    rewrite A in Q'. inversion Q'; subst. eapply IH. exact B.
  - unfold purge in Q. apply (purge_more _ (S (length l))) in Q.
    destruct (purge_thm (fuel + S (length l)) m l K ltac:(lia)) as [m2 [A [B _]]]. unfold purge in A. rewrite A in Q. inversion Q; subst. eapply IH. exact B.
Qed.
Lemma history_thm : forall ops m', run nothing ops m' -> exists l, holds m' l /\
  (forall a it, ml_heap m' a = None -> exists m2 ok, queue a it m' = Some (m2, ok)) /\
  (forall room pc, exists fuel r, format_misc fuel room pc m' false true = Some r) /\ (exists fuel r, purge fuel m' = Some r).
Proof.
  intros ops m' H. destruct (run_gen _ _ _ H []) as [l K].
  { split; [simpl; auto|constructor]. }
  exists l. split; [exact K|]. split.
  - intros a it F. destruct (Nat.eq_dec a 0) as [->|Z]; [do 2 eexists; reflexivity|]. destruct (queue_holds m' l a it K Z F) as [m2 [A _]]. eauto.
  - split.
    + intros room pc. exists (S (length l)). destruct (format_thm (S (length l)) room pc m' l false true K ltac:(lia)) as [bs2 [m2 [more2 [pure2 [l' [s [A _]]]]]]]. eauto.
    + exists (S (length l)). destruct (purge_thm (S (length l)) m' l K ltac:(lia)) as [m2 [A _]]. eauto.
Qed.

(** Witnesses. *)
Definition ex_list (l : list item) : mlist :=
  snd (fold_left (fun am it => (S (fst am), match queue (fst am) it (snd am) with Some (m, _) => m | None => snd am end)) l (1%nat, nothing)).
Definition its : list item := [mk_item [1; 2] 0 false; mk_item [3] 2 true; mk_item [4; 5; 6] 0 true; mk_item [7] 0 true].
Lemma its_holds : holds (ex_list its) (combine [1; 2; 3; 4]%nat its).
Proof.
  split; [|repeat constructor; simpl; intuition discriminate]. vm_compute. repeat split; try discriminate.
  repeat (eexists; split; [reflexivity|]; repeat split; try discriminate).
Qed.
Lemma w_stuck2 : exists m l, holds m l /\ In (mk_item [1] 0 true) (map snd l) /\
  forall room, room <= 1500 -> format_misc 5 room 0 m false true = Some ([], m, true, true).
Proof.
  exists (ex_list [mk_item (repeat 0 1501) 0 true; mk_item [1] 0 true]), [(1%nat, mk_item (repeat 0 1501) 0 true); (2%nat, mk_item [1] 0 true)].
  split; [split; [|repeat constructor; simpl; intuition discriminate]|].
  { cbn [linked]. repeat split; try discriminate. eexists. split; [reflexivity|]. repeat split; try discriminate. eexists. split; [reflexivity|]. split; reflexivity. }
  split; [right; left; reflexivity|]. intros room H. rewrite format_step.
  set (m := ex_list _). assert (A : find_first 5 (ml_heap m) 0 (ml_first m) = Some 1%nat) by reflexivity. rewrite A.
  assert (B : ml_heap m 1%nat = Some (mk_node 2 0 (mk_item (repeat 0 1501) 0 true))) by reflexivity. rewrite B. cbv zeta.
  cbn [nd_item it_bytes]. assert (C : blen (repeat 0 1501) = 1501) by (vm_compute; reflexivity). rewrite C.
  replace (room <? 1501) with true by lia. reflexivity.
Qed.
Lemma w_empty2 : exists m l m' l', holds m l /\ format_misc 5 1200 0 m false true = Some ([], m', false, true) /\ holds m' l' /\
  map snd l' = [mk_item [1] 0 true].
Proof.
  exists (ex_list [mk_item [] 0 true; mk_item [1] 0 true]).
  assert (K : holds (ex_list [mk_item [] 0 true; mk_item [1] 0 true]) [(1%nat, mk_item [] 0 true); (2%nat, mk_item [1] 0 true)]).
  { split; [|repeat constructor; simpl; intuition discriminate]. cbn [linked]. repeat split; try discriminate.
    eexists. split; [reflexivity|]. repeat split; try discriminate. eexists. split; [reflexivity|]. split; reflexivity. }
  destruct (delete_holds _ [] _ _ _ K) as [m' [D1 [D2 _]]].
  exists [(1%nat, mk_item [] 0 true); (2%nat, mk_item [1] 0 true)], m', [(2%nat, mk_item [1] 0 true)].
  split; [exact K|]. split; [|split; [exact D2|reflexivity]].
  rewrite format_step. set (m := ex_list _) in *. assert (A : find_first 5 (ml_heap m) 0 (ml_first m) = Some 1%nat) by reflexivity. rewrite A.
  assert (B : ml_heap m 1%nat = Some (mk_node 2 0 (mk_item [] 0 true))) by reflexivity. rewrite B. cbv zeta. cbn [nd_item it_bytes it_pure].
  rewrite D1. reflexivity.
Qed.
