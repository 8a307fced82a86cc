(** Lemmas about the spin bit. *)
From Verif Require Import Base Tac Spin_model Spin_spec.

Lemma parse_bit : forall b, parse_spin b = bit b.
Proof.
  intro b. unfold parse_spin, bit. change 1 with (N.ones 1). rewrite N.land_ones.
  rewrite N.shiftr_div_pow2. rewrite N.testbit_eqb. change (2 ^ 1) with 2.
  destruct ((b / 2 ^ 5) mod 2 =? 1) eqn:E; [apply N.eqb_eq in E; rewrite E; reflexivity|].
  apply N.eqb_neq in E. assert ((b / 2 ^ 5) mod 2 < 2) by (apply N.mod_lt; discriminate).
  assert ((b / 2 ^ 5) mod 2 = 0) as -> by lia. reflexivity.
Qed.

Lemma byte_bit : forall kp g rnd spin, bit (first_byte kp g rnd spin) = N.testbit spin 5.
Proof.
  intros kp g rnd spin. unfold bit, first_byte. rewrite !N.lor_spec.
  assert (N.testbit (if kp then 4 else 0) 5 = false) as -> by (destruct kp; reflexivity).
  assert (N.testbit (if g then N.land 64 (u8 rnd) else 64) 5 = false) as ->.
  { destruct g; [rewrite N.land_spec|]; reflexivity. }
  reflexivity.
Qed.

Lemma header_thm : forall kp g rnd spin,
  parse_spin (first_byte kp g rnd spin) = N.testbit spin 5.
Proof. intros. rewrite parse_bit. apply byte_bit. Qed.

Lemma out_spins : forall c e rnd, spins c e -> outgoing rnd e = Some (if value e then 32 else 0).
Proof.
  intros c e rnd (_ & P & v & l & E). unfold outgoing, value. rewrite P, E. destruct v; reflexivity.
Qed.

Lemma in_spins : forall c e b, spins c e -> exists e', incoming 0 b e = Some e' /\ spins c e' /\ value e' = xorb b c.
Proof.
  intros c e b (C & P & v & l & E). unfold incoming. rewrite P, E, C. cbn [set_spin option_map].
  eexists. split; [reflexivity|]. unfold spins, value. cbn [sp_client sp_policy sp_paths hd].
  repeat split. eexists _, _. reflexivity.
Qed.

(** ** Changes *)

Lemma changes_cons : forall a b l, changes (a :: b :: l) = ((if Bool.eqb a b then 0 else 1) + changes (b :: l))%nat.
Proof. reflexivity. Qed.

Lemma changes_pos : forall l a, (1 <= changes (a :: l ++ [negb a]))%nat.
Proof.
  induction l as [|b l IH]; intro a.
  - cbn. destruct a; cbn; lia.
  - cbn [app]. rewrite changes_cons. destruct (Bool.eqb a b) eqn:E.
    + apply Bool.eqb_prop in E. subst b. specialize (IH a). lia.
    + lia.
Qed.

Lemma changes_tail : forall a l, (changes l <= changes (a :: l))%nat.
Proof. intros a [|b l]; [cbn; lia|]. rewrite changes_cons. lia. Qed.

Lemma changes_head : forall a b l, (changes (a :: l) <= 1 + changes (b :: l))%nat.
Proof.
  intros a b [|c l]; [cbn; lia|]. rewrite !changes_cons. destruct (Bool.eqb a c), (Bool.eqb b c); lia.
Qed.

Lemma changes_remove : forall l1 x l2, (changes (l1 ++ l2) <= changes (l1 ++ x :: l2))%nat.
Proof.
  induction l1 as [|a l1 IH]; intros x l2.
  - apply changes_tail.
  - destruct l1 as [|b l1].
    + cbn [app]. destruct l2 as [|c l2]; [cbn; lia|]. rewrite !changes_cons.
      destruct a, x, c; cbn; lia.
    + cbn [app] in *. rewrite !changes_cons. specialize (IH x l2). lia.
Qed.

Lemma changes_zero : forall l a, changes (a :: l) = 0%nat -> Forall (eq a) l.
Proof.
  induction l as [|b l IH]; intros a H; [constructor|]. rewrite changes_cons in H.
  destruct (Bool.eqb a b) eqn:E; [|lia]. apply Bool.eqb_prop in E. subst b.
  constructor; [reflexivity|]. apply IH. lia.
Qed.

Lemma changes_app : forall l1 a l2, changes (l1 ++ a :: l2) = (changes (l1 ++ [a]) + changes (a :: l2))%nat.
Proof.
  induction l1 as [|b l1 IH]; intros a l2; [reflexivity|]. destruct l1 as [|c l1].
  - cbn [app]. rewrite (changes_cons b a l2). cbn. destruct (Bool.eqb b a); lia.
  - cbn [app] in *. rewrite !changes_cons. rewrite IH. lia.
Qed.

Lemma without_split : forall i l, (exists a x b, l = a ++ x :: b /\ without i l = a ++ b) \/ without i l = l.
Proof.
  induction i as [|i IH]; intros [|x l]; try (right; reflexivity).
  - left. exists [], x, l. split; reflexivity.
  - cbn [without]. destruct (IH l) as [(a & y & b & -> & ->)|E].
    + left. exists (x :: a), y, b. split; reflexivity.
    + right. rewrite E. reflexivity.
Qed.

Definition Inv (s : snet) : Prop :=
  spins true (n_client s) /\ spins false (n_server s) /\ changes (ring s) = 1%nat.

Lemma one : forall s, spins true (n_client s) -> spins false (n_server s) -> (changes (ring s) <= 1)%nat -> Inv s.
Proof.
  intros s A B C. split; [exact A|]. split; [exact B|]. unfold ring in *. revert C.
  pose proof (changes_pos (rev (map bit (n_up s)) ++ value (n_server s) :: rev (map bit (n_down s))) (value (n_client s))) as P.
  rewrite <- app_assoc in P. cbn [app] in P. intro C. lia.
Qed.

Lemma bit_of : forall kp g rnd v, bit (first_byte kp g rnd (if v : bool then 32 else 0)) = v.
Proof. intros. rewrite byte_bit. destruct v; reflexivity. Qed.

Lemma inv_step : forall o s, Inv s -> in_order o -> exists s', sstep s o = Some s' /\ Inv s'.
Proof.
  intros o s (HC & HS & HR) IO. destruct s as [c sv up down]. cbn [n_client n_server n_up n_down] in *.
  unfold ring in HR. cbn [n_client n_server n_up n_down] in HR.
  destruct o as [kp g rnd rnd'|kp g rnd rnd'|i|i|i|i]; cbn [sstep n_client n_server n_up n_down] in *.
  - rewrite (out_spins _ _ rnd HC). eexists. split; [reflexivity|]. apply one; try assumption.
    unfold ring. cbn [n_client n_server n_up n_down]. rewrite map_app, rev_app_distr. cbn [map rev app].
    rewrite bit_of. rewrite changes_cons, Bool.eqb_reflx. lia.
  - rewrite (out_spins _ _ rnd HS). eexists. split; [reflexivity|]. apply one; try assumption.
    unfold ring. cbn [n_client n_server n_up n_down]. rewrite (map_app bit down), (rev_app_distr (map bit down)). cbn [map rev app].
    rewrite bit_of.
    set (X := value c :: rev (map bit up)). set (Y := rev (map bit down) ++ [negb (value c)]) in *.
    change (changes (X ++ value sv :: value sv :: Y) <= 1)%nat.
    change (changes (X ++ value sv :: Y) = 1%nat) in HR.
    rewrite changes_app in *. rewrite changes_cons, Bool.eqb_reflx. lia.
  - cbn in IO. subst i. destruct up as [|b up]; cbn [nth_error without].
    { eexists. split; [reflexivity|]. apply one; try assumption. unfold ring. cbn [n_client n_server n_up n_down]. lia. }
    destruct (in_spins _ _ (parse_spin b) HS) as (e & -> & HE & VE). eexists. split; [reflexivity|].
    apply one; try assumption. unfold ring. cbn [n_client n_server n_up n_down]. rewrite VE, parse_bit.
    rewrite Bool.xorb_false_r. cbn [map rev] in HR. rewrite <- app_assoc in HR. cbn [app] in HR.
    set (Y := rev (map bit down) ++ [negb (value c)]) in *.
    change (changes ((value c :: rev (map bit up)) ++ [bit b] ++ value sv :: Y) = 1%nat) in HR. rewrite app_assoc in HR.
    pose proof (changes_remove ((value c :: rev (map bit up)) ++ [bit b]) (value sv) Y) as R.
    rewrite HR, <- app_assoc in R. exact R.
  - cbn in IO. subst i. destruct down as [|b down]; cbn [nth_error without].
    { eexists. split; [reflexivity|]. apply one; try assumption. unfold ring. cbn [n_client n_server n_up n_down]. lia. }
    destruct (in_spins _ _ (parse_spin b) HC) as (e & -> & HE & VE). eexists. split; [reflexivity|].
    apply one; try assumption. unfold ring. cbn [n_client n_server n_up n_down]. rewrite VE, parse_bit.
    cbn [map rev] in HR. rewrite <- app_assoc in HR. cbn [app] in HR.
    set (X := rev (map bit up) ++ value sv :: rev (map bit down)).
    replace (rev (map bit up) ++ value sv :: rev (map bit down) ++ [bit b; negb (value c)])
      with (X ++ [bit b; negb (value c)]) in HR by (unfold X; rewrite <- app_assoc; reflexivity).
    replace (rev (map bit up) ++ value sv :: rev (map bit down) ++ [negb (xorb (bit b) true)])
      with (X ++ [bit b]) by (unfold X; rewrite <- app_assoc; cbn [app]; destruct (bit b); reflexivity).
    change (changes ((value c :: X) ++ [bit b; negb (value c)]) = 1%nat) in HR. rewrite changes_app in HR.
    cbn [app] in HR. destruct (Bool.eqb (bit b) (value c)) eqn:Q.
    + apply Bool.eqb_prop in Q. rewrite Q in *. rewrite changes_cons in HR.
      replace (Bool.eqb (value c) (negb (value c))) with false in HR by (destruct (value c); reflexivity).
      pose proof (changes_head (xorb (value c) true) (value c) (X ++ [value c])). lia.
    + assert (BQ : bit b = negb (value c)) by (destruct (bit b), (value c); cbn in Q |- *; congruence).
      rewrite BQ in *. rewrite Bool.xorb_true_r, Bool.negb_involutive. lia.
  - eexists. split; [reflexivity|]. apply one; try assumption. unfold ring. cbn [n_client n_server n_up n_down].
    destruct (without_split i up) as [(a & x & b & -> & ->)| ->]; [|lia].
    rewrite map_app, rev_app_distr in *. cbn [map rev] in HR. rewrite <- !app_assoc in *. cbn [app] in HR.
    pose proof (changes_remove (value c :: rev (map bit b)) (bit x)
      (rev (map bit a) ++ value sv :: rev (map bit down) ++ [negb (value c)])) as R. cbn [app] in R. lia.
  - eexists. split; [reflexivity|]. apply one; try assumption. unfold ring. cbn [n_client n_server n_up n_down].
    destruct (without_split i down) as [(a & x & b & -> & ->)| ->]; [|lia].
    rewrite (map_app bit a), rev_app_distr in *. cbn [map rev] in HR. rewrite <- !app_assoc in *. cbn [app] in HR.
    pose proof (changes_remove (value c :: rev (map bit up) ++ value sv :: rev (map bit b)) (bit x)
      (rev (map bit a) ++ [negb (value c)])) as R. cbn [app] in R. rewrite <- !app_assoc in R. cbn [app] in R.
    lia.
Qed.

Lemma inv_start : forall s, sp_start s -> Inv s.
Proof.
  intros s (A & B & U & D & VC & VS). apply one; try assumption. unfold ring. rewrite U, D, VC, VS. cbn. lia.
Qed.

Lemma inv_run : forall l s, Inv s -> Forall in_order l -> exists s', srun s l = Some s' /\ Inv s'.
Proof.
  induction l as [|o l IH]; intros s H F; cbn [srun]; [eexists; split; [reflexivity|exact H]|].
  inversion F as [|? ? F1 F2]; subst. destruct (inv_step o s H F1) as (s1 & -> & H1). exact (IH s1 H1 F2).
Qed.

Lemma edge_thm : forall l s, sp_start s -> Forall in_order l ->
  exists s', srun s l = Some s' /\ changes (ring s') = 1%nat.
Proof.
  intros l s H F. destruct (inv_run l s (inv_start s H) F) as (s' & E & _ & _ & C). exists s'. split; assumption.
Qed.

Lemma flip_thm : forall l s s1 s2, sp_start s -> Forall in_order l -> srun s l = Some s1 ->
  sstep s1 (RecvC 0) = Some s2 -> value (n_client s2) <> value (n_client s1) ->
  Forall (fun b => bit b = value (n_client s1)) (n_up s1) /\
  Forall (fun b => bit b = value (n_client s1)) (n_down s1) /\
  value (n_server s1) = value (n_client s1).
Proof.
  intros l s s1 s2 H F E ST NE. destruct (inv_run l s (inv_start s H) F) as (s' & E' & HC & HS & HR).
  rewrite E in E'. injection E' as <-. destruct s1 as [c sv up down]. cbn [n_client n_server n_up n_down sstep] in *.
  destruct down as [|b down]; cbn [nth_error without] in ST; [injection ST as <-; contradiction|].
  destruct (in_spins _ _ (parse_spin b) HC) as (e & EI & HE & VE). rewrite EI in ST. injection ST as <-.
  cbn [n_client] in NE. rewrite VE, parse_bit in NE.
  assert (Q : bit b = value c) by (destruct (bit b), (value c); cbn in NE; congruence).
  unfold ring in HR. cbn [n_client n_server n_up n_down map rev] in HR. rewrite <- app_assoc in HR. cbn [app] in HR.
  rewrite Q in HR.
  set (X := rev (map bit up) ++ value sv :: rev (map bit down)) in *.
  replace (rev (map bit up) ++ value sv :: rev (map bit down) ++ [value c; negb (value c)])
    with (X ++ [value c; negb (value c)]) in HR by (unfold X; rewrite <- app_assoc; reflexivity).
  change (changes ((value c :: X) ++ [value c; negb (value c)]) = 1%nat) in HR. rewrite changes_app, changes_cons in HR.
  replace (Bool.eqb (value c) (negb (value c))) with false in HR by (destruct (value c); reflexivity).
  cbn [app] in HR. assert (Z : changes (value c :: X ++ [value c]) = 0%nat) by lia. apply changes_zero in Z.
  apply Forall_app in Z. destruct Z as [Z _]. unfold X in Z. apply Forall_app in Z. destruct Z as [Z1 Z2].
  inversion Z2 as [|? ? Z3 Z4]; subst. clear Z2.
  assert (G : forall q, Forall (eq (value c)) (rev (map bit q)) -> Forall (fun b => bit b = value c) q).
  { intros q Hq. apply Forall_rev in Hq. rewrite rev_involutive in Hq. rewrite Forall_map in Hq.
    eapply Forall_impl; [|exact Hq]. intros a Ha. symmetry. exact Ha. }
  split; [apply G; exact Z1|]. split; [|symmetry; exact Z3]. constructor; [exact Q|apply G; exact Z4].
Qed.

Lemma follow_thm : forall l s s1 s2, sp_start s -> Forall in_order l -> srun s l = Some s1 ->
  sstep s1 (RecvS 0) = Some s2 -> value (n_server s2) <> value (n_server s1) ->
  value (n_client s1) = value (n_server s2) /\
  Forall (fun b => bit b = value (n_server s2)) (n_up s1) /\
  Forall (fun b => bit b = value (n_server s1)) (n_down s1).
Proof.
  intros l s s1 s2 H F E ST NE. destruct (inv_run l s (inv_start s H) F) as (s' & E' & HC & HS & HR).
  rewrite E in E'. injection E' as <-. destruct s1 as [c sv up down]. cbn [n_client n_server n_up n_down sstep] in *.
  destruct up as [|b up]; cbn [nth_error without] in ST; [injection ST as <-; contradiction|].
  destruct (in_spins _ _ (parse_spin b) HS) as (e & EI & HE & VE). rewrite EI in ST. injection ST as <-.
  cbn [n_server] in *. rewrite VE, parse_bit, Bool.xorb_false_r in *.
  unfold ring in HR. cbn [n_client n_server n_up n_down map rev] in HR. rewrite <- app_assoc in HR. cbn [app] in HR.
  set (Y := rev (map bit down) ++ [negb (value c)]) in *.
  change (changes ((value c :: rev (map bit up)) ++ bit b :: value sv :: Y) = 1%nat) in HR.
  rewrite changes_app, changes_cons in HR.
  replace (Bool.eqb (bit b) (value sv)) with false in HR by (destruct (bit b), (value sv); cbn in NE |- *; congruence).
  cbn [app] in HR. assert (Z1 : changes (value c :: rev (map bit up) ++ [bit b]) = 0%nat) by lia.
  assert (Z2 : changes (value sv :: Y) = 0%nat) by lia. apply changes_zero in Z1. apply changes_zero in Z2.
  apply Forall_app in Z1. destruct Z1 as [Z1 Z3]. inversion Z3 as [|? ? Z4 _]; subst. clear Z3.
  unfold Y in Z2. apply Forall_app in Z2. destruct Z2 as [Z2 _].
  assert (G : forall v q, Forall (eq v) (rev (map bit q)) -> Forall (fun b => bit b = v) q).
  { intros v q Hq. apply Forall_rev in Hq. rewrite rev_involutive in Hq. rewrite Forall_map in Hq.
    eapply Forall_impl; [|exact Hq]. intros a Ha. symmetry. exact Ha. }
  split; [exact Z4|]. split; [|apply G; exact Z2]. constructor; [reflexivity|]. rewrite <- Z4. apply G. exact Z1.
Qed.

(** ** A round trip *)

Lemma drain_up : forall up c sv down, spins false sv -> exists e,
  srun (mk_sn c sv up down) (repeat (RecvS 0) (length up)) = Some (mk_sn c e [] down) /\ spins false e /\
  value e = last (map bit up) (value sv).
Proof.
  induction up as [|b up IH]; intros c sv down H.
  - exists sv. split; [reflexivity|]. split; [exact H|reflexivity].
  - cbn [length repeat srun sstep n_up nth_error without n_server n_client n_down].
    destruct (in_spins _ _ (parse_spin b) H) as (e & -> & HE & VE). rewrite parse_bit, Bool.xorb_false_r in VE.
    destruct (IH c e down HE) as (e' & -> & HE' & V'). exists e'. split; [reflexivity|]. split; [exact HE'|].
    rewrite V', VE. cbn [map]. destruct (map bit up) as [|x l] eqn:M; [reflexivity|].
    cbn [last]. clear. revert x. induction l as [|y l IH]; intro x; [reflexivity|]. exact (IH y).
Qed.

Lemma drain_down : forall down c sv up, spins true c -> exists e,
  srun (mk_sn c sv up down) (repeat (RecvC 0) (length down)) = Some (mk_sn e sv up []) /\ spins true e /\
  value e = negb (last (map bit down) (negb (value c))).
Proof.
  induction down as [|b down IH]; intros c sv up H.
  - exists c. split; [reflexivity|]. split; [exact H|]. cbn. rewrite Bool.negb_involutive. reflexivity.
  - cbn [length repeat srun sstep n_up nth_error without n_server n_client n_down].
    destruct (in_spins _ _ (parse_spin b) H) as (e & -> & HE & VE). rewrite parse_bit, Bool.xorb_true_r in VE.
    destruct (IH e sv up HE) as (e' & -> & HE' & V'). exists e'. split; [reflexivity|]. split; [exact HE'|].
    rewrite V', VE, Bool.negb_involutive. cbn [map]. f_equal. destruct (map bit down) as [|x l] eqn:M; [reflexivity|].
    cbn [last]. clear. revert x. induction l as [|y l IH]; intro x; [reflexivity|]. exact (IH y).
Qed.

Lemma srun_app : forall l1 l2 s s1, srun s l1 = Some s1 -> srun s (l1 ++ l2) = srun s1 l2.
Proof.
  induction l1 as [|o l1 IH]; intros l2 s s1 E; cbn in *; [injection E as <-; reflexivity|].
  destruct (sstep s o); [|discriminate]. apply IH. exact E.
Qed.

Lemma last_snoc : forall (l : list bool) x d, last (l ++ [x]) d = x.
Proof.
  induction l as [|a l IH]; intros x d; [reflexivity|]. cbn [app]. specialize (IH x d).
  destruct (l ++ [x]) eqn:E; [destruct l; discriminate|exact IH].
Qed.

Lemma trip_thm : forall kp g r r' kp2 g2 r2 r2' s, spins true (n_client s) -> spins false (n_server s) ->
  exists s', srun s ([SendC kp g r r'] ++ repeat (RecvS 0) (S (length (n_up s))) ++
                     [SendS kp2 g2 r2 r2'] ++ repeat (RecvC 0) (S (length (n_down s)))) = Some s' /\
    value (n_client s') = negb (value (n_client s)) /\ value (n_server s') = value (n_client s).
Proof.
  intros kp g r r' kp2 g2 r2 r2' [c sv up down] HC HS. cbn [n_client n_server n_up n_down] in *.
  cbn [app]. cbn [srun sstep n_client]. rewrite (out_spins _ _ r HC). cbn [n_server n_up n_down].
  set (u := up ++ [first_byte kp g r' (if value c then 32 else 0)]).
  assert (L : S (length up) = length u) by (unfold u; rewrite app_length; cbn; lia). rewrite L.
  destruct (drain_up u c sv down HS) as (e & EU & HE & VE). rewrite (srun_app _ _ _ _ EU).
  assert (V1 : value e = value c).
  { rewrite VE. unfold u. rewrite map_app. cbn [map]. rewrite last_snoc. apply bit_of. }
  cbn [app srun sstep n_server n_client n_up n_down]. rewrite (out_spins _ _ r2 HE).
  set (d := down ++ [first_byte kp2 g2 r2' (if value e then 32 else 0)]).
  assert (L2 : S (length down) = length d) by (unfold d; rewrite app_length; cbn; lia). rewrite L2.
  destruct (drain_down d c e [] HC) as (e2 & ED & HE2 & VE2). rewrite ED. eexists. split; [reflexivity|].
  cbn [n_client n_server]. split; [|exact V1]. rewrite VE2. unfold d. rewrite map_app. cbn [map]. rewrite last_snoc, bit_of, V1.
  reflexivity.
Qed.

(** ** Policies and paths *)

Lemma set_spin_some : forall i v l, (i < length l)%nat -> exists l', set_spin i v l = Some l' /\ length l' = length l /\
  nth_error l' i = Some v /\ forall j, j <> i -> nth_error l' j = nth_error l j.
Proof.
  induction i as [|i IH]; intros v [|x l] H; cbn [length] in H; try lia; cbn [set_spin].
  - eexists. split; [reflexivity|]. repeat split. intros [|j] J; [contradiction|reflexivity].
  - destruct (IH v l) as (l' & -> & L & A & B); [lia|]. eexists. split; [reflexivity|]. cbn [length nth_error].
    split; [lia|]. split; [exact A|]. intros [|j] J; [reflexivity|]. apply B. congruence.
Qed.

Lemma policy_thm : forall v old r client, old <= 3 ->
  let d := fst (set_default v old) in
  d <= 3 /\ sp_policy (sp_new client d r) <= 2 /\
  forall e w, sp_policy e <= 2 -> sp_policy (fst (set_policy w e)) <= 2.
Proof.
  intros v old r client H. assert (D : fst (set_default v old) <= 3).
  { unfold set_default. destruct (v <=? 3) eqn:E; cbn; lia. }
  cbn zeta. split; [exact D|]. split.
  - cbn [sp_new sp_policy]. unfold create_policy. destruct (fst (set_default v old) =? 0) eqn:A; [destruct (r <? 17); lia|].
    destruct (fst (set_default v old) =? 3) eqn:B; lia.
  - intros e w E. unfold set_policy. destruct (w <? 3) eqn:A; cbn; [lia|exact E].
Qed.

Lemma defined_thm : forall e i b rnd, sp_policy e <= 2 -> (i < length (sp_paths e))%nat ->
  (exists e', incoming i b e = Some e' /\ sp_policy e' = sp_policy e /\ length (sp_paths e') = length (sp_paths e)) /\
  (exists v, outgoing rnd e = Some v /\ (v = 0 \/ v = 32) /\
     (sp_policy e = 2 -> v = 0) /\ (sp_policy e = 0 -> (v = 32 <-> value e = true))).
Proof.
  intros e i b rnd P L. assert (C : sp_policy e = 0 \/ sp_policy e = 1 \/ sp_policy e = 2) by lia. split.
  - unfold incoming. destruct C as [C|[C|C]]; rewrite C.
    + destruct (set_spin_some i (xorb b (sp_client e)) (sp_paths e) L) as (l' & -> & L' & _).
      eexists. split; [reflexivity|]. split; [reflexivity|exact L'].
    + exists e. split; [reflexivity|split; [exact C|reflexivity]].
    + exists e. split; [reflexivity|split; [exact C|reflexivity]].
  - unfold outgoing, value. destruct C as [C|[C|C]]; rewrite C.
    + destruct (sp_paths e) as [|x l]; [cbn in L; lia|]. exists (if x then 32 else 0).
      split; [destruct x; reflexivity|]. split; [destruct x; auto|]. split; [discriminate|]. intros _. cbn.
      destruct x; split; congruence.
    + exists (u8 (N.land rnd 32)). split; [reflexivity|]. split; [|split; discriminate].
      change 32 with (2 ^ 5). unfold u8.
      assert (K : N.land rnd (2 ^ 5) = 0 \/ N.land rnd (2 ^ 5) = 32).
      { destruct (N.testbit rnd 5) eqn:T; [right|left]; apply N.bits_inj; intro k; rewrite N.land_spec, N.pow2_bits_eqb.
        - change 32 with (2 ^ 5). rewrite N.pow2_bits_eqb. destruct (5 =? k) eqn:Q; [apply N.eqb_eq in Q; subst k; rewrite T|]; 
            [reflexivity|apply andb_false_r].
        - rewrite N.bits_0. destruct (5 =? k) eqn:Q; [apply N.eqb_eq in Q; subst k; rewrite T; reflexivity|apply andb_false_r]. }
      destruct K as [-> | ->]; [left|right]; reflexivity.
    + exists 0. split; [reflexivity|]. split; [left; reflexivity|]. split; [reflexivity|discriminate].
Qed.

Lemma reserve_thm :
  256 <= 16 * how_many (fun r => negb (sp_policy (sp_new true 0 r) =? 0)) all_bytes /\
  65536 <= 8 * how_many (fun rr => negb (sp_policy (sp_new true 0 (fst rr)) =? 0) ||
                                   negb (sp_policy (sp_new false 0 (snd rr)) =? 0)) (list_prod all_bytes all_bytes) /\
  (forall c r, sp_policy (sp_new c 3 r) = 0) /\ forall c d r, 1 <= d <= 2 -> sp_policy (sp_new c d r) = d.
Proof.
  split; [vm_compute; discriminate|]. split; [vm_compute; discriminate|]. split; [reflexivity|].
  intros c d r H. cbn [sp_new sp_policy]. unfold create_policy.
  replace (d =? 0) with false by lia. replace (d =? 3) with false by lia. reflexivity.
Qed.
