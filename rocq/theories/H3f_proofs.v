(** What clients tell of the answers. *)
From Verif Require Import Base Tac Mem Qpack_model H3_model H3_spec.

Definition tells (s : dstate) (e : list hev) : Prop := forall b, In (Told b) e -> d_hfound s = true /\ b = success (d_header s).

Definition same_header (s s' : dstate) : Prop := d_hfound s = true -> d_hfound s' = true /\ d_header s' = d_header s.

Lemma same_refl : forall s, same_header s s.
Proof. intros s H. split; [exact H | reflexivity]. Qed.

Lemma same_trans : forall a b c, same_header a b -> same_header b c -> same_header a c.
Proof. intros a b c H1 H2 H. destruct (H1 H) as [X Y]. destruct (H2 X) as [Z T]. split; [exact Z | congruence]. Qed.

Lemma check_same : forall l s, same_header s (r_state (check_frame l s)).
Proof.
  intros l s. unfold check_frame.
  repeat match goal with |- context [if ?b then _ else _] => destruct b end; cbn [r_state]; try apply same_refl.
  all: intros H; split; [reflexivity | reflexivity] || (split; [exact H | reflexivity]).
Qed.

Lemma parse_same : forall l s r, parse_data_stream l s = Ret r -> same_header s (r_state r).
Proof.
  intros l s r H. unfold parse_data_stream in H. destruct l as [| b l]; [injection H as <-; apply same_refl |].
  destruct (negb (d_parsed s)).
  - unfold read_frame_header in H.
    repeat match type of H with
    | bind ?x _ = Ret _ => destruct x as [| | ?y]; cbn [bind] in H; [discriminate | discriminate |]
    | (match ?y with _ => _ end) = Ret _ => destruct y
    | Ret _ = Ret _ => injection H as <-
    end; cbn [r_state]; try exact (fun X => conj X eq_refl).
    eapply same_trans; [| apply check_same]. exact (fun X => conj X eq_refl).
  - destruct (d_web s); [injection H as <-; apply same_refl |].
    destruct (d_type s =? frame_header).
    + unfold read_header in H.
      destruct (match d_frame s with Some f => Some f | None => _ end) as [f |]; [| injection H as <-; apply same_refl].
      repeat match type of H with
      | bind ?x _ = Ret _ => destruct x as [| | ?y]; cbn [bind] in H; [discriminate | discriminate |]
      | (match ?y with _ => _ end) = Ret _ => destruct y
      | Ret _ = Ret _ => injection H as <-
      end; cbn [r_state]; try exact (fun X => conj X eq_refl).
      all: intros X; unfold set_parts; cbn [d_hfound d_header set_read]; rewrite X; split; reflexivity.
    + destruct (d_type s =? frame_data); injection H as <-; cbn [r_state];
        match goal with |- context [if ?b then _ else _] => destruct b end; exact (fun X => conj X eq_refl).
Qed.

Lemma loop_told : forall f rq l s e s', client_loop f rq l s = Ret (e, s') -> closed e = false ->
  same_header s s' /\ (rq = true -> tells s' e) /\ (rq = false -> forall b, ~ In (Told b) e) /\
  (rq = true -> d_hfound s = false -> d_hfound s' = true -> In (Told (success (d_header s'))) e).
Proof.
  induction f as [| f IH]; intros rq l s e s' H NC; [discriminate |].
  destruct l as [| b l].
  { injection H as <- <-. split; [apply same_refl |]. split; [intros _ b X; contradiction |]. split; [intros _ b X; contradiction |].
    intros _ A B. congruence. }
  cbn [client_loop] in H. destruct (parse_data_stream (b :: l) s) as [| | r] eqn:P; cbn [bind] in H; [discriminate | discriminate |].
  destruct (r_rest r) as [l' |]; [| injection H as <- <-; discriminate].
  pose proof (parse_same _ _ _ P) as SP.
  set (told := if rq && d_hfound (r_state r) then [Told (success (d_header (r_state r)))] else []) in *.
  assert (K : forall m e1, (forall c, In (Told c) m -> False) -> client_loop f rq (if 0 <? r_avail r then skipn (N.to_nat (r_avail r)) l' else l') (r_state r) = Ret (e1, s') ->
     closed e1 = false -> e = told ++ m ++ e1 ->
     same_header s s' /\ (rq = true -> tells s' e) /\ (rq = false -> forall b, ~ In (Told b) e) /\
     (rq = true -> d_hfound s = false -> d_hfound s' = true -> In (Told (success (d_header s'))) e)).
  { intros m e1 Nm H1 C1 ->. destruct (IH _ _ _ _ _ H1 C1) as (I1 & I2 & I3 & I4).
    split; [eapply same_trans; eassumption |]. split; [| split].
    - intros Rq c Hc. apply in_app_or in Hc. destruct Hc as [Hc | Hc].
      + unfold told in Hc. destruct (rq && d_hfound (r_state r)) eqn:T; [| contradiction].
        apply andb_true_iff in T. destruct T as [_ T]. destruct (I1 T) as [X Y].
        destruct Hc as [Hc | []]. injection Hc as <-. rewrite Y. split; [exact X | reflexivity].
      + apply in_app_or in Hc. destruct Hc as [Hc | Hc]; [destruct (Nm c Hc) | exact (I2 Rq c Hc)].
    - intros Rq c Hc. apply in_app_or in Hc. destruct Hc as [Hc | Hc].
      + unfold told in Hc. rewrite Rq in Hc. contradiction.
      + apply in_app_or in Hc. destruct Hc as [Hc | Hc]; [destruct (Nm c Hc) | exact (I3 Rq c Hc)].
    - intros Rq A B. destruct (d_hfound (r_state r)) eqn:T.
      + apply in_or_app. left. destruct (I1 T) as [X Y]. unfold told. rewrite Rq. cbn [andb]. rewrite Y. left. reflexivity.
      + apply in_or_app. right. apply in_or_app. right. apply I4; [exact Rq | reflexivity | exact B]. }
  destruct (0 <? r_avail r).
  - destruct (client_loop f rq _ (r_state r)) as [| | [e1 s1]] eqn:H1; cbn [bind] in H; [discriminate | discriminate |].
    injection H as <- <-.
    assert (C1 : closed e1 = false).
    { unfold closed in *. rewrite existsb_app in NC. apply orb_false_iff in NC. destruct NC as [_ NC]. exact NC. }
    refine (K [Data _] e1 _ eq_refl C1 eq_refl). intros c [X | []]. discriminate.
  - destruct (client_loop f rq _ (r_state r)) as [| | [e1 s1]] eqn:H1; cbn [bind] in H; [discriminate | discriminate |].
    injection H as <- <-.
    assert (C1 : closed e1 = false).
    { unfold closed in *. rewrite existsb_app in NC. apply orb_false_iff in NC. destruct NC as [_ NC]. exact NC. }
    refine (K [] e1 _ eq_refl C1 eq_refl). intros c X. contradiction.
Qed.

Lemma pieces_told : forall cs s e s', pieces client_data cs s = Ret (e, s') -> closed e = false ->
  same_header s s' /\ tells s' e /\ (d_hfound s = false -> d_hfound s' = true -> In (Told (success (d_header s'))) e).
Proof.
  induction cs as [| c cs IH]; intros s e s' H NC.
  { injection H as <- <-. split; [apply same_refl |]. split; [intros b X; contradiction |]. intros A B. congruence. }
  cbn [pieces] in H. destruct (client_data c s) as [| | [e1 s1]] eqn:D; cbn [bind] in H; [discriminate | discriminate |].
  destruct (closed e1) eqn:C1; [injection H as <- <-; congruence |].
  destruct (pieces client_data cs s1) as [| | [e2 s2]] eqn:P; cbn [bind] in H; [discriminate | discriminate |].
  injection H as <- <-.
  assert (C2 : closed e2 = false).
  { unfold closed in *. rewrite existsb_app in NC. apply orb_false_iff in NC. tauto. }
  destruct (IH s1 e2 s2 P C2) as (I1 & I2 & I3).
  unfold client_data in D. destruct (loop_told _ _ _ _ _ _ D C1) as (L1 & L2 & L3 & L4).
  split; [eapply same_trans; eassumption |]. split.
  - intros b Hb. apply in_app_or in Hb. destruct Hb as [Hb | Hb]; [| exact (I2 b Hb)].
    destruct (negb (d_hfound s)) eqn:Rq; [| destruct (L3 eq_refl b Hb)].
    destruct (L2 eq_refl b Hb) as [X Y]. destruct (I1 X) as [Z T]. rewrite T. split; assumption.
  - intros A B. apply in_or_app. rewrite A in L4. destruct (d_hfound s1) eqn:T.
    + left. destruct (I1 T) as [Z W]. rewrite W. apply L4; [reflexivity | reflexivity | reflexivity].
    + right. apply I3; [reflexivity | exact B].
Qed.

Theorem answers : forall cs e s, pieces client_data cs dstate0 = Ret (e, s) -> closed e = false ->
  match n_header (seen_of s) with
  | Some p => forall b, In (Told b) e <-> b = success p
  | None => n_session (seen_of s) = None -> forall b, ~ In (Told b) e
  end.
Proof.
  intros cs e s H C. destruct (pieces_told cs dstate0 e s H C) as (_ & T & L).
  unfold seen_of. cbn [n_header n_session]. destruct (d_hfound s) eqn:F, (d_web s) eqn:W; cbn [andb negb].
  - discriminate.
  - intros b. split; [intro X; exact (proj2 (T b X)) | intros ->; apply L; reflexivity].
  - discriminate.
  - intros _ b X. destruct (T b X) as [Y _]. congruence.
Qed.
