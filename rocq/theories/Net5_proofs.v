(** Proofs about the composition of two endpoints, part 5: nothing is forgotten. *)
From Verif Require Import Base Tac Varint_model Frames_model Reasm_model Reasm_spec Stream_model Stream_spec
  Send_model Send_spec Send_proofs Send2_proofs Send3_proofs Repeat_model Repeat_spec Repeat4_proofs
  Net_model Net_spec Net_proofs Net2_proofs Net3_proofs Net4_proofs.

Lemma waiting_fun p fs : waiting p fs -> forall fs', waiting p fs' -> fs = fs'.
Proof.
  intros H fs' H'. inversion H; subst; inversion H'; subst.
  match goal with A : skipn ?k ?b = _ :: _, B : skipn ?k ?b = _ :: _ |- _ => rewrite A in B; injection B as <- <- end.
  match goal with A : parse_stream ?k ?b = _, B : parse_stream ?k ?b = _ |- _ => rewrite A in B; injection B as <- <- <- <- <- end.
  f_equal. eapply streams_fun; eassumption.
Qed.

Lemma waits_fun q : forall fss fss', queue_waits q fss -> queue_waits q fss' -> fss = fss'.
Proof.
  induction q as [| p q IH]; intros fss fss' H H'; inversion H; subst; inversion H'; subst; [reflexivity |].
  f_equal; [| apply IH; assumption].
  match goal with A : _ /\ _, B : _ /\ _ |- _ => destruct A as (_ & _ & A & _), B as (_ & _ & B & _); eapply waiting_fun; eassumption end.
Qed.

Lemma log_byte_sfrs its id i v : log_byte its id i v -> exists f, In f (sfrs_of its) /\ frame_byte f id i v.
Proof. intros (off & fin & d & H & X). exists (id, off, fin, d). split; [apply sfrs_in, H | exact X]. Qed.

Definition all_kept (evs : list nev) (n : net) : Prop :=
  (forall k st pos, In (NLost k st pos) evs -> nth_error (a_packets n) k <> None) /\
  forall id i v, log_byte (a_log n) id i v -> under_way evs n id i v \/ waits_again n id i v \/ given_up evs id i.

Lemma kept_other evs e n n' : (forall k st pos, e <> NLost k st pos) -> a_packets n' = a_packets n -> a_queue n' = a_queue n ->
  (forall id i v, log_byte (a_log n') id i v -> log_byte (a_log n) id i v) -> all_kept evs n -> all_kept (evs ++ [e]) n'.
Proof.
  intros He Ep Eq El [K1 K2]. split.
  - intros k st pos H. rewrite Ep. apply in_app_or in H. destruct H as [H | [H | []]]; [eapply K1, H | destruct (He _ _ _ H)].
  - intros id i v H. destruct (K2 _ _ _ (El _ _ _ H)) as [X | [X | X]].
    + left. destruct X as (k & b & fs & f & X1 & X2 & X3). exists k, b, fs, f. rewrite Ep. split; [exact X1 |]. split; [| exact X3].
      intros st pos Y. apply in_app_or in Y. destruct Y as [Y | [Y | []]]; [eapply X2, Y | destruct (He _ _ _ Y)].
    + right. left. unfold waits_again. rewrite Eq. exact X.
    + right. right. destruct X as (room & parts & st & pos & X1 & X2). exists room, parts, st, pos. split; [apply in_or_app; auto | exact X2].
Qed.

Lemma step_kept cl b0 evs n e n' : n_inv cl b0 evs n -> nev_ok e -> net_step n e = Some n' -> bytes_written (a_log n') ->
  all_kept evs n -> all_kept (evs ++ [e]) n'.
Proof.
  intros [IA IP IB] He H Hw [K1 K2].
  destruct e as [room parts | k streams pos | e | k o ep | o]; cbn [net_step nev_ok] in *.
  - destruct He as [Hr Hp].
    destruct (build parts (a_snd n) (a_queue n) (a_log n) room) as [[[[c q] log] b] |] eqn:E; [| discriminate].
    apply some_inj in H. subst n'. cbn [a_log] in *.
    destruct (build_spec cl parts _ _ _ _ _ _ _ _ Hp Hr IA E Hw) as (I1 & its & R & B & S & Z & K).
    destruct (ai_q _ _ _ _ IA) as (fss & Hq & _). destruct (K fss Hq) as (fss' & new & Hq' & El & X).
    assert (Old : forall k st pos, In (NLost k st pos) (evs ++ [NPacket room parts]) -> In (NLost k st pos) evs).
    { intros k st pos Y. apply in_app_or in Y. destruct Y as [Y | [Y | []]]; [exact Y | discriminate]. }
    split.
    { intros k st pos Y. apply Old, K1 in Y. cbn [a_packets]. apply nth_error_Some. rewrite app_length. apply nth_error_Some in Y. lia. }
    intros id i v Hl. cbn [a_log] in Hl. rewrite El in Hl. apply log_byte_app in Hl.
    assert (G : given_up evs id i -> given_up (evs ++ [NPacket room parts]) id i).
    { intros (r0 & p0 & st & pos & Y1 & Y2). exists r0, p0, st, pos. split; [apply in_or_app; auto | exact Y2]. }
    assert (Y : log_byte new id i v \/ pending_byte fss id i v -> under_way (evs ++ [NPacket room parts]) (mk_net c q log (a_packets n ++ [b]) (b_rcv n) (b_ok n)) id i v
      \/ waits_again (mk_net c q log (a_packets n ++ [b]) (b_rcv n) (b_ok n)) id i v \/ given_up (evs ++ [NPacket room parts]) id i).
    { intro Y. destruct (X _ _ _ Y) as [Z1 | [Z1 | (st & pos & Z1 & Z2)]].
      - left. apply log_byte_sfrs in Z1. destruct Z1 as (f & F1 & F2).
        exists (length (a_packets n)), b, (sfrs_of its), f. cbn [a_packets]. split.
        { rewrite nth_error_app2, Nat.sub_diag by lia. reflexivity. }
        split; [| split; [eapply readable_streams; eassumption | auto]].
        intros st pos V. apply Old, K1 in V. apply V. apply nth_error_None. lia.
      - right. left. exists fss'. cbn [a_queue]. auto.
      - right. right. exists room, parts, st, pos. split; [apply in_or_app; cbn; auto | auto]. }
    destruct Hl as [Hl | Hl]; [| apply Y; auto].
    destruct (K2 _ _ _ Hl) as [V | [V | V]]; [| | auto].
    + left. destruct V as (k & b1 & fs & f & V1 & V2 & V3). exists k, b1, fs, f. cbn [a_packets].
      split; [rewrite nth_error_app1; [exact V1 | apply nth_error_Some; congruence] |]. split; [| exact V3].
      intros st pos V. apply Old in V. eapply V2, V.
    + destruct V as (fss0 & V1 & V2). rewrite (waits_fun _ _ _ V1 Hq) in V2. apply Y. auto.
  - destruct (nth_error (a_packets n) k) as [b |] eqn:En; [| discriminate].
    destruct (queue_lost streams b pos (a_queue n)) as [q |] eqn:Eq; [| discriminate].
    apply some_inj in H. subst n'. cbn [a_log] in *. destruct IA as [HA Hn Hen (fss & Hq & Hs)].
    assert (Pb : packet_ok cl (a_log n) b) by (rewrite Forall_forall in IP; apply IP; eapply nth_error_In, En).
    destruct Pb as (its & room & P1 & P2 & P3 & P4).
    assert (Ps := readable_streams _ _ _ P2 P1).
    destruct (queue_lost_spec streams b (sfrs_of its) (a_queue n) fss pos He Hq P1 Ps) as (q1 & fss1 & E1 & Hq1 & Sm).
    { eapply Forall_impl; [| exact P3]. intros [[[id off] fin] d] (X & _). exact X. }
    rewrite E1 in Eq. apply some_inj in Eq. subst q1. split.
    { intros k' st' pos' Y. cbn [a_packets]. apply in_app_or in Y. destruct Y as [Y | [Y | []]]; [eapply K1, Y |].
      injection Y as <- <- <-. congruence. }
    intros id i v Hl. cbn [a_log] in Hl. destruct (K2 _ _ _ Hl) as [V | [V | V]].
    + destruct V as (k' & b1 & fs & f & V1 & V2 & V3 & V4 & V5). destruct (Nat.eq_dec k k') as [<- | Nk].
      * right. left. exists fss1. cbn [a_queue]. split; [exact Hq1 |]. exists f. split; [| exact V5].
        apply Sm. cbn [concat]. apply in_or_app. left. rewrite En in V1. apply some_inj in V1. subst b1.
        rewrite (streams_fun _ _ Ps _ V3). exact V4.
      * left. exists k', b1, fs, f. cbn [a_packets]. split; [exact V1 |]. split; [| auto].
        intros st' pos' Y. apply in_app_or in Y. destruct Y as [Y | [Y | []]]; [eapply V2, Y |]. injection Y as -> _ _. congruence.
    + right. left. destruct V as (fss0 & V1 & f & V2 & V3). rewrite (waits_fun _ _ _ V1 Hq) in V2.
      exists fss1. cbn [a_queue]. split; [exact Hq1 |]. exists f. split; [| exact V3]. apply Sm. cbn [concat]. apply in_or_app. auto.
    + right. right. destruct V as (r0 & p0 & st & pos0 & Y1 & Y2). exists r0, p0, st, pos0. split; [apply in_or_app; auto | exact Y2].
  - assert (X : exists c its, snd_step (a_snd n) e = Some (c, its) /\ (forall f r nn p a, e <> SFill f r nn p a) /\
        n' = mk_net c (a_queue n) (a_log n ++ its) (a_packets n) (b_rcv n) (b_ok n)).
    { destruct e; try discriminate; (destruct (snd_step (a_snd n) _) as [[c its] |] eqn:E; [| discriminate]);
        apply some_inj in H; exists c, its; (split; [reflexivity |]); (split; [discriminate | congruence]). }
    destruct X as (c & its & Es & Hf & ->). clear H. apply (kept_other _ _ n); try reflexivity; try discriminate; [| split; assumption].
    cbn [a_log]. intros id i v Hl. apply log_byte_app in Hl. destruct Hl as [Hl | Hl]; [exact Hl | exfalso].
    destruct Hl as (off & fin & d & Hx & _). revert Hx. clear - Es Hf.
    destruct e; cbn [snd_step] in Es; try (inv_pair Es; intros []; fail).
    + apply some_inj in Es. unfold add_to_stream in Es. destruct (for_writing (a_snd n) id0) as [c1 [s |]]; [| injection Es as <- <-; intros []].
      destruct (_ && _ && _); [injection Es as <- <-; intros [] |]. cbv zeta in Es.
      destruct (w_rst_sent s || w_stop_rcvd s); injection Es as <- <-; destruct (fin0 && negb (w_fin_req s)); cbn [In];
        intuition discriminate.
    + destruct (Hf _ _ _ _ _ eq_refl).
  - assert (X : a_packets n' = a_packets n /\ a_queue n' = a_queue n /\ a_log n' = a_log n).
    { destruct (nth_error (a_packets n) k); [| discriminate]. destruct (b_ok n); [| apply some_inj in H; subst n'; auto].
      destruct (decode_frames receiver o ep (Some (b_rcv n)) l) as [[c |] [ok |]]; try discriminate.
      apply some_inj in H. subst n'. auto. }
    destruct X as (X1 & X2 & X3). apply (kept_other _ _ n); try assumption; try discriminate; [| split; assumption]. rewrite X3. auto.
  - assert (X : a_packets n' = a_packets n /\ a_queue n' = a_queue n /\ a_log n' = a_log n).
    { destruct o; try discriminate; (destruct (b_ok n); [| apply some_inj in H; subst n'; auto]);
        match type of H with match ?x with _ => _ end = _ => destruct x as [[c ok] |] end; try discriminate;
        apply some_inj in H; subst n'; auto. }
    destruct X as (X1 & X2 & X3). apply (kept_other _ _ n); try assumption; try discriminate; [| split; assumption]. rewrite X3. auto.
Qed.

Lemma run_kept cl b0 evs : forall done n n', n_inv cl b0 done n -> Forall nev_ok evs -> net_run n evs = Some n' ->
  bytes_written (a_log n') -> all_kept done n -> all_kept (done ++ evs) n'.
Proof.
  induction evs as [| e evs IH]; intros done n n' I He H Hw K; cbn [net_run] in H.
  - apply some_inj in H. subst n'. rewrite app_nil_r. exact K.
  - inversion He as [| x y He1 He2]; subst x y. destruct (net_step n e) as [n1 |] eqn:E; [| discriminate].
    replace (done ++ e :: evs) with ((done ++ [e]) ++ evs) by (rewrite <- app_assoc; reflexivity).
    assert (Hw1 : bytes_written (a_log n1)).
    { destruct (run_log _ _ _ H) as [more Em]. rewrite Em in Hw. eapply written_prefix, Hw. }
    eapply IH; [| exact He2 | exact H | exact Hw |]; [eapply step_inv | eapply step_kept]; eassumption.
Qed.

Lemma net_kept cl prio0 p nb nu md mdr br ur evs n : net_run (net0 cl prio0 p nb nu md mdr br ur) evs = Some n ->
  Forall nev_ok evs -> bytes_written (a_log n) -> forall id i v, log_byte (a_log n) id i v ->
  under_way evs n id i v \/ waits_again n id i v \/ given_up evs id i.
Proof.
  intros H He Hw. refine (proj2 (run_kept _ _ evs [] _ _ (init_inv _ _ _ _ _ _ _ _ _) He H Hw _)).
  split; [intros ? ? ? [] |]. intros id i v X. destruct (log_byte_nil _ _ _ X).
Qed.
