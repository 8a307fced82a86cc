(** Proofs about the composition of two endpoints, part 4: histories. *)
From Verif Require Import Base Tac Varint_model Frames_model Reasm_model Reasm_spec Stream_model Stream_spec Stream3_proofs
  Stream4_proofs Send_model Send_spec Send_proofs Send2_proofs Send3_proofs Repeat_model Repeat_spec Repeat4_proofs
  Net_model Net_spec Net_proofs Net2_proofs Net3_proofs.

(** The operations of B for a list of frames. *)
Fixpoint ops_of (its : list item) : list sop :=
  match its with
  | [] => []
  | IStream id off fin d :: r => OpStream id off fin d :: ops_of r
  | IReset id _ final :: r => OpReset id final :: ops_of r
  | IStop id _ :: r => OpStopFrame id :: ops_of r
  | _ :: r => ops_of r
  end.

Lemma ops_stream its id off fin d : In (OpStream id off fin d) (ops_of its) <-> In (id, off, fin, d) (sfrs_of its).
Proof.
  induction its as [| x its IH]; [reflexivity |].
  destruct x; cbn [ops_of sfrs_of In]; rewrite IH; try reflexivity.
  - split; (intros [H | H]; [left; injection H as <- <- <- <-; reflexivity | right; exact H]).
  - split; [intros [H | H]; [discriminate | exact H] | auto].
  - split; [intros [H | H]; [discriminate | exact H] | auto].
Qed.

Lemma ops_reset its id final : In (OpReset id final) (ops_of its) -> exists e, In (IReset id e final) its.
Proof.
  induction its as [| x its IH]; [intros [] |].
  destruct x; cbn [ops_of In]; intro H; try (destruct (IH H) as [e He]; exists e; auto; fail).
  all: destruct H as [H | H]; try discriminate; try (destruct (IH H) as [e He]; exists e; auto; fail).
  injection H as <- <-. exists err. auto.
Qed.

Lemma ops_frames its o : In o (ops_of its) -> (forall id, o <> OpStop id) /\ (forall id, o <> OpDiscard id).
Proof.
  induction its as [| x its IH]; [intros [] |].
  destruct x; cbn [ops_of In]; auto; intros [<- | H]; auto; split; discriminate.
Qed.

Lemma process_receiver its : forall c, process receiver (Some c) (Send_spec.frames_of its) =
  match srun c (ops_of its) with Some (c', ok) => (Some c', ok) | None => (None, false) end.
Proof.
  induction its as [| x its IH]; intro c; [reflexivity |].
  destruct x as [id d | id | id off fin d | id err final | id err]; cbn [Send_spec.frames_of ops_of process srun sstep receiver h_frame]; try apply IH.
  - destruct (stream_frame c id off fin d) as [[c1 []] |]; [apply IH | reflexivity | reflexivity].
  - destruct (reset_frame c id final) as [c1 []]; [apply IH | reflexivity].
  - destruct (stop_sending_frame c id) as [c1 []]; [apply IH | reflexivity].
Qed.

Lemma srun_app a b : forall c, srun c (a ++ b) =
  match srun c a with Some (c1, true) => srun c1 b | r => r end.
Proof.
  induction a as [| o a IH]; intro c; cbn [app srun].
  - reflexivity.
  - destruct (sstep c o) as [[c1 []] |]; [apply IH | reflexivity | reflexivity].
Qed.

(** Invariant of B. *)
Record b_inv (b0 : scnx) (evs : list nev) (n : net) : Prop := mk_binv {
  bi_ops : exists ops, srun b0 ops = Some (b_rcv n, b_ok n) /\
    (forall id off fin d, In (OpStream id off fin d) ops -> arrived evs n (id, off, fin, d)) /\
    (b_ok n = true -> forall id off fin d, arrived evs n (id, off, fin, d) -> In (OpStream id off fin d) ops) /\
    (forall id final, In (OpReset id final) ops -> exists e f, In (IReset id e f) (a_log n)) /\
    (forall id, In (OpStop id) ops -> In (NLocalB (OpStop id)) evs) /\
    (forall id, In (OpDiscard id) ops -> In (NLocalB (OpDiscard id)) evs);
  bi_known : forall k o ep, In (NArrive k o ep) evs -> nth_error (a_packets n) k <> None }.

Record n_inv (cl : bool) (b0 : scnx) (evs : list nev) (n : net) : Prop := mk_ninv {
  ni_a : a_inv cl (a_snd n) (a_queue n) (a_log n);
  ni_p : Forall (packet_ok cl (a_log n)) (a_packets n);
  ni_b : b_inv b0 evs n }.

Lemma packet_more cl log more b : packet_ok cl log b -> packet_ok cl (log ++ more) b.
Proof.
  intros (its & room & H1 & H2 & H3 & H4). exists its, room. split; [exact H1 |]. split; [exact H2 |].
  split; [apply forall_slice_more, H3 |]. intros id e f H. apply in_or_app. left. eapply H4, H.
Qed.

(** Events at A keep B's invariant. *)
Lemma b_inv_a b0 evs e n n' : (forall k o ep, e <> NArrive k o ep) -> (exists more, a_packets n' = a_packets n ++ more) ->
  (exists more, a_log n' = a_log n ++ more) -> b_rcv n' = b_rcv n -> b_ok n' = b_ok n ->
  b_inv b0 evs n -> b_inv b0 (evs ++ [e]) n'.
Proof.
  intros He [mp Hp] [ml Hl] Er Eo [(ops & O1 & O2 & O3 & O4 & O5 & O6) K].
  assert (K1 : forall k o ep, In (NArrive k o ep) (evs ++ [e]) -> In (NArrive k o ep) evs).
  { intros k o ep H. apply in_app_or in H. destruct H as [H | [H | []]]; [exact H | destruct (He _ _ _ H)]. }
  assert (Nth : forall k b, nth_error (a_packets n) k = Some b -> nth_error (a_packets n') k = Some b).
  { intros k b H. rewrite Hp, nth_error_app1; [exact H |]. apply nth_error_Some. congruence. }
  constructor.
  - exists ops. rewrite Er, Eo. split; [exact O1 |]. split; [| split; [| split; [| split]]].
    + intros id off fin d H. destruct (O2 _ _ _ _ H) as (k & o & ep & b & fs & X1 & X2 & X3 & X4).
      exists k, o, ep, b, fs. split; [apply in_or_app; auto |]. auto.
    + intros Hok id off fin d (k & o & ep & b & fs & X1 & X2 & X3 & X4). apply (O3 Hok). apply K1 in X1.
      exists k, o, ep, b, fs. split; [exact X1 |]. split; [| auto].
      destruct (nth_error (a_packets n) k) as [b1 |] eqn:E; [| destruct (K _ _ _ X1 E)].
      rewrite (Nth _ _ E) in X2. exact X2.
    + intros id final H. destruct (O4 _ _ H) as (x & f & X). exists x, f. rewrite Hl. apply in_or_app. auto.
    + intros id H. apply in_or_app. auto.
    + intros id H. apply in_or_app. auto.
  - intros k o ep H. apply K1 in H. specialize (K _ _ _ H). destruct (nth_error (a_packets n) k) as [b |] eqn:E; [| congruence].
    rewrite (Nth _ _ E). discriminate.
Qed.

Lemma step_log n e n' : net_step n e = Some n' -> exists more, a_log n' = a_log n ++ more.
Proof.
  assert (Same : exists more, a_log n = a_log n ++ more) by (exists []; rewrite app_nil_r; reflexivity).
  intro H. destruct e as [room parts | k streams pos | e | k o ep | o]; cbn [net_step] in H.
  - destruct (build parts (a_snd n) (a_queue n) (a_log n) room) as [[[[c q] log] b] |] eqn:E; [| discriminate].
    apply some_inj in H. subst n'. cbn [a_log]. eapply build_log, E.
  - destruct (nth_error (a_packets n) k); [| discriminate]. destruct (queue_lost streams l pos (a_queue n)); [| discriminate].
    apply some_inj in H. subst n'. exact Same.
  - assert (X : exists c its, n' = mk_net c (a_queue n) (a_log n ++ its) (a_packets n) (b_rcv n) (b_ok n)).
    { destruct e; try discriminate;
        match type of H with match ?x with _ => _ end = _ => destruct x as [[c its] |] end; try discriminate;
        apply some_inj in H; exists c, its; congruence. }
    destruct X as (c & its & ->). exists its. reflexivity.
  - destruct (nth_error (a_packets n) k); [| discriminate]. destruct (b_ok n); [| apply some_inj in H; subst n'; exact Same].
    destruct (decode_frames receiver o ep (Some (b_rcv n)) l) as [[c |] [ok |]]; try discriminate.
    apply some_inj in H. subst n'. exact Same.
  - destruct o; try discriminate; (destruct (b_ok n); [| apply some_inj in H; subst n'; exact Same]);
      match type of H with match ?x with _ => _ end = _ => destruct x as [[c ok] |] end; try discriminate;
      apply some_inj in H; subst n'; exact Same.
Qed.

Lemma packet_decode cl log b o ep c : packet_ok cl log b -> (ep = 1 \/ ep = 3) ->
  exists its, payload_streams b (sfrs_of its) /\ Forall (slice cl log) (sfrs_of its) /\ resets_in its log /\
    decode_frames receiver o ep (Some c) b =
      match srun c (ops_of its) with Some (c', ok) => (Some c', Some ok) | None => (None, Some false) end.
Proof.
  intros (its & room & H1 & H2 & H3 & H4) He. exists its. split; [eapply readable_streams; eassumption |].
  split; [exact H3 |]. split; [exact H4 |]. destruct H2 as [L R].
  specialize (R _ receiver o ep He (fun s => eq_refl) [] (Some c)). rewrite app_nil_r in R.
  rewrite R; [| exact H1 | change (blen (@nil N)) with 0; lia]. rewrite process_receiver.
  destruct (srun c (ops_of its)) as [[c' []] |]; reflexivity.
Qed.

Lemma step_inv cl b0 evs n e n' : n_inv cl b0 evs n -> nev_ok e -> net_step n e = Some n' -> bytes_written (a_log n') ->
  n_inv cl b0 (evs ++ [e]) n'.
Proof.
  intros [IA IP IB] He H Hw. assert (Hlog := step_log _ _ _ H).
  assert (SameB : forall e n', (forall k o ep, e <> NArrive k o ep) -> (exists more, a_packets n' = a_packets n ++ more) ->
    (exists more, a_log n' = a_log n ++ more) -> b_rcv n' = b_rcv n -> b_ok n' = b_ok n -> b_inv b0 (evs ++ [e]) n').
  { intros. eapply b_inv_a; try eassumption. }
  assert (Nil : forall {X} (l : list X), exists more, l = l ++ more) by (intros X l; exists []; rewrite app_nil_r; reflexivity).
  destruct e as [room parts | k streams pos | e | k o ep | o]; cbn [net_step nev_ok] in *.
  - destruct He as [Hr Hp].
    destruct (build parts (a_snd n) (a_queue n) (a_log n) room) as [[[[c q] log] b] |] eqn:E; [| discriminate].
    apply some_inj in H. subst n'. cbn [a_log] in *.
    destruct (build_spec cl parts _ _ _ _ _ _ _ _ Hp Hr IA E Hw) as (I1 & its & R & B & S & Z & _).
    destruct Hlog as [more ->]. constructor; cbn [a_snd a_queue a_log a_packets].
    + exact I1.
    + apply Forall_app. split; [eapply Forall_impl; [| exact IP]; intro; apply packet_more |].
      constructor; [| constructor]. exists its, room. auto.
    + apply SameB; try reflexivity; try discriminate; eexists; reflexivity.
  - destruct (nth_error (a_packets n) k) as [b |] eqn:En; [| discriminate].
    destruct (queue_lost streams b pos (a_queue n)) as [q |] eqn:Eq; [| discriminate].
    apply some_inj in H. subst n'. cbn [a_log] in *. destruct IA as [HA Hn Hen (fss & Hq & Hs)].
    assert (Pb : packet_ok cl (a_log n) b) by (rewrite Forall_forall in IP; apply IP; eapply nth_error_In, En).
    destruct Pb as (its & room & P1 & P2 & P3 & P4).
    assert (Ps := readable_streams _ _ _ P2 P1).
    destruct (queue_lost_spec streams b (sfrs_of its) (a_queue n) fss pos He Hq P1 Ps) as (q1 & fss1 & E1 & Hq1 & Sm).
    { eapply Forall_impl; [| exact P3]. intros [[[id off] fin] d] (X & _). exact X. }
    rewrite E1 in Eq. apply some_inj in Eq. subst q1.
    constructor; cbn [a_snd a_queue a_log a_packets].
    + constructor; [exact HA | exact Hn | exact Hen |]. exists fss1. split; [exact Hq1 |].
      apply Forall_forall. intros f Hf. apply Sm in Hf. cbn [concat] in Hf. apply in_app_or in Hf.
      rewrite Forall_forall in P3, Hs. destruct Hf; auto.
    + exact IP.
    + apply SameB; try reflexivity; try discriminate; apply Nil.
  - assert (X : exists c its, snd_step (a_snd n) e = Some (c, its) /\ (forall f r nn p a, e <> SFill f r nn p a) /\
        n' = mk_net c (a_queue n) (a_log n ++ its) (a_packets n) (b_rcv n) (b_ok n)).
    { destruct e; try discriminate; (destruct (snd_step (a_snd n) _) as [[c its] |] eqn:E; [| discriminate]);
        apply some_inj in H; exists c, its; (split; [reflexivity |]); (split; [discriminate | congruence]). }
    destruct X as (c & its & Es & Hf & ->). clear H. cbn [a_log] in *.
    destruct IA as [(A & M & HA & I) Hn Hen (fss & Hq & Hs)].
    destruct (step_ok _ _ _ _ _ _ _ _ I Es) as [I1 G1].
    constructor; cbn [a_snd a_queue a_log a_packets].
    + constructor.
      * eexists _, _. split; [| exact I1]. intro id. cbv beta. assert (X := limit_fits cl id e He). specialize (HA id). lia.
      * exact (named_step A M cl (a_log n) (a_snd n) e c its I HA He Hf Hn Es).
      * apply Forall_app. split; [exact Hen |].
        assert (X : forall x, In x its -> item_enc x).
        { intros x Hx. destruct e; cbn [snd_step] in Es; try (inv_pair Es; destruct Hx; fail).
          - apply some_inj in Es. unfold add_to_stream in Es. destruct (for_writing (a_snd n) id) as [c1 [s |]]; [| injection Es as <- <-; destruct Hx].
            destruct (_ && _ && _); [injection Es as <- <-; destruct Hx |]. cbv zeta in Es.
            destruct (w_rst_sent s || w_stop_rcvd s); injection Es as <- <-; destruct (fin && negb (w_fin_req s)); cbn [In] in Hx;
              intuition (subst; exact Logic.I).
          - destruct (Hf _ _ _ _ _ eq_refl). }
        apply Forall_forall. exact X.
      * exists fss. split; [exact Hq | apply forall_slice_more, Hs].
    + eapply Forall_impl; [| exact IP]. intro; apply packet_more.
    + apply SameB; try reflexivity; try discriminate; [apply Nil | exists its; reflexivity].
  - destruct (nth_error (a_packets n) k) as [b |] eqn:En; [| discriminate].
    assert (Pb : packet_ok cl (a_log n) b) by (rewrite Forall_forall in IP; apply IP; eapply nth_error_In, En).
    destruct (packet_decode _ _ _ o ep (b_rcv n) Pb He) as (its & P1 & P2 & P3 & P4).
    destruct IB as [(ops & O1 & O2 & O3 & O4 & O5 & O6) K].
    assert (Known : forall n', a_packets n' = a_packets n -> forall k' o' ep', In (NArrive k' o' ep') (evs ++ [NArrive k o ep]) ->
       nth_error (a_packets n') k' <> None).
    { intros n1 E k' o' ep' X. rewrite E. apply in_app_or in X. destruct X as [X | [X | []]]; [eapply K, X |].
      injection X as -> -> ->. congruence. }
    assert (Arr : forall n', a_packets n' = a_packets n -> forall f, arrived evs n f -> arrived (evs ++ [NArrive k o ep]) n' f).
    { intros n1 E f (k' & o' & ep' & b' & fs & X1 & X2 & X3 & X4). exists k', o', ep', b', fs. rewrite E.
      split; [apply in_or_app; auto | auto]. }
    destruct (b_ok n) eqn:Eb.
    + rewrite P4 in H. destruct (srun (b_rcv n) (ops_of its)) as [[c ok] |] eqn:Er; [| discriminate].
      apply some_inj in H. subst n'. cbn [a_log] in *. constructor; cbn [a_snd a_queue a_log a_packets]; try assumption.
      constructor; [| apply Known; reflexivity]. cbn [a_log a_packets b_rcv b_ok]. exists (ops ++ ops_of its). split; [rewrite srun_app, O1; exact Er |].
      split; [| split; [| split; [| split]]].
      * intros id off fin d X. apply in_app_or in X. destruct X as [X | X]; [apply Arr; [reflexivity | auto] |].
        apply ops_stream in X. exists k, o, ep, b, (sfrs_of its). cbn [a_packets]. split; [apply in_or_app; cbn; auto | auto].
      * intros _ id off fin d (k' & o' & ep' & b' & fs & X1 & X2 & X3 & X4). cbn [a_packets] in X2. apply in_or_app.
        apply in_app_or in X1. destruct X1 as [X1 | [X1 | []]].
        -- left. apply O3; [reflexivity |]. exists k', o', ep', b', fs. auto.
        -- right. injection X1 as -> -> ->. rewrite En in X2. apply some_inj in X2. subst b'. apply ops_stream.
           rewrite (streams_fun _ _ P1 _ X3). exact X4.
      * intros id final X. apply in_app_or in X. destruct X as [X | X]; [eapply O4, X |].
        apply ops_reset in X. destruct X as [x X]. exists x, final. apply P3, X.
      * intros id X. apply in_app_or in X. destruct X as [X | X]; [apply in_or_app; auto |].
        destruct (ops_frames _ _ X) as [Y _]. destruct (Y _ eq_refl).
      * intros id X. apply in_app_or in X. destruct X as [X | X]; [apply in_or_app; auto |].
        destruct (ops_frames _ _ X) as [_ Y]. destruct (Y _ eq_refl).
    + apply some_inj in H. subst n'. constructor; try assumption. constructor; [| apply Known; reflexivity].
      exists ops. rewrite Eb. split; [exact O1 |]. split; [| split; [discriminate | split; [exact O4 | split]]].
      * intros id off fin d X. apply Arr; [reflexivity | auto].
      * intros id X. apply in_or_app. auto.
      * intros id X. apply in_or_app. auto.
  - assert (X : n' = n /\ b_ok n = false \/ exists c ok, b_ok n = true /\ sstep (b_rcv n) o = Some (c, ok) /\
        (forall id off fin d, o <> OpStream id off fin d) /\ (forall id f, o <> OpReset id f) /\
        n' = mk_net (a_snd n) (a_queue n) (a_log n) (a_packets n) c ok).
    { destruct o; try discriminate; (destruct (b_ok n); [right | left; apply some_inj in H; auto]);
        (destruct (sstep (b_rcv n) _) as [[c ok] |]; [| discriminate]); apply some_inj in H; exists c, ok;
        (split; [reflexivity |]); (split; [reflexivity |]); (split; [discriminate |]); (split; [discriminate |]); congruence. }
    clear H. destruct X as [[-> Eb] | (c & ok & Eb & Es & N1 & N2 & ->)].
    + constructor; try assumption. apply SameB; try reflexivity; try discriminate; apply Nil.
    + constructor; cbn [a_snd a_queue a_log a_packets]; try assumption.
      destruct IB as [(ops & O1 & O2 & O3 & O4 & O5 & O6) K].
      assert (K1 : forall k o' ep, In (NArrive k o' ep) (evs ++ [NLocalB o]) -> In (NArrive k o' ep) evs).
      { intros k o' ep X. apply in_app_or in X. destruct X as [X | [X | []]]; [exact X | discriminate]. }
      rewrite Eb in *.
      constructor; cbn [a_log a_packets b_rcv b_ok]; [| intros k o' ep X; eapply K, K1, X].
      exists (ops ++ [o]). split; [rewrite srun_app, O1; cbn [srun]; rewrite Es; destruct ok; reflexivity |].
      split; [| split; [| split; [| split]]].
      * intros id off fin d X. apply in_app_or in X. destruct X as [X | [X | []]]; [| destruct (N1 _ _ _ _ X)].
        destruct (O2 _ _ _ _ X) as (k & o' & ep & b' & fs & X1 & X2 & X3 & X4). exists k, o', ep, b', fs.
        split; [apply in_or_app; auto | auto].
      * intros _ id off fin d (k & o' & ep & b' & fs & X1 & X2 & X3 & X4). apply in_or_app. left. apply O3; [reflexivity |].
        exists k, o', ep, b', fs. split; [eapply K1, X1 | auto].
      * intros id final X. apply in_app_or in X. destruct X as [X | [X | []]]; [eapply O4, X | destruct (N2 _ _ X)].
      * intros id X. apply in_app_or in X. destruct X as [X | [-> | []]]; apply in_or_app; [left; auto | right; left; reflexivity].
      * intros id X. apply in_app_or in X. destruct X as [X | [-> | []]]; apply in_or_app; [left; auto | right; left; reflexivity].
Qed.

Lemma run_log evs : forall n n', net_run n evs = Some n' -> exists more, a_log n' = a_log n ++ more.
Proof.
  induction evs as [| e evs IH]; intros n n' H; cbn [net_run] in H.
  - apply some_inj in H. subst n'. exists []. rewrite app_nil_r. reflexivity.
  - destruct (net_step n e) as [n1 |] eqn:E; [| discriminate].
    destruct (step_log _ _ _ E) as [m1 E1]. destruct (IH _ _ H) as [m2 E2]. exists (m1 ++ m2). rewrite E2, E1, app_assoc. reflexivity.
Qed.

Lemma run_inv cl b0 evs : forall done n n', n_inv cl b0 done n -> Forall nev_ok evs -> net_run n evs = Some n' ->
  bytes_written (a_log n') -> n_inv cl b0 (done ++ evs) n'.
Proof.
  induction evs as [| e evs IH]; intros done n n' I He H Hw; cbn [net_run] in H.
  - apply some_inj in H. subst n'. rewrite app_nil_r. exact I.
  - inversion He as [| x y He1 He2]; subst x y. destruct (net_step n e) as [n1 |] eqn:E; [| discriminate].
    replace (done ++ e :: evs) with ((done ++ [e]) ++ evs) by (rewrite <- app_assoc; reflexivity).
    eapply IH; [| exact He2 | exact H | exact Hw]. eapply step_inv; try eassumption.
    destruct (run_log _ _ _ H) as [more Em]. rewrite Em in Hw. eapply written_prefix, Hw.
Qed.

Lemma init_inv cl prio0 p nb nu md mdr br ur :
  n_inv cl (scnx0 (negb cl) p nb nu md mdr br ur) [] (net0 cl prio0 p nb nu md mdr br ur).
Proof.
  constructor; cbn [net0 a_snd a_queue a_log a_packets].
  - constructor; [exists (fun _ => 0), 0; split; [reflexivity | apply inv_init] | constructor | constructor |].
    exists []. split; constructor.
  - constructor.
  - constructor; [| intros ? ? ? []]. exists []. cbn [b_rcv b_ok net0 srun]. split; [reflexivity |].
    split; [intros ? ? ? ? [] |]. split; [intros _ ? ? ? ? (k & o & ep & b & fs & [] & _) |].
    split; [intros ? ? [] |]. split; intros ? [].
Qed.

Section histories.
Variables (cl : bool) (prio0 : N) (p : params) (nb nu md mdr br ur : N) (evs : list nev) (n : net).
Hypothesis Hrun : net_run (net0 cl prio0 p nb nu md mdr br ur) evs = Some n.
Hypothesis Hok : Forall nev_ok evs.
Hypothesis Hwr : bytes_written (a_log n).

Lemma hist_inv : n_inv cl (scnx0 (negb cl) p nb nu md mdr br ur) evs n.
Proof. exact (run_inv _ _ _ [] _ _ (init_inv _ _ _ _ _ _ _ _ _) Hok Hrun Hwr). Qed.

Lemma hist_slice f : arrived evs n f -> slice cl (a_log n) f.
Proof.
  intros (k & o & ep & b & fs & X1 & X2 & X3 & X4). destruct hist_inv as [_ IP _].
  assert (Pb : packet_ok cl (a_log n) b) by (rewrite Forall_forall in IP; apply IP; eapply nth_error_In, X2).
  destruct Pb as (its & room & P1 & P2 & P3 & P4). rewrite <- (streams_fun _ _ (readable_streams _ _ _ P2 P1) _ X3) in X4.
  rewrite Forall_forall in P3. apply P3, X4.
Qed.

Lemma frames_in sid ops f : In f (Stream_spec.frames_of sid ops) <-> In (OpStream sid (f_off f) (f_fin f) (f_data f)) ops.
Proof.
  unfold Stream_spec.frames_of. rewrite in_flat_map. split.
  - intros (o & Ho & Hf). destruct o; try destruct Hf. destruct (N.eqb_spec sid0 sid) as [-> |]; [| destruct Hf].
    destruct Hf as [<- | []]. exact Ho.
  - intro H. eexists. split; [exact H |]. cbn. rewrite N.eqb_refl. left. destruct f. reflexivity.
Qed.

Lemma net_prefix id : exists t, wrote_bytes id (a_log n) = bytes_of id (k_out (b_rcv n)) ++ t.
Proof.
  destruct hist_inv as [_ _ [(ops & O1 & O2 & _) _]].
  eapply run_prefix; [exact O1 |]. intros f Hf. apply frames_in in Hf. apply O2, hist_slice in Hf.
  destruct Hf as (_ & X & _). exact X.
Qed.

Section one_stream.
Variable id : N.
Hypothesis Hb : b_ok n = true.
Hypothesis Hps : peer_sends (negb cl) id.
Hypothesis Hnr : not_reset id (a_log n).
Hypothesis Hnf : not_refused id evs.
Hypothesis Hend : ends_well id (a_log n).

Lemma not_rx_only : rx_only cl id = false.
Proof.
  unfold rx_only, bidi, mine. rewrite negb_involutive. destruct (N.testbit id 1) eqn:T; [| reflexivity].
  destruct Hps as [X | X]; [exfalso | ].
  - rewrite T in X. discriminate.
  - rewrite N.bit0_odd in X. rewrite <- N.negb_odd. destruct (N.odd id), cl; cbn in *; congruence.
Qed.

Lemma slice_carries off fin d : slice cl (a_log n) (id, off, fin, d) -> carries (wrote_bytes id (a_log n)) (mk_sframe off d fin).
Proof.
  intros (_ & X & Y). split; [exact X |]. cbn [f_fin f_off f_data]. unfold f_end. cbn [f_off f_data]. intro F.
  destruct (Y F) as (l1 & l2 & E & L & [Z | Z]); [| rewrite not_rx_only in Z; discriminate].
  apply in_split in Z. destruct Z as (u & v & Z). subst l1. rewrite L. f_equal.
  assert (W := Hend u (v ++ l2)). rewrite E, <- app_assoc in W. specialize (W eq_refl).
  rewrite wrote_app in W. apply app_eq_nil in W. destruct W as [_ W].
  rewrite E, (wrote_app id (u ++ IFin id :: v) l2), W, app_nil_r. reflexivity.
Qed.

Lemma stream_view : exists ops, srun (scnx0 (negb cl) p nb nu md mdr br ur) ops = Some (b_rcv n, true) /\
  no_reset id ops /\ wanted id ops /\ Forall (carries (wrote_bytes id (a_log n))) (Stream_spec.frames_of id ops) /\
  (forall i, covered (Stream_spec.frames_of id ops) i <-> byte_arrived evs n id i) /\
  ((exists f, In f (Stream_spec.frames_of id ops) /\ f_fin f = true) <-> fin_arrived evs n id).
Proof.
  destruct hist_inv as [_ _ [(ops & O1 & O2 & O3 & O4 & O5 & O6) _]]. rewrite Hb in *. specialize (O3 eq_refl).
  exists ops. split; [exact O1 |]. split; [intros final X; destruct (O4 _ _ X) as (e & f & Y); eapply Hnr, Y |].
  split; [destruct Hnf as [F1 F2]; split; intro X; [apply F1, O5, X | apply F2, O6, X] |].
  split; [| split].
  - apply Forall_forall. intros f Hf. apply frames_in in Hf. apply O2, hist_slice, slice_carries in Hf. destruct f. exact Hf.
  - intro i. split.
    + intros (f & Hf & L). apply frames_in in Hf. exists (f_off f), (f_fin f), (f_data f). split; [apply O2, Hf | exact L].
    + intros (off & fin & d & Ha & L). exists (mk_sframe off d fin). split; [| exact L]. apply frames_in. apply O3, Ha.
  - split.
    + intros (f & Hf & F). apply frames_in in Hf. rewrite F in Hf. exists (f_off f), (f_data f). apply O2, Hf.
    + intros (off & d & Ha). exists (mk_sframe off d true). split; [| reflexivity]. apply frames_in. apply O3, Ha.
Qed.

Lemma net_exact : exists k, (forall i, i < k -> byte_arrived evs n id i) /\ ~ byte_arrived evs n id k /\
  k <= blen (wrote_bytes id (a_log n)) /\
  bytes_of id (k_out (b_rcv n)) = firstn (N.to_nat k) (wrote_bytes id (a_log n)).
Proof.
  destruct stream_view as (ops & V1 & V2 & V3 & V4 & V5 & V6).
  destruct (delivery_exact _ _ _ _ _ _ _ _ _ _ _ _ V1 Hps V2 V3 V4) as (k & [K1 K2] & K3 & K4).
  exists k. split; [intros i Hi; apply V5, K1, Hi |]. split; [rewrite <- V5; exact K2 |]. auto.
Qed.

Lemma net_fin :
  ((exists q, In q (pieces_of id (k_out (b_rcv n))) /\ snd q = true) <->
   fin_arrived evs n id /\ forall i, i < blen (wrote_bytes id (a_log n)) -> byte_arrived evs n id i) /\
  (forall q, In q (pieces_of id (k_out (b_rcv n))) -> snd q = true ->
     bytes_of id (k_out (b_rcv n)) = wrote_bytes id (a_log n)).
Proof.
  destruct stream_view as (ops & V1 & V2 & V3 & V4 & V5 & V6).
  destruct (fin_exact _ _ _ _ _ _ _ _ _ _ _ _ V1 Hps V2 V3 V4) as (F1 & F2). split; [| exact F2].
  rewrite F1, V6. split; intros [X Y]; (split; [exact X |]); intros i Hi; apply V5, Y, Hi.
Qed.
End one_stream.

Lemma net_defined k o ep streams pos : (k < length (a_packets n))%nat -> (ep = 1 \/ ep = 3) -> prio_ok streams ->
  net_step n (NArrive k o ep) <> None /\ net_step n (NLost k streams pos) <> None.
Proof.
  intros Hk He Hpr. destruct hist_inv as [[_ _ _ (fss & Hq & _)] IP [(ops & O1 & _) _]].
  destruct (nth_error (a_packets n) k) as [b |] eqn:En; [| apply nth_error_None in En; lia].
  assert (Pb : packet_ok cl (a_log n) b) by (rewrite Forall_forall in IP; apply IP; eapply nth_error_In, En).
  cbn [net_step]. rewrite En. split.
  - destruct (b_ok n) eqn:Eb; [| discriminate].
    destruct (packet_decode _ _ _ o ep (b_rcv n) Pb He) as (its & P1 & P2 & P3 & P4). rewrite P4.
    assert (D := run_defined (negb cl) p nb nu md mdr br ur (ops ++ ops_of its)). rewrite srun_app, O1 in D.
    destruct (srun (b_rcv n) (ops_of its)) as [[c ok] |]; [discriminate | congruence].
  - destruct Pb as (its & room & P1 & P2 & P3 & P4).
    destruct (queue_lost_spec streams b (sfrs_of its) (a_queue n) fss pos Hpr Hq P1 (readable_streams _ _ _ P2 P1)) as (q1 & fss1 & E1 & _).
    { eapply Forall_impl; [| exact P3]. intros [[[i off] fin] d] (X & _). exact X. }
    rewrite E1. discriminate.
Qed.
End histories.
