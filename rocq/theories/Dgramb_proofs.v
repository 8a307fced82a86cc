(** Proofs about datagrams: how a peer reads them, the flags and the queue. *)
From Verif Require Import Base Varint_spec Varint_model Varint_proofs Frames_model Dgram_model Dgram_spec Dgram_proofs.

Lemma run_pad : forall k l, skip_run 0 (repeat 0 k ++ 48 :: l) = 48 :: l.
Proof. induction k; intros l; [reflexivity|]. simpl. apply IHk. Qed.

Lemma read_with : forall o epoch s data v bs, epoch = 1 \/ epoch = 3 -> is_varint (blen data) v -> bytes_ok (data ++ bs) ->
  blen data <= o_max_datagram o ->
  decode_one keeper o epoch s 49 (v ++ data ++ bs) = Continue (s ++ [data]) bs.
Proof.
  intros o epoch s data v bs E V B L.
  assert (D : decode_one keeper o epoch s 49 (v ++ data ++ bs) = decode_datagram keeper o 49 s (v ++ data ++ bs)) by (destruct E; subst; reflexivity).
  rewrite D. unfold decode_datagram. change (N.land 49 1 =? 0) with false. cbv iota.
  rewrite (is_varint_decode _ _ _ V B). rewrite dg_blen_app.
  replace (blen data + blen bs <? blen data) with false by lia. replace (o_max_datagram o <? blen data) with false by lia. cbn [orb].
  unfold blen. rewrite Nat2N.id. rewrite firstn_app, Nat.sub_diag, firstn_all, skipn_app, Nat.sub_diag, skipn_all. simpl.
  rewrite app_nil_r. reflexivity.
Qed.

Lemma read_end : forall o epoch s data, epoch = 1 \/ epoch = 3 -> blen data <= o_max_datagram o ->
  decode_one keeper o epoch s 48 data = Continue (s ++ [data]) [].
Proof.
  intros o epoch s data E L.
  assert (D : decode_one keeper o epoch s 48 data = decode_datagram keeper o 48 s data) by (destruct E; subst; reflexivity).
  rewrite D. unfold decode_datagram. change (N.land 48 1 =? 0) with true. cbv iota.
  replace (o_max_datagram o <? blen data) with false by lia. reflexivity.
Qed.

Lemma read_pad : forall o epoch s k l, epoch = 1 \/ epoch = 3 ->
  decode_one keeper o epoch s 0 (repeat 0 k ++ 48 :: l) = Continue s (48 :: l).
Proof.
  intros o epoch s k l E.
  assert (D : decode_one keeper o epoch s 0 (repeat 0 k ++ 48 :: l) = Continue s (skip_run 0 (repeat 0 k ++ 48 :: l))) by (destruct E; subst; reflexivity).
  rewrite D, run_pad. reflexivity.
Qed.

Lemma is_varint_bytes : forall n v, is_varint n v -> bytes_ok v.
Proof. intros n v H. destruct H as (c & H). tauto. Qed.

Lemma dgrams_bytes : forall e ds bs, dgrams e ds bs -> Forall bytes_ok ds -> bytes_ok bs.
Proof.
  intros e ds bs H. induction H as [|data b T|e data b ds bs W H IH]; intros F.
  - constructor.
  - inversion F; subst. destruct T as [k K]. apply Forall_app. split; [apply Forall_forall; intros x X; apply repeat_spec in X; subst; reflexivity|].
    constructor; [reflexivity|assumption].
  - inversion F; subst. apply Forall_app. split; [|apply IH; assumption]. destruct W as [v V]. constructor; [reflexivity|].
    apply Forall_app. split; [eapply is_varint_bytes; eassumption|assumption].
Qed.

Lemma peer_loop : forall o epoch e ds bs, epoch = 1 \/ epoch = 3 -> dgrams e ds bs -> Forall bytes_ok ds ->
  Forall (fun d => blen d <= o_max_datagram o) ds ->
  forall fuel s, (length bs <= fuel)%nat -> decode_frames_loop keeper o epoch fuel s bs = (s ++ ds, Some true).
Proof.
  intros o epoch e ds bs E H. induction H as [|data b T|e data b ds bs W H IH]; intros F L fuel s U.
  - destruct fuel; simpl; rewrite app_nil_r; reflexivity.
  - inversion L; subst. destruct T as [k K]. rewrite app_length, repeat_length in U. simpl in U. destruct k as [|k].
    + destruct fuel as [|f]; [lia|]. simpl. rewrite read_end by assumption. destruct f; reflexivity.
    + destruct fuel as [|[|f]]; [lia|lia|]. simpl. rewrite read_pad by assumption. rewrite read_end by assumption. destruct f; reflexivity.
  - inversion F; subst. inversion L; subst. pose proof (dgrams_bytes _ _ _ H ltac:(assumption)) as OK.
    destruct W as [v V]. simpl in U. rewrite !app_length in U. destruct fuel as [|f]; [lia|]. simpl. rewrite <- app_assoc.
    rewrite read_with; try assumption; [|apply Forall_app; split; assumption].
    rewrite IH; [rewrite <- app_assoc; reflexivity|assumption|assumption|lia].
Qed.

(** The loop and the peer, together. *)
Lemma loop_thm : forall limit app m r, blen m < two62 -> (forall i, length (an_calls (app i)) <= 1)%nat ->
  exists bytes r' e ds, ready_loop (S (length m)) limit app 0 m r = LDone bytes r' /\ blen bytes <= blen m /\
    dgrams e ds bytes /\ (e = true -> blen bytes = blen m) /\ (r_pure r' = match ds with [] => r_pure r | _ => false end) /\
    forall i d, nth_error ds i = Some d -> 0 < blen d <= limit /\ exists act, an_calls (app i) = [(d, act)].
Proof.
  intros limit app m r R C. destruct (loop_safe_gen (S (length m)) limit app 0 m r R) as [bytes [r' [E B]]]; [unfold blen; lia|].
  destruct (loop_one_gen _ _ _ _ _ _ _ _ R C E) as [e [ds [G1 [G2 [G3 [G4 G5]]]]]].
  exists bytes, r', e, ds. split; [exact E|]. split; [exact B|]. split; [exact G1|]. split; [exact G2|]. split; [|exact G5].
  destruct ds; [apply G4; reflexivity|apply G3; discriminate].
Qed.

Lemma peer_thm : forall o epoch e ds bytes, epoch = 1 \/ epoch = 3 -> dgrams e ds bytes -> Forall bytes_ok ds ->
  Forall (fun d => blen d <= o_max_datagram o) ds -> decode_frames keeper o epoch [] bytes = (ds, Some true).
Proof. intros. unfold decode_frames. erewrite peer_loop; try eassumption; [reflexivity|lia]. Qed.

Lemma safe_thm : forall limit app m r, blen m < two62 ->
  exists bytes r', ready_loop (S (length m)) limit app 0 m r = LDone bytes r' /\ blen bytes <= blen m.
Proof. intros. apply loop_safe_gen; [assumption|unfold blen; lia]. Qed.

(** An application that is still ready has more_data set. *)
Lemma calls_called : forall allowed l p p', calls allowed l p = Some p' ->
  (pv_called p = true -> pv_active p = pv_cnx p) -> pv_called p' = true -> pv_active p' = pv_cnx p'.
Proof.
  intros allowed l. induction l as [|[data act] l IH]; intros p p' H I; simpl in H; [inversion H; subst; exact I|].
  assert (Q : forall p1 o, provide allowed (blen data) act p = Some (p1, o) -> pv_active p1 = pv_cnx p1).
  { intros p1 o X. unfold provide in X. cbv zeta in X.
    repeat match type of X with
    | context [if ?b then _ else _] => destruct b
    | context [match ?b with _ => _ end] => destruct b
    end; inversion X; subst; reflexivity. }
  destruct (provide allowed (blen data) act p) as [[p1 o]|] eqn:E; [|discriminate]. specialize (Q _ _ eq_refl).
  destruct o as [off|]; [|eapply IH; [exact H|auto]].
  destruct (put off data (pv_mem p1)); [|discriminate]. eapply IH; [exact H|]. intros _. exact Q.
Qed.

Lemma more_gen : forall fuel limit app k m r bytes r', ready_loop fuel limit app k m r = LDone bytes r' ->
  r_cnx r' = true -> r_error r' = false -> r_more r' = true.
Proof.
  induction fuel as [|f IH]; intros limit app k m r bytes r' H K NE; [discriminate|]. simpl in H.
  destruct (r_cnx r || r_path r) eqn:RD; [|inversion H; subst; rewrite K in RD; discriminate].
  destruct (format_ready limit (app k) m r) as [[[m' after] r1]|] eqn:E; [|discriminate].
  destruct (after =? 0) eqn:E0.
  - inversion H; subst. clear H. unfold format_ready in E. destruct (blen m <? 1); [inversion E; reflexivity|].
    destruct (put 0 [49] m); [|discriminate]. destruct (blen m <? 17); [inversion E; reflexivity|]. cbv zeta in E.
    destruct (calls _ _ _) as [p|] eqn:C; [|discriminate]. pose proof (calls_called _ _ _ _ C ltac:(discriminate)) as Q.
    destruct (an_error _); inversion E; subst; [discriminate|]. cbn [r_cnx r_more] in *.
    destruct (pv_called p); [rewrite Q by reflexivity|]; rewrite K; apply orb_true_r.
  - destruct (ready_loop f limit app (S k) _ r1) eqn:L; inversion H; subst. eapply IH; eassumption.
Qed.

Lemma more_thm : forall limit app m r bytes r', ready_loop (S (length m)) limit app 0 m r = LDone bytes r' ->
  r_cnx r' = true -> r_error r' = false -> r_more r' = true.
Proof. intros. eapply more_gen; eassumption. Qed.

(** The queue. *)
Lemma queue_thm : forall data q, bytes_ok data ->
  (blen data <= 1200 -> exists f, queue_datagram data q = Some (q ++ [f]) /\ with_length data f /\ blen f <= blen data + 3) /\
  (1200 < blen data -> queue_datagram data q = None).
Proof.
  intros data q B. unfold queue_datagram. destruct (1200 <? blen data) eqn:E; [split; [lia|reflexivity]|]. split; [|lia]. intros L.
  assert (V : frames_varint_encode (blen data) 1535 <> None).
  { rewrite frames_varint_encode_eq. pose proof (vlen_bound (blen data)). destruct (encode_varint_length (blen data) <=? 1535) eqn:F; [discriminate|lia]. }
  destruct (frames_varint_encode (blen data) 1535) as [v|] eqn:F; [|congruence].
  apply dg_encode in F; [|unfold two62; lia]. destruct F as [F1 [F2 F3]].
  assert (blen v <= 2).
  { rewrite F2. unfold encode_varint_length. replace (blen data <? 16384) with true by lia. destruct (blen data <? 64); lia. }
  replace (1536 <? 1 + blen v + blen data) with false by lia.
  exists (49 :: v ++ data). split; [reflexivity|]. split; [constructor; exact F1|].
  change (49 :: v ++ data) with ([49] ++ v ++ data). rewrite !dg_blen_app. change (blen [49]) with 1. lia.
Qed.

Lemma send_thm : forall rooms q, Forall (fun f => f <> []) q ->
  let '(bs, q') := send_all rooms q in
  filter (fun l => match l with [] => false | _ => true end) bs ++ q' = q /\ length bs = length rooms /\
  forall i room b, nth_error rooms i = Some room -> nth_error bs i = Some b -> blen b <= room.
Proof.
  induction rooms as [|room rooms IH]; intros q F; simpl.
  - split; [reflexivity|]. split; [reflexivity|]. intros [|i]; discriminate.
  - unfold send_queued. destruct q as [|f q].
    + specialize (IH [] F). destruct (send_all rooms []) as [bs q'']. simpl. destruct IH as [A [B C]]. split; [exact A|]. split; [lia|].
      intros [|i] r b; simpl; intros X Y; [inversion X; inversion Y; subst; unfold blen; simpl; lia|eapply C; eassumption].
    + destruct (room <? blen f) eqn:E.
      * specialize (IH (f :: q) F). destruct (send_all rooms (f :: q)) as [bs q'']. simpl. destruct IH as [A [B C]]. split; [exact A|]. split; [lia|].
        intros [|i] r b; simpl; intros X Y; [inversion X; inversion Y; subst; unfold blen; simpl; lia|eapply C; eassumption].
      * inversion F; subst. specialize (IH q ltac:(assumption)). destruct (send_all rooms q) as [bs q'']. simpl. destruct IH as [A [B C]].
        split; [destruct f; [congruence|]; simpl; rewrite A; reflexivity|]. split; [lia|].
        intros [|i] r b; simpl; intros X Y; [inversion X; inversion Y; subst; lia|eapply C; eassumption].
Qed.

(** Counterexamples. *)
Definition app1 (data : list N) (act : N) : nat -> answer := fun k => match k with O => mk_answer [(data, act)] false | _ => mk_answer [] false end.
Definition asks0 : ready := mk_ready true false false true false.
Definition opt0 (limit : N) : options := mk_opt true false false false false false limit 0 3.
(** A frame longer than the limit of the peer. *)
Lemma w_limit : exists limit app m bytes r' data, blen m < two62 /\ (forall i, length (an_calls (app i)) <= 1)%nat /\
  ready_loop (S (length m)) limit app 0 m asks0 = LDone bytes r' /\ with_length data bytes /\ limit < blen bytes.
Proof.
  exists 20, (app1 (repeat 7 20) 0), (repeat 0 40), (49 :: [20] ++ repeat 7 20), (mk_ready false false false false false), (repeat 7 20).
  split; [vm_compute; reflexivity|]. split; [intros [|i]; simpl; lia|]. split; [vm_compute; reflexivity|]. split; [|vm_compute; reflexivity].
  constructor. change (blen (repeat 7 20)) with 20. change [20] with (varint_bytes 20). apply varint_bytes_is_varint. reflexivity.
Qed.
(** A queued datagram for a peer that takes none. *)
Lemma w_queue : exists data f, queue_datagram data [] = Some [f] /\ fst (fst (send_queued 1200 [f] false)) = f /\
  decode_frames judge (opt0 0) 3 [] f = ([(7, 49)], Some false).
Proof. exists [1; 2; 3], [49; 3; 1; 2; 3]. repeat split; vm_compute; reflexivity. Qed.
(** A second call: a long datagram, then a short one; the type of the frame is lost. *)
Lemma w_twice : exists m bytes r' d1 d2, blen m < two62 /\
  ready_loop (S (length m)) 1200 (fun k => match k with O => mk_answer [(d1, 0); (d2, 0)] false | _ => mk_answer [] false end) 0 m asks0 = LDone bytes r' /\
  decode_frames keeper (opt0 1200) 3 [] bytes = ([blen d2 :: d2], Some true).
Proof.
  exists (repeat 9 20), (48 :: [3] ++ [1; 1; 1]), (mk_ready false false false false false), (repeat 5 19), [1; 1; 1].
  repeat split; vm_compute; reflexivity.
Qed.
(** Ready on this path only: more_data is not set. *)
Lemma w_path : exists m bytes r', blen m < two62 /\
  ready_loop (S (length m)) 1200 (fun _ => mk_answer [([], 2)] false) 0 m asks0 = LDone bytes r' /\
  r_path r' = true /\ r_error r' = false /\ r_more r' = false.
Proof. exists (repeat 0 40), [], (mk_ready false true false true false). repeat split; vm_compute; reflexivity. Qed.
(** A queued datagram can wait for ever: it is larger than the room of packets of 1200 bytes. *)
Lemma w_stuck : exists data f, blen data = 1200 /\ queue_datagram data [] = Some [f] /\
  forall rooms, Forall (fun room => room <= 1200) rooms -> snd (send_all rooms [f]) = [f].
Proof.
  exists (repeat 1 1200), (49 :: [68; 176] ++ repeat 1 1200). split; [vm_compute; reflexivity|]. split; [vm_compute; reflexivity|].
  assert (B : blen (49 :: [68; 176] ++ repeat 1 1200) = 1203) by (vm_compute; reflexivity).
  remember (49 :: [68; 176] ++ repeat 1 1200) as f eqn:X. clear X.
  induction rooms as [|room rooms IH]; intros F; [reflexivity|]. inversion F as [|? ? F1 F2]; subst. simpl.
  replace (room <? blen f) with true by lia. specialize (IH F2). destruct (send_all rooms [f]). simpl in *. exact IH.
Qed.

(** What fits is sent. *)
Lemma sent_thm : forall limit app m r data act, blen m < two62 -> r_cnx r || r_path r = true ->
  an_calls (app 0%nat) = [(data, act)] -> an_error (app 0%nat) = false -> 17 <= blen m -> 0 < blen data <= limit ->
  blen data < blen m ->
  exists bytes r', ready_loop (S (length m)) limit app 0 m r = LDone bytes r' /\ blen data < blen bytes.
Proof.
  intros limit app m r data act R K AN AE B L F.
  destruct (loop_safe_gen (S (length m)) limit app 0 m r R) as [bytes [r' [E _]]]; [unfold blen; lia|].
  exists bytes, r'. split; [exact E|]. cbn [ready_loop] in E. rewrite K in E.
  destruct (format_safe limit (app 0%nat) m r R) as [m' [after [r1 [G [G1 [G2 _]]]]]]. rewrite G in E.
  assert (Z : blen data < after).
  { clear E. unfold format_ready in G. replace (blen m <? 1) with false in G by lia.
    destruct (put_thm 0 [49] m) as [m1 [M1 [M2 M3]]]; [change (blen [49]) with 1; lia|]. rewrite M1 in G.
    replace (blen m <? 17) with false in G by lia. cbv zeta in G. rewrite AN, AE in G.
    set (allowed := if limit <? blen m - 1 then limit else blen m - 1) in G.
    assert (AL : allowed <= blen m - 1 /\ blen data <= allowed) by (unfold allowed; destruct (limit <? blen m - 1) eqn:E3; lia).
    simpl in G. destruct (provide_thm allowed (blen data) act (mk_prov m1 0 false false (r_cnx r) (r_path r))) as [p [o [E [_ [_ [_ [_ [_ O]]]]]]]];
      cbn [pv_mem]; try lia. rewrite E in G. destruct o as [off|]; [|destruct O as [O _]; lia].
    destruct O as [O1 [O2 [O3 O4]]]. destruct (put off data (pv_mem p)) as [m2|]; [|discriminate]. cbn [pv_mem pv_after] in G.
    assert (after = pv_after p) by (inversion G; reflexivity). subst after.
    destruct O4 as [[v [_ [V _]]]|[T _]]; [lia|]. cbn [pv_mem] in T. lia. }
  replace (after =? 0) with false in E by lia.
  destruct (ready_loop (length m) limit app 1 (skipn (N.to_nat after) m') r1) as [| |b2 r2]; inversion E; subst.
  rewrite dg_blen_app. unfold blen in *. rewrite firstn_length. lia.
Qed.

Definition app2 (k : nat) : answer := match k with O => mk_answer [(repeat 8 17, 1)] false | _ => mk_answer [(repeat 6 70, 1)] false end.

(** more_data, for the queue. *)
Lemma queue_more_thm : forall room q more, let '(b, q', m) := send_queued room q more in q' <> [] -> m = true.
Proof.
  intros room q more. unfold send_queued. destruct q as [|f q]; [congruence|]. destruct (room <? blen f); [reflexivity|].
  destruct q; [congruence|]. intros _. apply orb_true_r.
Qed.
