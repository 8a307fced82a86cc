(** Pieces of a stream follow the machine; frames and messages, and the machine. *)
From Verif Require Import Base Tac Mem Mem_proofs Varint_spec Varint_model Varint_proofs Qpack_model H3_model H3_spec H3_proofs H3b_proofs H3c_proofs.

Lemma call_any : forall l s v q, rel s v q -> l <> [] -> bytes_ok l -> blen l < two62 ->
  exists x y, l = x ++ y /\ (x = [] -> d_parsed s = true) /\ call_ok l s v q x y.
Proof.
  intros l s v q R NE Ol Bl. destruct q as [p | ty n z | id z].
  - destruct (call_head l s v p R NE Ol) as (x & y & E & NX & C). exists x, y. split; [exact E |]. split; [intro; contradiction | exact C].
  - destruct (call_body l s v ty n z R NE Ol Bl) as (x & y & E & NX & C). exists x, y. split; [exact E |]. split; [| exact C].
    intros _. destruct R as (_ & _ & _ & P & _). exact P.
  - exists l, []. rewrite app_nil_r. split; [reflexivity |]. split; [intro; contradiction |].
    unfold call_ok. rewrite go_ne by exact NE. rewrite arun_web.
    pose proof R as (L & O & P & W & K).
    exists (mk_r (Some l) s (blen l) 0), l. cbn [r_rest r_state r_avail].
    split; [destruct l; [congruence |]; cbn [parse_data_stream]; rewrite P, W; reflexivity |].
    split; [reflexivity |]. pose proof (skipn_at l []) as S1. pose proof (firstn_at l []) as S2. rewrite app_nil_r in S1, S2.
    split; [exact S1 |]. split; [exact R |]. split; [| intro; contradiction].
    unfold data_of. rewrite S2, app_assoc. reflexivity.
Qed.

Lemma given_app : forall a b, given (a ++ b) = given a ++ given b.
Proof. intros a b. apply flat_map_app. Qed.

Definition run_ok (o : outcome (list hev * dstate)) (a : ares) (d0 : list N) : Prop :=
  match a with
  | ARun v q => exists e s, o = Ret (e, s) /\ closed e = false /\ rel s v q /\ data_of v q = d0 ++ given e
  | AFail c d => exists e s, o = Ret (e ++ [Close c], s) /\ closed e = false /\ d = d0 ++ given e
  | AUndef => o = Undef
  end.

Lemma go_arun : forall x y v q, x ++ y <> [] -> arun (x ++ y) v q = match go x v q with ARun v' q' => arun y v' q' | o => o end.
Proof.
  intros x y v q H. destruct x as [| b x].
  - cbn [app go] in *. apply arun_settle. exact H.
  - change (go (b :: x) v q) with (arun (b :: x) v q). apply arun_app.
Qed.

Lemma loop_ok : forall f l s v q, rel s v q -> bytes_ok l -> blen l < two62 ->
  (2 * length l + (if d_parsed s then 1 else 0) < f)%nat -> run_ok (server_loop f l s) (arun l v q) (data_of v q).
Proof.
  induction f as [| f IH]; intros l s v q R Ol Bl Hf; [lia |].
  destruct l as [| b0 l0].
  { cbn [server_loop arun run_ok]. exists [], s. split; [reflexivity |]. split; [reflexivity |]. split; [exact R | cbn; rewrite app_nil_r; reflexivity]. }
  remember (b0 :: l0) as l eqn:El.
  assert (NE : l <> []) by (rewrite El; discriminate).
  assert (Hs : server_loop (S f) l s =
      let! r := parse_data_stream l s in
      match r_rest r with
      | None => Ret ([Close (r_error r)], r_state r)
      | Some l' =>
        if 0 <? r_avail r then
          let! (e, s') := server_loop f (skipn (N.to_nat (r_avail r)) l') (r_state r) in
          Ret (Data (firstn (N.to_nat (r_avail r)) l') :: e, s')
        else server_loop f l' (r_state r)
      end) by (rewrite El; reflexivity).
  rewrite Hs. clear Hs b0 l0 El.
  destruct (call_any l s v q R NE Ol Bl) as (x & y & E & Px & C).
  rewrite E at 2. rewrite go_arun by (rewrite <- E; exact NE).
  unfold call_ok in C. destruct (go x v q) as [v' q' | c d |].
  - destruct C as (r & l' & C1 & C2 & C3 & C4 & C5 & C6). rewrite C1. cbn [bind]. rewrite C2.
    assert (Oy : bytes_ok y) by (rewrite E in Ol; apply ok_app in Ol; tauto).
    assert (By : blen y < two62) by (rewrite E, blen_app in Bl; lia).
    assert (Fy : (2 * length y + (if d_parsed (r_state r) then 1 else 0) < f)%nat).
    { destruct x as [| b x].
      - cbn [app] in E. rewrite <- E. rewrite (C6 eq_refl). rewrite (Px eq_refl) in Hf. lia.
      - rewrite E, app_length in Hf. cbn [length] in Hf. destruct (d_parsed (r_state r)), (d_parsed s); lia. }
    specialize (IH y (r_state r) v' q' C4 Oy By Fy).
    destruct (0 <? r_avail r) eqn:A.
    + rewrite C3. unfold run_ok in *. destruct (arun y v' q') as [v2 q2 | c2 d2 |].
      * destruct IH as (e & s2 & I1 & I2 & I3 & I4). rewrite I1. cbn [bind]. eexists _, _. split; [reflexivity |].
        split; [exact I2 |]. split; [exact I3 |]. rewrite I4, C5. cbn [given flat_map]. rewrite <- app_assoc. reflexivity.
      * destruct IH as (e & s2 & I1 & I2 & I3). rewrite I1. cbn [bind]. eexists (_ :: e), _. split; [reflexivity |].
        split; [exact I2 |]. rewrite I3, C5. cbn [given flat_map]. rewrite <- app_assoc. reflexivity.
      * rewrite IH. reflexivity.
    + assert (Z : r_avail r = 0) by lia. rewrite Z in C3, C5. cbn [N.to_nat skipn firstn] in C3, C5. rewrite C3.
      rewrite app_nil_r in C5. rewrite C5 in IH. exact IH.
  - destruct C as (r & C1 & C2 & C3 & C4). rewrite C1. cbn [bind]. rewrite C2. cbn [run_ok].
    exists [], (r_state r). rewrite C3. repeat split. rewrite C4. cbn. rewrite app_nil_r. reflexivity.
  - rewrite C. reflexivity.
Qed.

Lemma data_ok : forall l s v q, rel s v q -> bytes_ok l -> blen l < two62 ->
  run_ok (server_data l s) (arun l v q) (data_of v q).
Proof.
  intros l s v q R Ol Bl. apply loop_ok; [exact R | exact Ol | exact Bl |]. destruct (d_parsed s); lia.
Qed.

Lemma closed_app : forall a b, closed (a ++ b) = closed a || closed b.
Proof. intros a b. apply existsb_app. Qed.

Lemma pieces_ok : forall cs s v q, rel s v q -> bytes_ok (concat cs) -> blen (concat cs) < two62 ->
  run_ok (pieces server_data cs s) (arun (concat cs) v q) (data_of v q).
Proof.
  induction cs as [| c cs IH]; intros s v q R O B.
  - cbn [pieces concat arun run_ok]. exists [], s. split; [reflexivity |]. split; [reflexivity |]. split; [exact R | cbn; rewrite app_nil_r; reflexivity].
  - cbn [concat pieces] in *. apply ok_app in O. destruct O as [O1 O2]. rewrite blen_app in B.
    rewrite arun_app. pose proof (data_ok c s v q R O1 ltac:(lia)) as D. unfold run_ok in D at 1.
    destruct (arun c v q) as [v1 q1 | c1 d1 |].
    + destruct D as (e & s1 & D1 & D2 & D3 & D4). rewrite D1. cbn [bind]. rewrite D2.
      specialize (IH s1 v1 q1 D3 O2 ltac:(lia)). unfold run_ok in *. destruct (arun (concat cs) v1 q1) as [v2 q2 | c2 d2 |].
      * destruct IH as (e2 & s2 & I1 & I2 & I3 & I4). rewrite I1. cbn [bind]. eexists _, _. split; [reflexivity |].
        split; [rewrite closed_app, D2, I2; reflexivity |]. split; [exact I3 |]. rewrite I4, D4, given_app, app_assoc. reflexivity.
      * destruct IH as (e2 & s2 & I1 & I2 & I3). rewrite I1. cbn [bind]. exists (e ++ e2), s2. split; [rewrite app_assoc; reflexivity |].
        split; [rewrite closed_app, D2, I2; reflexivity |]. rewrite I3, D4, given_app, app_assoc. reflexivity.
      * rewrite IH. reflexivity.
    + destruct D as (e & s1 & D1 & D2 & D3). rewrite D1. cbn [bind]. rewrite closed_app. cbn [closed existsb]. rewrite orb_true_r.
      cbn [run_ok]. exists e, s1. repeat split; assumption.
    + rewrite D. reflexivity.
Qed.

(** ** Clients *)

Definition untold (e : list hev) : list hev := filter (fun x => match x with Told _ => false | _ => true end) e.

Lemma untold_app : forall a b, untold (a ++ b) = untold a ++ untold b.
Proof. intros a b. apply filter_app. Qed.

Definition same_but_told (a b : outcome (list hev * dstate)) : Prop :=
  match a, b with
  | Ret (e, s), Ret (e', s') => untold e' = e /\ s' = s
  | Undef, Undef => True
  | NoFuel, NoFuel => True
  | _, _ => False
  end.

Lemma client_server : forall f rq l s, same_but_told (server_loop f l s) (client_loop f rq l s).
Proof.
  induction f as [| f IH]; intros rq l s; [exact I |].
  destruct l as [| b l]; [split; reflexivity |]. cbn [server_loop client_loop].
  destruct (parse_data_stream (b :: l) s) as [| | r]; cbn [bind]; [exact I | exact I |].
  destruct (r_rest r) as [l' |]; [| split; reflexivity].
  assert (U : forall t e, untold ((if rq && d_hfound (r_state r) then [Told t] else []) ++ e) = untold e).
  { intros t e. destruct (rq && d_hfound (r_state r)); reflexivity. }
  destruct (0 <? r_avail r).
  - specialize (IH rq (skipn (N.to_nat (r_avail r)) l') (r_state r)).
    destruct (server_loop f _ _) as [| | [e s1]], (client_loop f rq (skipn (N.to_nat (r_avail r)) l') (r_state r)) as [| | [e' s1']];
      try contradiction; cbn [bind]; try exact I.
    destruct IH as [I1 I2]. split; [| exact I2]. rewrite U. cbn [untold filter]. f_equal. exact I1.
  - specialize (IH rq l' (r_state r)).
    destruct (server_loop f _ _) as [| | [e s1]], (client_loop f rq l' (r_state r)) as [| | [e' s1']];
      try contradiction; cbn [bind]; try exact I.
    destruct IH as [I1 I2]. split; [| exact I2]. rewrite U. exact I1.
Qed.

Lemma untold_closed : forall e, closed (untold e) = closed e.
Proof. induction e as [| [l | c | b] e IH]; cbn in *; [reflexivity | exact IH | reflexivity | exact IH]. Qed.

Lemma untold_given : forall e, given (untold e) = given e.
Proof. induction e as [| [l | c | b] e IH]; cbn [untold filter given flat_map app] in *; [reflexivity | f_equal; exact IH | exact IH | exact IH]. Qed.

Theorem client_pieces : forall cs s, same_but_told (pieces server_data cs s) (pieces client_data cs s).
Proof.
  induction cs as [| c cs IH]; intros s; [split; reflexivity |]. cbn [pieces].
  pose proof (client_server (2 * length c + 2) (negb (d_hfound s)) c s) as D. fold (server_data c s) in D.
  change (client_loop (2 * length c + 2) (negb (d_hfound s)) c s) with (client_data c s) in D.
  destruct (server_data c s) as [| | [e s1]], (client_data c s) as [| | [e' s1']]; try contradiction; cbn [bind]; try exact I.
  destruct D as [<- ->]. rewrite untold_closed. destruct (closed e'); [split; reflexivity |].
  specialize (IH s1). destruct (pieces server_data cs s1) as [| | [e2 s2]], (pieces client_data cs s1) as [| | [e2' s2']];
    try contradiction; cbn [bind]; try exact I.
  destruct IH as [<- ->]. split; [apply untold_app | reflexivity].
Qed.

(** ** What the machine does with frames *)

Lemma varint_ok : forall v p, is_varint v p -> bytes_ok p.
Proof. intros v p (c & _ & _ & _ & _ & O). exact O. Qed.

Lemma begin_run : forall ty n a b v y, is_varint ty a -> is_varint n b ->
  arun ((a ++ b) ++ y) v (PH []) = match begin v ty n with ARun v' q' => arun y v' q' | o => o end.
Proof.
  intros ty n a b v y A B.
  assert (O : bytes_ok ([] ++ (a ++ b))) by (apply ok_app; split; [constructor |]; apply ok_app; split; eapply varint_ok; eassumption).
  pose proof (arun_head (a ++ b) [] v O eq_refl) as H. cbn [app] in H.
  assert (Hh : head (a ++ b) = Some (ty, n)).
  { pose proof (head_of ty n a b [] A B ltac:(constructor)) as X. rewrite app_nil_r in X. exact X. }
  rewrite Hh in H. destruct H as (a' & b' & r & E & A' & B' & K). apply K.
  assert (Ob : bytes_ok b) by (eapply varint_ok; eassumption).
  assert (Obr : bytes_ok (b' ++ r)).
  { cbn [app] in O. rewrite E in O. apply ok_app in O. tauto. }
  pose proof (is_varint_decode ty a b A Ob) as D1. pose proof (is_varint_decode ty a' (b' ++ r) A' Obr) as D2.
  rewrite <- E, D1 in D2. assert (Eb : b = b' ++ r) by (injection D2 as ->; reflexivity).
  pose proof (is_varint_decode n b [] B ltac:(constructor)) as D3. rewrite app_nil_r in D3.
  pose proof (is_varint_decode n b' r B' ltac:(apply ok_app in Obr; tauto)) as D4. rewrite <- Eb, D3 in D4.
  injection D4 as <-. reflexivity.
Qed.

Lemma frame_run : forall f lf v r, frame_bytes f lf -> fst f <> 65 -> refused v (fst f) (blen (snd f)) = None ->
  (r <> [] \/ snd f <> []) ->
  arun (lf ++ r) v (PH []) = match finish v (fst f) (snd f) with ARun v' q' => arun r v' q' | o => o end.
Proof.
  intros [ty x] lf v r (a & b & A & B & ->) T65 Rf NE. cbn [fst snd] in *.
  replace ((a ++ b ++ x) ++ r) with ((a ++ b) ++ x ++ r) by (rewrite <- !app_assoc; reflexivity).
  rewrite (begin_run ty (blen x) a b v (x ++ r) A B). unfold begin. rewrite Rf. replace (ty =? 65) with false by lia.
  destruct x as [| c x].
  - destruct NE as [NE | NE]; [| congruence]. cbn [app]. rewrite arun_settle by exact NE. reflexivity.
  - rewrite arun_app. rewrite arun_body; [| rewrite blen_cons; lia | rewrite blen_nil; lia | rewrite blen_nil, blen_cons; lia | discriminate].
    cbn [app]. rewrite N.leb_refl. reflexivity.
Qed.

Lemma finish_take : forall v f v', take v f = Good v' -> finish v (fst f) (snd f) = ARun v' (PH []).
Proof. intros v [ty x] v' H. unfold finish. cbn [fst snd]. rewrite H. reflexivity. Qed.

Lemma take_refused : forall v f v', take v f = Good v' -> refused v (fst f) (blen (snd f)) = None.
Proof. intros v f v' H. unfold take in H. destruct (refused v (fst f) (blen (snd f))); [discriminate | reflexivity]. Qed.

Lemma message_run : forall fs l v v' r, frames fs l -> message v fs v' -> r <> [] ->
  arun (l ++ r) v (PH []) = arun r v' (PH []).
Proof.
  intros fs l v v' r F. revert v. induction F as [| f lf fs l Ff F IH]; intros v M NE.
  - inversion M; subst. reflexivity.
  - inversion M as [| ? ? ? v1 ? T65 Tk M']; subst. rewrite <- app_assoc.
    rewrite (frame_run f lf v (l ++ r) Ff T65 (take_refused _ _ _ Tk)).
    + rewrite (finish_take _ _ _ Tk). apply IH; assumption.
    + left. intro Z. apply app_eq_nil in Z. tauto.
Qed.

Lemma message_run_end : forall fs l v v', frames fs l -> message v fs v' ->
  exists v1 q1, arun l v (PH []) = ARun v1 q1 /\ settle v1 q1 = ARun v' (PH []).
Proof.
  intros fs l v v' F. revert v. induction F as [| f lf fs l Ff F IH]; intros v M.
  - inversion M; subst. eexists _, _. split; reflexivity.
  - inversion M as [| ? ? ? v1 ? T65 Tk M']; subst.
    destruct (IH v1 M') as (v2 & q2 & E1 & E2).
    destruct l as [| c l].
    + rewrite app_nil_r. cbn [arun] in E1. injection E1 as <- <-. cbn [settle] in E2. injection E2 as <-.
      destruct f as [ty [| d x]].
      * destruct Ff as (a & b & A & B & ->). cbn [fst snd] in *. rewrite app_nil_r.
        pose proof (begin_run ty (blen []) a b v [] A B) as H. rewrite app_nil_r in H. rewrite H.
        unfold begin. pose proof (take_refused _ _ _ Tk) as Rf. cbn [fst snd] in Rf. rewrite Rf. replace (ty =? 65) with false by lia.
        eexists _, _. split; [reflexivity |]. cbn [settle]. exact (finish_take _ _ _ Tk).
      * pose proof (frame_run (ty, d :: x) lf v [] Ff T65 (take_refused _ _ _ Tk)) as H. rewrite app_nil_r in H.
        rewrite H by (right; discriminate). rewrite (finish_take _ _ _ Tk). eexists _, _. split; reflexivity.
    + exists v2, q2. split; [| exact E2].
      rewrite (frame_run f lf v (c :: l) Ff T65 (take_refused _ _ _ Tk)) by (left; discriminate).
      rewrite (finish_take _ _ _ Tk). exact E1.
Qed.

(** ** What the machine has read *)

Lemma frames_snoc : forall fs l f lf, frames fs l -> frame_bytes f lf -> frames (fs ++ [f]) (l ++ lf).
Proof.
  intros fs l f lf F H. induction F as [| g lg fs l Fg F IH]; cbn [app].
  - rewrite <- (app_nil_r lf). constructor; [exact H | constructor].
  - rewrite <- app_assoc. constructor; assumption.
Qed.

Lemma message_snoc : forall fs v f v1 v2, message v fs v1 -> fst f <> 65 -> take v1 f = Good v2 -> message v (fs ++ [f]) v2.
Proof.
  intros fs v f v1 v2 M. induction M as [v | v g fs va vb T65 Tk M IH]; intros F T; cbn [app].
  - econstructor; [exact F | exact T | constructor].
  - econstructor; [exact T65 | exact Tk | apply IH; assumption].
Qed.

Definition where_ (v : view) (q : pos) (p : list N) : Prop :=
  match q with
  | PH p' => p' = p /\ head p = None
  | PB ty n x => exists a b, is_varint ty a /\ is_varint n b /\ ty <> 65 /\ refused v ty n = None /\
      (blen x < n \/ (n = 0 /\ x = [])) /\ p = a ++ b ++ x
  | PW id x => exists a b, is_varint 65 a /\ is_varint id b /\ v_header v = None /\ p = a ++ b ++ x
  end.

Lemma arun_inv : forall l v q, bytes_ok l -> arun l view0 (PH []) = ARun v q ->
  exists fs lf p, l = lf ++ p /\ frames fs lf /\ message view0 fs v /\ where_ v q p.
Proof.
  induction l as [| b l IH] using rev_ind; intros v q O H.
  - cbn [arun] in H. injection H as <- <-. exists [], [], []. split; [reflexivity |]. split; [constructor |]. split; [constructor |].
    split; reflexivity.
  - apply ok_app in O. destruct O as [O1 O2]. rewrite arun_app in H.
    destruct (arun l view0 (PH [])) as [v1 q1 | |] eqn:E; [| discriminate | discriminate].
    destruct (IH v1 q1 O1 eq_refl) as (fs & lf & p & -> & F & M & Wh). clear IH.
    cbn [arun] in H. unfold astep in H.
    (* after settling *)
    assert (S1 : exists v2 q2 fs2 lf2 p2, settle v1 q1 = ARun v2 q2 /\ lf ++ p = lf2 ++ p2 /\ frames fs2 lf2 /\ message view0 fs2 v2 /\ where_ v2 q2 p2 /\
       (forall ty n x, q2 = PB ty n x -> blen x < n)).
    { destruct q1 as [p' | ty n x | id x]; cbn [settle] in H |- *.
      - exists v1, (PH p'), fs, lf, p. repeat split; try assumption; try apply Wh. intros ty n x X. discriminate.
      - destruct (n =? 0) eqn:Z.
        + destruct Wh as (a & b' & A & B & T65 & Rf & Lx & ->).
          assert (n = 0) by lia. subst n. destruct Lx as [Lx | [_ ->]]; [lia |].
          unfold finish in *. destruct (take v1 (ty, [])) as [v2 | c |] eqn:Tk; [| discriminate | discriminate].
          exists v2, (PH []), (fs ++ [(ty, [])]), (lf ++ a ++ b' ++ []), []. split; [reflexivity |].
          split; [rewrite !app_nil_r; reflexivity |]. split; [apply frames_snoc; [exact F |]; exists a, b'; repeat split; assumption |].
          split; [eapply message_snoc; eassumption |]. split; [split; reflexivity | intros; discriminate].
        + exists v1, (PB ty n x), fs, lf, p. split; [reflexivity |]. split; [reflexivity |]. split; [exact F |]. split; [exact M |]. split; [exact Wh |].
          intros ty' n' x' X. injection X as <- <- <-. destruct Wh as (a & b' & A & B & T65 & Rf & Lx & _). lia.
      - exists v1, (PW id x), fs, lf, p. split; [reflexivity |]. split; [reflexivity |]. split; [exact F |]. split; [exact M |]. split; [exact Wh |].
        intros; discriminate. }
    destruct S1 as (v2 & q2 & fs2 & lf2 & p2 & S1 & Ep & F2 & M2 & Wh2 & Lt). rewrite S1 in H. rewrite Ep in *. clear S1 Ep F M Wh fs lf p E.
    destruct q2 as [p' | ty n x | id x].
    + destruct Wh2 as [-> Hn].
      destruct (head (p2 ++ [b])) as [[ty n] |] eqn:Hh.
      * assert (Op : bytes_ok (p2 ++ [b])) by (apply ok_app; split; [apply ok_app in O1; tauto | exact O2]).
        destruct (head_exact p2 b ty n Op Hn Hh) as (a & b' & Ea & A & B).
        unfold begin in H. destruct (refused v2 ty n) eqn:Rf; [destruct (arun [] v2 (PH [])); discriminate |].
        destruct (ty =? 65) eqn:T65.
        -- cbn [arun] in H. injection H as <- <-. exists fs2, lf2, (p2 ++ [b]). split; [symmetry; apply app_assoc |].
           split; [exact F2 |]. split; [exact M2 |]. assert (ty = 65) by lia. subst ty. exists a, b'. split; [exact A |]. split; [exact B |].
           split; [| rewrite app_nil_r; exact Ea]. unfold refused in Rf. cbn in Rf. destruct (v_header v2); [discriminate | reflexivity].
        -- cbn [arun] in H. injection H as <- <-. exists fs2, lf2, (p2 ++ [b]). split; [symmetry; apply app_assoc |].
           split; [exact F2 |]. split; [exact M2 |]. exists a, b'. split; [exact A |]. split; [exact B |]. split; [lia |]. split; [exact Rf |].
           split; [| rewrite app_nil_r; exact Ea]. destruct (N.eq_dec n 0) as [-> | Z]; [right; split; reflexivity | left; rewrite blen_nil; lia].
      * cbn [arun] in H. injection H as <- <-. exists fs2, lf2, (p2 ++ [b]). split; [symmetry; apply app_assoc |].
        split; [exact F2 |]. split; [exact M2 |]. split; [reflexivity | exact Hh].
    + specialize (Lt ty n x eq_refl). destruct Wh2 as (a & b' & A & B & T65 & Rf & Lx & ->).
      destruct (n <=? blen (x ++ [b])) eqn:C.
      * unfold finish in H. destruct (take v2 (ty, x ++ [b])) as [v3 | |] eqn:Tk; [| discriminate | discriminate].
        cbn [arun] in H. injection H as <- <-.
        exists (fs2 ++ [(ty, x ++ [b])]), (lf2 ++ (a ++ b' ++ (x ++ [b]))), []. split; [rewrite app_nil_r, <- !app_assoc; reflexivity |].
        split.
        -- apply frames_snoc; [exact F2 |]. exists a, b'. cbn [fst snd]. split; [exact A |]. split; [| reflexivity].
           replace (blen (x ++ [b])) with n; [exact B |]. rewrite blen_app in *. change (blen [b]) with 1 in *. lia.
        -- split; [eapply message_snoc; eassumption | split; reflexivity].
      * cbn [arun] in H. injection H as <- <-. exists fs2, lf2, (a ++ b' ++ (x ++ [b])). split; [rewrite <- !app_assoc; reflexivity |].
        split; [exact F2 |]. split; [exact M2 |]. exists a, b'. repeat split; try assumption. left. lia.
    + destruct Wh2 as (a & b' & A & B & Hv & ->). cbn [arun] in H. injection H as <- <-.
      exists fs2, lf2, (a ++ b' ++ (x ++ [b])). split; [rewrite <- !app_assoc; reflexivity |].
      split; [exact F2 |]. split; [exact M2 |]. exists a, b'. repeat split; assumption.
Qed.
