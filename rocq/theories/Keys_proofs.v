(** Proofs about key updates: the state of one endpoint. *)
From Verif Require Import Base Tac Send_model Keys_model Keys_spec.

Definition pending (k : kst) (ge gd : N) : Prop :=
  (k_new_enc k = None /\ k_new_dec k = None /\ k_sec_enc k = ge /\ k_sec_dec k = gd /\ ge = gd) \/
  (k_new_enc k = Some (ge + 1) /\ k_new_dec k = Some (gd + 1) /\ k_sec_enc k = ge + 1 /\ k_sec_dec k = gd + 1 /\ ge = gd) \/
  (k_new_enc k = None /\ k_new_dec k = Some (gd + 1) /\ k_sec_enc k = ge /\ k_sec_dec k = gd + 1 /\ ge = gd + 1).

Record gens (k : kst) (ge gd : N) : Prop := mk_gens {
  gn_enc : k_enc k = Some ge;
  gn_dec : k_dec k = Some gd;
  gn_penc : k_penc k = N.odd ge;
  gn_pdec : k_pdec k = N.odd gd;
  gn_old : k_old k = None \/ exists o, k_old k = Some o /\ o + 1 = gd;
  gn_new : pending k ge gd }.

Lemma odd_next n : N.odd (n + 1) = negb (N.odd n).
Proof. rewrite N.add_1_r, N.odd_succ, <- N.negb_odd. reflexivity. Qed.

Lemma gens_init mp max int sent : gens (init_k mp max int sent) 0 0.
Proof. constructor; try reflexivity; [left; reflexivity | left; repeat split]. Qed.

Lemma gens_le k ge gd : gens k ge gd -> gd <= ge <= gd + 1.
Proof. intros [_ _ _ _ _ [(_ & _ & _ & _ & ->) | [(_ & _ & _ & _ & ->) | (_ & _ & _ & _ & ->)]]]; lia. Qed.

Lemma start_gens k ge gd k1 :
  gens k ge gd -> start_rotation k = Some k1 ->
  ge = gd /\ gens k1 (ge + 1) gd /\ k_old k1 = None /\ k_mp k1 = k_mp k /\ k_rot k1 = k_rot k /\ k_guard k1 = k_guard k /\
  k_next k1 = k_next k /\ k_last k1 = k_last k /\ k_sent k1 = k_sent k.
Proof.
  intros [He Hd Hpe Hpd Ho Hn]. unfold start_rotation, compute_new.
  destruct (k_last k <? k_epoch k); [discriminate | ].
  destruct Hn as [(Ne & Nd & Se & Sd & E) | [(Ne & Nd & Se & Sd & E) | (Ne & Nd & Se & Sd & E)]];
    rewrite Ne, Nd; [intros H | intros H | discriminate];
    apply some_inj in H; subst k1; split; try exact E;
    (split; [constructor; cbn | cbn; repeat split; reflexivity]).
  - rewrite Se. reflexivity.
  - exact Hd.
  - rewrite Hpe, odd_next. reflexivity.
  - exact Hpd.
  - left; reflexivity.
  - right; right. cbn. rewrite Se, Sd. repeat split; rewrite E; reflexivity.
  - exact Ne.
  - exact Hd.
  - rewrite Hpe, odd_next. reflexivity.
  - exact Hpd.
  - left; reflexivity.
  - right; right. cbn. rewrite Se, Sd. repeat split; try assumption; rewrite E; reflexivity.
Qed.

Lemma send_gens k ge gd path :
  gens k ge gd ->
  exists k1, send_packet k path = Some (k1, mk_pkt (the_path k path) (k_next k (the_path k path)) (N.odd ge) (Some ge)) /\
    gens k1 ge gd /\ k_mp k1 = k_mp k /\ k_rot k1 = k_rot k /\ k_guard k1 = k_guard k /\ k_old k1 = k_old k /\
    k_next k1 = set_path (k_next k) (the_path k path) (k_next k (the_path k path) + 1).
Proof.
  intros [He Hd Hpe Hpd Ho Hn]. unfold send_packet. rewrite He, <- Hpe. eexists. split; [reflexivity | ].
  split; [constructor; cbn; assumption | cbn; repeat split].
Qed.

Lemma skip_gens k ge gd path :
  gens k ge gd ->
  let k1 := skip_number k path in
    gens k1 ge gd /\ k_mp k1 = k_mp k /\ k_rot k1 = k_rot k /\ k_guard k1 = k_guard k /\ k_old k1 = k_old k /\
    k_next k1 = set_path (k_next k) (the_path k path) (k_next k (the_path k path) + 1).
Proof. intros [He Hd Hpe Hpd Ho Hn]. split; [constructor; cbn; assumption | cbn; repeat split]. Qed.

Lemma count_gens k ge gd :
  gens k ge gd -> exists k1, count_failure k = Some (k1, Failed) /\ gens k1 ge gd /\ k_mp k1 = k_mp k /\
    k_rot k1 = k_rot k /\ k_guard k1 = k_guard k /\ k_old k1 = k_old k /\ k_next k1 = k_next k.
Proof.
  intros [He Hd Hpe Hpd Ho Hn]. unfold count_failure. rewrite Hd. eexists. split; [reflexivity | ].
  split; [constructor; cbn; assumption | cbn; repeat split].
Qed.

Lemma record_gens k pn ge gd :
  gens k ge gd -> let k1 := record_pn k pn in gens k1 ge gd /\ k_mp k1 = k_mp k /\
    k_rot k1 = k_rot k /\ k_guard k1 = k_guard k /\ k_old k1 = k_old k /\ k_next k1 = k_next k.
Proof.
  intros [He Hd Hpe Hpd Ho Hn]. unfold record_pn. destruct (k_mp k) eqn:M.
  - repeat split; try assumption.
  - split; [constructor; cbn; assumption | cbn; rewrite ?M; repeat split].
Qed.

(** The three branches of the receiver. *)
Definition to_old (k : kst) (now : N) (p : pkt) : bool :=
  ((k_rot k (p_path p) =? max64) && (now <=? k_guard k)) || (p_pn p <? k_rot k (p_path p)).

Inductive received (k : kst) (now rto : N) (p : pkt) (ge gd : N) (k' : kst) : fate -> Prop :=
| R_no f : f <> Accepted -> gens k' ge gd -> k_rot k' = k_rot k -> k_guard k' = k_guard k -> k_old k' = k_old k ->
    received k now rto p ge gd k' f
| R_cur : p_gen p = Some gd -> p_phase p = N.odd gd -> gens k' ge gd ->
    k_rot k' = (if p_pn p <? k_rot k (p_path p) then set_path (k_rot k) (p_path p) (p_pn p) else k_rot k) ->
    k_guard k' = k_guard k -> k_old k' = k_old k -> received k now rto p ge gd k' Accepted
| R_old o : k_old k = Some o -> p_gen p = Some o -> o + 1 = gd -> p_phase p = N.odd o -> gens k' ge gd ->
    k_rot k' = k_rot k -> k_guard k' = k_guard k -> k_old k' = k_old k -> received k now rto p ge gd k' Accepted
| R_new : p_gen p = Some (gd + 1) -> p_phase p = N.odd (gd + 1) -> gens k' (gd + 1) (gd + 1) ->
    k_rot k' = set_path (if k_mp k then (fun _ => max64) else k_rot k) (p_path p) (p_pn p) ->
    k_guard k' = u64 (now + rto) -> k_old k' = Some gd -> received k now rto p ge gd k' Accepted.

Lemma opens_eq key p : opens key p = true -> exists g, key = Some g /\ p_gen p = Some g.
Proof.
  unfold opens. destruct key as [g | ]; [ | discriminate]. destruct (p_gen p) as [h | ]; [ | discriminate].
  intros H. apply N.eqb_eq in H. subst. eauto.
Qed.

Lemma eqb_negb a b : Bool.eqb a b = false -> a = negb b.
Proof. destruct a, b; discriminate || reflexivity. Qed.

Lemma receive_spec k now rto p ge gd :
  gens k ge gd -> exists k' f, receive k now rto p = Some (k', f) /\ received k now rto p ge gd k' f /\
    k_next k' = k_next k /\ k_mp k' = k_mp k.
Proof.
  intros G. pose proof G as [He Hd Hpe Hpd Ho Hn]. unfold receive. cbv zeta.
  destruct (Bool.eqb (p_phase p) (k_pdec k)) eqn:Ph.
  - apply Bool.eqb_prop in Ph. destruct (opens (k_dec k) p) eqn:Op.
    + destruct (opens_eq _ _ Op) as (g & E1 & E2). rewrite Hd in E1. apply some_inj in E1. subst g.
      set (k0 := with_rot k _ (k_guard k)).
      assert (G0 : gens k0 ge gd) by (constructor; cbn; assumption).
      destruct (record_gens k0 (p_pn p) ge gd G0) as (A & B & C & D & E & F).
      exists (record_pn k0 (p_pn p)), Accepted. split; [reflexivity | ].
      rewrite F, B. split; [ | split; reflexivity].
      apply R_cur; try assumption. now rewrite Ph.
    + destruct (count_gens k ge gd G) as (k1 & E & A & B & C & D & F & H).
      exists k1, Failed. rewrite E, H, B. split; [reflexivity | ]. split; [ | split; reflexivity].
      apply R_no; try assumption. discriminate.
  - apply eqb_negb in Ph. rewrite Hpd in Ph.
    destruct (_ || _) eqn:Old.
    + destruct (k_guard k <? now).
      { exists k, Ignored. split; [reflexivity | ]. split; [ | split; reflexivity]. apply R_no; try reflexivity; [discriminate | exact G]. }
      destruct (k_old k) as [o | ] eqn:O.
      2:{ exists k, Ignored. split; [reflexivity | ]. split; [ | split; reflexivity].
          apply R_no; try reflexivity; [discriminate | exact G]. }
      destruct (opens (Some o) p) eqn:Op.
      * destruct (opens_eq _ _ Op) as (g & E1 & E2). apply some_inj in E1. subst g.
        destruct (record_gens k (p_pn p) ge gd G) as (A & B & C & D & E & F).
        exists (record_pn k (p_pn p)), Accepted. split; [reflexivity | ]. rewrite F, B. split; [ | split; reflexivity].
        assert (o + 1 = gd) by (destruct Ho as [Ho | (o' & Ho & Hg)]; [discriminate | apply some_inj in Ho; subst; reflexivity]).
        apply (R_old _ _ _ _ _ _ _ o); try assumption.
        rewrite Ph. subst gd. rewrite odd_next, negb_involutive. reflexivity.
      * destruct (count_gens k ge gd G) as (k1 & E & A & B & C & D & F & H).
        exists k1, Failed. rewrite E, H, B. split; [reflexivity | ]. split; [ | split; reflexivity].
        apply R_no; try assumption. discriminate.
    + assert (exists k1, match k_new_dec k, k_new_enc k with None, None => compute_new k | _, _ => Some k end = Some k1 /\
                gens k1 ge gd /\ k_new_dec k1 = Some (gd + 1) /\ k_rot k1 = k_rot k /\ k_guard k1 = k_guard k /\
                k_old k1 = k_old k /\ k_next k1 = k_next k /\ k_mp k1 = k_mp k) as (k1 & E1 & G1 & ND & RT & GU & OL & NX & MP).
      { destruct Hn as [(Ne & Nd & Se & Sd & E) | [(Ne & Nd & Se & Sd & E) | (Ne & Nd & Se & Sd & E)]]; rewrite Ne, Nd.
        - unfold compute_new. rewrite Ne, Nd. eexists. split; [reflexivity | ]. cbn. rewrite Sd.
          split; [ | repeat split]. constructor; cbn; try assumption. right; left. cbn. rewrite ?Se, ?Sd. repeat split. exact E.
        - exists k. repeat split; try assumption. right; left. repeat split; assumption.
        - exists k. repeat split; try assumption. right; right. repeat split; assumption. }
      rewrite E1, ND. destruct (opens (Some (gd + 1)) p) eqn:Op.
      * destruct (opens_eq _ _ Op) as (g & E2 & E3). apply some_inj in E2. subst g.
        match goal with |- context [apply_dec ?x] => set (k2 := x) end.
        set (k4 := match k_new_enc (apply_dec k2) with Some _ => _ | None => _ end).
        assert (G4 : gens k4 (gd + 1) (gd + 1) /\ k_rot k4 = k_rot k2 /\ k_guard k4 = k_guard k2 /\ k_old k4 = Some gd /\ k_next k4 = k_next k1 /\ k_mp k4 = k_mp k1).
        { destruct G1 as [He1 Hd1 Hpe1 Hpd1 Ho1 Hn1]. subst k4 k2. cbn.
          destruct Hn1 as [(Ne & Nd & Se & Sd & E) | [(Ne & Nd & Se & Sd & E) | (Ne & Nd & Se & Sd & E)]]; rewrite Ne; cbn.
          - congruence.
          - split; [ | rewrite Hd1; repeat split]. constructor; cbn.
            + rewrite Ne, E. reflexivity.
            + exact Nd.
            + rewrite Hpe1, odd_next, E. reflexivity.
            + rewrite Hpd1, odd_next. reflexivity.
            + right. exists gd. split; [exact Hd1 | reflexivity].
            + left. cbn. repeat split; try assumption. rewrite Se, E. reflexivity.
          - split; [ | rewrite Hd1; repeat split]. constructor; cbn.
            + rewrite He1, E. reflexivity.
            + exact Nd.
            + rewrite Hpe1, E. reflexivity.
            + rewrite Hpd1, odd_next. reflexivity.
            + right. exists gd. split; [exact Hd1 | reflexivity].
            + left. cbn. repeat split; try assumption. rewrite Se. exact E. }
        destruct G4 as (G4 & R4 & U4 & O4 & X4 & M4).
        destruct (record_gens k4 (p_pn p) _ _ G4) as (A & B & C & D & E & F).
        exists (record_pn k4 (p_pn p)), Accepted. split; [reflexivity | ]. rewrite F, B, X4, M4, NX, MP.
        split; [ | split; reflexivity].
        apply R_new; try assumption.
        -- rewrite Ph, odd_next. reflexivity.
        -- rewrite C, R4. subst k2. cbn. rewrite MP, RT. reflexivity.
        -- rewrite D, U4. reflexivity.
        -- rewrite E, O4. reflexivity.
      * destruct (count_gens k1 ge gd G1) as (k2 & E & A & B & C & D & F & H).
        exists k2, Failed. rewrite E, H, B, NX, MP. split; [reflexivity | ]. split; [ | split; reflexivity].
        apply R_no; try assumption; try congruence.
Qed.

(** When a packet of the peer is deciphered. *)
Lemma receive_cur k now rto p ge gd :
  gens k ge gd -> p_gen p = Some gd -> p_phase p = N.odd gd -> exists k', receive k now rto p = Some (k', Accepted).
Proof.
  intros [He Hd Hpe Hpd Ho Hn] Hg Hp. unfold receive. cbv zeta. rewrite Hp, Hpd, Bool.eqb_reflx.
  unfold opens. rewrite Hd, Hg, N.eqb_refl. eauto.
Qed.

Lemma receive_next k now rto p ge gd :
  gens k ge gd -> p_gen p = Some (gd + 1) -> p_phase p = N.odd (gd + 1) -> to_old k now p = false ->
  exists k', receive k now rto p = Some (k', Accepted).
Proof.
  intros G Hg Hp Hold. pose proof G as [He Hd Hpe Hpd Ho Hn]. unfold receive. cbv zeta.
  rewrite Hp, Hpd, odd_next. replace (Bool.eqb (negb (N.odd gd)) (N.odd gd)) with false by (destruct (N.odd gd); reflexivity).
  unfold to_old in Hold. rewrite Hold.
  destruct Hn as [(Ne & Nd & Se & Sd & E) | [(Ne & Nd & Se & Sd & E) | (Ne & Nd & Se & Sd & E)]]; rewrite Ne, Nd.
  - unfold compute_new. rewrite Ne, Nd. cbn [k_new_dec with_new]. unfold opens. rewrite Hg, Sd, N.eqb_refl. eauto.
  - rewrite Nd. unfold opens. rewrite Hg, N.eqb_refl. eauto.
  - rewrite Nd. unfold opens. rewrite Hg, N.eqb_refl. eauto.
Qed.

Lemma receive_prev k now rto p ge gd o :
  gens k ge gd -> p_gen p = Some o -> o + 1 = gd -> p_phase p = N.odd o -> to_old k now p = true ->
  exists k' f, receive k now rto p = Some (k', f) /\ f <> Failed /\
    (k_old k <> None -> now <= k_guard k -> f = Accepted).
Proof.
  intros G Hg Hgd Hp Hold. pose proof G as [He Hd Hpe Hpd Ho Hn]. unfold receive. cbv zeta.
  rewrite Hp, Hpd. subst gd. rewrite odd_next.
  replace (Bool.eqb (N.odd o) (negb (N.odd o))) with false by (destruct (N.odd o); reflexivity).
  unfold to_old in Hold. rewrite Hold.
  destruct (k_guard k <? now) eqn:Gd.
  - exists k, Ignored. repeat split; try discriminate. intros _ H. apply N.ltb_lt in Gd. lia.
  - destruct (k_old k) as [o' | ] eqn:O.
    + destruct Ho as [Ho | (o2 & Ho & Ho2)]; [discriminate | ]. apply some_inj in Ho. subst o2.
      assert (o' = o) by lia. subst o'. unfold opens. rewrite Hg, N.eqb_refl. do 2 eexists. repeat split; discriminate.
    + exists k, Ignored. repeat split; try discriminate. intros H. now destruct H.
Qed.

(** A forged packet is not accepted. *)
Lemma receive_forged k now rto p ge gd :
  gens k ge gd -> p_gen p = None ->
  exists k' f, receive k now rto p = Some (k', f) /\ f <> Accepted /\ gens k' ge gd /\ k_rot k' = k_rot k /\
    k_guard k' = k_guard k /\ k_old k' = k_old k /\ k_next k' = k_next k /\ k_mp k' = k_mp k.
Proof.
  intros G Hf. destruct (receive_spec k now rto p ge gd G) as (k' & f & E & R & A & B).
  exists k', f. split; [exact E | ]. destruct R; try congruence. repeat (split; [assumption | ]); assumption.
Qed.
