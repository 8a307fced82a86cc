(** One step of the connection, and histories, seen from the streams. *)
From Coq Require Import FinFun Permutation.
From Verif Require Import Base Reasm_model Reasm_spec Reasm_proofs Stream_model Stream_spec Stream_proofs.

Lemma lookup_congr : forall c c' sid, k_streams c' = k_streams c -> lookup c' sid = lookup c sid.
Proof. intros c c' sid H. unfold lookup. rewrite H. reflexivity. Qed.

Lemma rx_done_mono : forall r r', same_frame r r' -> (rx_fin_signalled r = true -> rx_fin_signalled r' = true) ->
  rx_done r = true -> rx_done r' = true.
Proof.
  intros r r' (A & B & C & _ & _) Hs H. unfold rx_done in *. rewrite A, B, C. apply orb_prop in H.
  destruct H as [H|H]; [|rewrite H; apply orb_true_r]. apply andb_prop in H. destruct H as [-> H]. rewrite (Hs H). reflexivity.
Qed.

Lemma good_ignored : forall c i o L, winv c -> view_of c i = VRet o -> (forall x, L x = [] \/ x = i /\ exists l, L x = [l]) -> good c c L.
Proof.
  intros c i o L Hw Hv Hl. split; [exact Hw|]. split; [split; reflexivity|]. split.
  - exists []. split; [rewrite app_nil_r; reflexivity|]. intros x e _. destruct (Hl x) as [->|(-> & l & ->)]; [apply vt_refl|]. rewrite Hv. apply vt_ignored.
  - split; [reflexivity|]. auto.
Qed.

Lemma good_after : forall c c1 c2 L, good c c1 L -> good c1 c2 (fun _ => []) -> good c c2 L.
Proof. intros c c1 c2 L H1 H2. eapply good_trans; [|exact H1|exact H2]. intros x. rewrite app_nil_r. reflexivity. Qed.

Lemma good_before : forall c c1 c2 L, good c c1 (fun _ => []) -> good c1 c2 L -> good c c2 L.
Proof. intros c c1 c2 L H1 H2. eapply good_trans; [|exact H1|exact H2]. reflexivity. Qed.

(** A STREAM frame that is processed. *)
Lemma stream_frame_spec : forall c sid off fin d c' ok, winv c -> stream_frame c sid off fin d = Some (c', ok) ->
  (ok = true -> good_step c c' (OpStream sid off fin d)) /\ (ok = false -> k_out c' = k_out c /\ (k_err c' <> None)).
Proof.
  intros c sid off fin d c' ok Hw H. unfold stream_frame in H.
  destruct (N.leb_spec two62 (off + blen d)) as [Hbig|Hbig].
  { injection H as <- <-. split; [discriminate|]. intros _. destruct (conn_error_streams c 6) as (_ & _ & _ & -> & _). split; [reflexivity|].
    unfold conn_error. destruct (k_err c) eqn:E; [rewrite E; discriminate|discriminate]. }
  destruct (find_or_create c sid) as [c1 os] eqn:Ef.
  destruct (find_or_create_spec _ _ _ _ Hw Ef) as (M & Ho). pose proof M as (M1 & M2 & M3 & M4 & M5 & M6 & M7 & M8 & M9).
  destruct os as [s|].
  2: { destruct Ho as (O1 & O2 & O3). injection H as <- <-. destruct O3 as [(-> & O3 & (o4 & O4))|(O3 & O4)].
       - destruct (N.ltb_spec sid (k_next c (stream_type sid))); [|lia]. split; [|discriminate]. intros _.
         apply good_ignored with (i := sid) (o := o4); [exact Hw|exact O4|]. intros x. cbn [labels]. destruct (N.eqb_spec sid x) as [<-|Hne]; [right; split; [reflexivity|eauto]|left; reflexivity].
       - rewrite O2. destruct (N.ltb_spec sid (k_next c (stream_type sid))); [lia|]. split; [discriminate|]. intros _. split; [exact M3|exact O3]. }
  destruct Ho as (Hlk & Herr). pose proof (lookup_in _ _ _ Hlk) as (_ & Hid).
  set (nfo := off + blen d) in *. set (r := s_rx s) in *.
  match type of H with (let '(_, _) := ?e in _) = _ => destruct e as [[[c2 s2] okk] notify] eqn:Ec end.
  assert (Hc2 : k_streams c2 = k_streams c1 /\ k_retired c2 = k_retired c1 /\ k_next c2 = k_next c1 /\ k_out c2 = k_out c1 /\
    rest c2 = rest c1 /\ s_id s2 = s_id s /\ gm s2 = gm s /\ s_closed s2 = s_closed s /\
    (okk = true -> notify = fin && negb (rx_fin_received r) /\ s_rx s2 = rx_note r fin nfo /\
       (rx_fin_received r = true -> if fin then rx_fin_offset r = nfo else nfo <= rx_fin_offset r) /\
       nfo <= N.max (rx_fin_offset r) (rx_maxdata r) /\ k_err c2 = k_err c1 /\
       k_rcvd c2 = k_rcvd c1 + (nfo - rx_fin_offset r) /\ (k_rcvd c1 <= k_md_l c1 -> k_rcvd c2 <= k_md_l c1)) /\
    (okk = false -> k_err c2 <> None)).
  { assert (Hce : forall x e, k_err (conn_error x e) <> None).
    { intros x e. unfold conn_error. destruct (k_err x) eqn:E; [rewrite E; discriminate|discriminate]. }
    destruct (rx_fin_received r) eqn:Er.
    - destruct (if fin then negb (rx_fin_offset r =? nfo) else rx_fin_offset r <? nfo) eqn:Et.
      + injection Ec as <- <- <- <-. destruct (conn_error_streams c1 6) as (A & B & C & D & E & F).
        repeat (split; [first [assumption|reflexivity|apply conn_error_rest]|]). split; [discriminate|]. intros _. apply Hce.
      + injection Ec as <- <- <- <-. repeat (split; [reflexivity|]). split; [|discriminate]. intros _.
        split; [rewrite andb_false_r; reflexivity|].
        assert (Hle : nfo <= rx_fin_offset r) by (destruct fin; lia).
        split; [unfold rx_note; rewrite N.max_l by exact Hle; rewrite Er; cbn [orb]; unfold r in *; destruct (s_rx s); cbn in *; subst; reflexivity|].
        split; [intros _; destruct fin; lia|]. split; [lia|]. split; [reflexivity|]. split; [lia|auto].
    - destruct (if fin then update_max c1 (s_set_rx s (r_set_fin r true)) else (c1, s)) as [cA sA] eqn:Eu.

      assert (Hu : k_streams cA = k_streams c1 /\ k_retired cA = k_retired c1 /\ k_next cA = k_next c1 /\ k_out cA = k_out c1 /\
        rest cA = rest c1 /\ s_id sA = s_id s /\ gm sA = gm s /\ s_closed sA = s_closed s /\ k_rcvd cA = k_rcvd c1 /\ k_err cA = k_err c1 /\
        s_rx sA = r_set_fin r (rx_fin_received r || fin)).
      { destruct fin.
        - destruct (update_max_spec _ _ _ _ Eu) as (U1 & U2 & U3 & U4 & U5 & U6 & U7 & U8 & U9 & U10 & U11 & U12 & U13).
          repeat (split; [assumption|]). rewrite U9. rewrite orb_true_r. reflexivity.
        - injection Eu as <- <-. repeat (split; [reflexivity|]). rewrite orb_false_r. unfold r_set_fin, r. destruct (s_rx s); reflexivity. }
      destruct Hu as (U1 & U2 & U3 & U4 & U5 & U6 & U7 & U8 & U10 & U11 & U9).
      destruct (N.ltb_spec (rx_fin_offset r) nfo) as [Hlt|Hge].
      + destruct (flow_check cA sA nfo) as [[cB sB] okB] eqn:Efl. injection Ec as <- <- <- <-.
        destruct (flow_check_spec _ _ _ _ _ _ Efl) as (F1 & F2 & F3 & F4 & F5 & F6 & F7 & F8 & F9 & F10 & F11 & F12 & F13).
        repeat (split; [congruence|]). split.
        * intros E. destruct (F12 E) as (G1 & G2 & G3 & G4 & G5). rewrite U9 in G1, G2, G4. destruct (rest_max _ _ U5) as (_ & _ & Rm). rewrite U10, Rm in G5. rewrite U10 in G4. cbn [r_set_fin rx_maxdata rx_fin_offset] in G1, G4.
          split; [rewrite andb_true_r; reflexivity|]. split; [exact G2|].
          split; [discriminate|]. split; [lia|]. split; [congruence|]. split; [exact G4|exact G5].
        * intros E. destruct (F13 E) as (-> & _). apply Hce.
      + injection Ec as <- <- <- <-. repeat (split; [congruence|]). split; [|discriminate]. intros _.
        split; [rewrite andb_true_r; reflexivity|]. split; [rewrite U9; unfold rx_note, r_set_fin; rewrite N.max_l by exact Hge; rewrite Er; reflexivity|].
        split; [discriminate|]. split; [lia|]. split; [exact U11|]. split; [lia|]. intros; lia. }
  clear Ec. destruct Hc2 as (C1 & C2 & C3 & C4 & C5 & C6 & C7 & C8 & C9 & C10).
  destruct okk.
  2: { injection H as <- <-. split; [discriminate|]. intros _. split; [cbn [put set_streams k_out]; congruence|]. cbn [put set_streams k_err]. apply C10. reflexivity. }
  destruct (C9 eq_refl) as (-> & Hrx & Hfin & Hfl & Herr2 & Hrc & Hrl). clear C9 C10.
  destruct (rx_input (s_rx s2) off d (fin && negb (rx_fin_received r))) as [[r' ps]|] eqn:Ei; [|discriminate].
  injection H as <- <-. split; [|discriminate]. intros _.
  set (s3 := s_set_rx s2 r'). set (c3 := add_out (put c2 s3) (gate s3 ps)).
  pose proof (rx_input_mono _ _ _ _ _ _ Ei) as (X1 & X2 & X3).
  assert (Hcl1 : k_client c1 = k_client c) by (apply rest_client; exact M2).
  assert (Hcl2 : k_client c2 = k_client c) by (apply rest_client; congruence).
  assert (Hk3 : cok (k_client c) s3).
  { eapply cok_rx with (s := s).
    - rewrite <- Hcl1. eapply winv_lookup; eassumption.
    - exact C6.
    - exact C8.
    - cbn [s3 s_set_rx s_rx]. intros Hd. eapply rx_done_mono; [exact X1|exact X2|]. rewrite Hrx. unfold rx_done, rx_note in *.
      cbn [rx_fin_received rx_fin_signalled rx_reset_received rx_reset_signalled]. fold r in Hd. apply orb_prop in Hd.
      destruct Hd as [Hd|Hd]; [|rewrite Hd; apply orb_true_r]. apply andb_prop in Hd. destruct Hd as [-> ->]. reflexivity. }
  assert (Hw2 : winv c2) by (eapply winv_same; try eassumption; congruence).
  assert (Hlk2 : lookup c2 (s_id s3) = Some s).
  { unfold lookup. rewrite C1. cbn [s3 s_set_rx s_id]. rewrite C6, Hid. exact Hlk. }
  assert (Hw3 : winv c3).
  { eapply winv_same with (c := put c2 s3); try reflexivity. apply winv_put; [exact Hw2|]. rewrite Hcl2. exact Hk3. }
  assert (Hid3 : s_id s3 = sid) by (cbn [s3 s_set_rx s_id]; congruence).
  assert (Hfo : fo s3 = N.max (fo s) nfo).
  { unfold fo. cbn [s3 s_set_rx s_rx]. destruct X1 as (_ & _ & _ & -> & _). rewrite Hrx. reflexivity. }
  assert (Hg : good c1 c3 (fun x => labels x (OpStream sid off fin d))).
  { eapply good_write with (s0 := s); try eassumption.
    - intros x Hne. cbn [labels]. destruct (N.eqb_spec sid x); [congruence|reflexivity].
    - congruence.
    - rewrite Hfo, Hrc. unfold fo. fold r. lia.
    - rewrite Hcl1. exact Hk3.
    - rewrite Hid3. exact Hlk.
    - intros x Hne. rewrite pieces_gate. destruct (N.eqb_spec (s_id s3) x); [congruence|reflexivity].
    - intros e. rewrite Hid3. cbn [labels]. rewrite N.eqb_refl, pieces_gate, Hid3, N.eqb_refl.
      replace (gm s3) with (gm s) by (symmetry; exact C7). cbn [s3 s_set_rx s_rx].
      replace (is_open s3) with (fst (gm s)) by (rewrite <- C7; reflexivity).
      apply vt_stream; try assumption. rewrite Hrx in Ei. exact Ei. }
  assert (Hg' : good_step c c3 (OpStream sid off fin d)).
  { eapply good_trans with (L1 := fun _ => []); [|apply good_mild; [reflexivity|exact M]|exact Hg]. reflexivity. }
  destruct (rx_fin_signalled r'); [|exact Hg'].
  assert (Hlk3 : lookup c3 (s_id s3) = Some s3).
  { change (lookup (put c2 s3) (s_id s3) = Some s3). rewrite lookup_put, Hlk2, N.eqb_refl. reflexivity. }
  eapply good_trans with (L2 := fun _ => []); [|exact Hg'|eapply good_delete with (s0 := s3); try reflexivity; try assumption].
  - intros x. rewrite app_nil_r. reflexivity.
  - change (k_client c3) with (k_client c2). rewrite Hcl2. exact Hk3.
Qed.

Lemma reset_frame_spec : forall c sid final c' ok, winv c -> reset_frame c sid final = (c', ok) ->
  (ok = true -> good_step c c' (OpReset sid final)) /\ (ok = false -> k_out c' = k_out c /\ k_err c' <> None).
Proof.
  intros c sid final c' ok Hw H. unfold reset_frame in H.
  destruct (find_or_create c sid) as [c1 os] eqn:Ef.
  destruct (find_or_create_spec _ _ _ _ Hw Ef) as (M & Ho). pose proof M as (M1 & M2 & M3 & M4 & M5 & M6 & M7 & M8 & M9).
  destruct os as [s|].
  2: { destruct Ho as (O1 & O2 & O3). injection H as <- <-. destruct O3 as [(-> & O3 & (o4 & O4))|(O3 & O4)].
       - destruct (k_err c) eqn:Ee.
         + split; [discriminate|]. intros _. split; [reflexivity|]. congruence.
         + split; [|discriminate]. intros _.
           apply good_ignored with (i := sid) (o := o4); [exact Hw|exact O4|]. intros x. cbn [labels]. destruct (N.eqb_spec sid x) as [<-|Hne]; [right; split; [reflexivity|eauto]|left; reflexivity].
       - destruct (k_err c1) eqn:Ee; [|contradiction]. split; [discriminate|]. intros _. split; [exact M3|]. congruence. }
  destruct Ho as (Hlk & Herr). pose proof (lookup_in _ _ _ Hlk) as (_ & Hid).
  set (r := s_rx s) in *.
  pose proof conn_error_sticky as Hce.
  destruct ((rx_fin_received r || rx_reset_received r) && negb (final =? rx_fin_offset r)) eqn:Et.
  { injection H as <- <-. split; [discriminate|]. intros _. destruct (conn_error_streams c1 6) as (_ & _ & _ & -> & _). split; [exact M3|apply Hce]. }
  assert (Hfinal : (rx_fin_received r || rx_reset_received r) = true -> final = rx_fin_offset r).
  { intros E. rewrite E in Et. cbn [andb] in Et. lia. }
  destruct (flow_check c1 s final) as [[c2 s2] okk] eqn:Efl.
  destruct (flow_check_spec _ _ _ _ _ _ Efl) as (F1 & F2 & F3 & F4 & F5 & F6 & F7 & F8 & F9 & F10 & F11 & F12 & F13).
  destruct okk.
  2: { injection H as <- <-. split; [discriminate|]. intros _. destruct (F13 eq_refl) as (E & _). split; [congruence|]. rewrite E. apply Hce. }
  destruct (F12 eq_refl) as (G1 & G2 & G3 & G4 & G5). clear F12 F13.
  fold r in G1, G2.
  assert (Hcl1 : k_client c1 = k_client c) by (apply rest_client; exact M2).
  assert (Hcl2 : k_client c2 = k_client c) by (apply rest_client; congruence).
  assert (Hw2 : winv c2) by (eapply winv_same; try eassumption; congruence).
  assert (Hks : cok (k_client c) s) by (rewrite <- Hcl1; eapply winv_lookup; eassumption).
  assert (Hlk2 : forall x, s_id x = sid -> lookup c2 (s_id x) = Some s).
  { intros x ->. unfold lookup. rewrite F1. exact Hlk. }
  assert (Hid2 : s_id s2 = sid) by congruence.
  destruct (rx_reset_received r) eqn:Er.
  { injection H as <- <-. split; [|discriminate]. intros _.
    assert (Hsame : s_rx s2 = r).
    { rewrite G2. rewrite (Hfinal ltac:(apply orb_true_r)), N.max_id. destruct r; reflexivity. }
    eapply good_trans with (L1 := fun _ => []); [|apply good_mild; [reflexivity|exact M]|].
    2: { replace (put c2 s2) with (add_out (put c2 s2) []) by (unfold add_out; rewrite app_nil_r; destruct (put c2 s2); reflexivity).
         eapply good_write with (s0 := s) (L := fun x => labels x (OpReset sid final)); try assumption.
         - intros x Hne. cbn [labels]. destruct (N.eqb_spec sid x); [congruence|reflexivity].
         - congruence.
         - unfold fo. rewrite Hsame. fold r. rewrite G4, (Hfinal ltac:(apply orb_true_r)). fold r. lia.
         - rewrite Hcl1. eapply cok_rx; try eassumption. rewrite Hsame. auto.
         - rewrite Hid2. exact Hlk.
         - reflexivity.
         - intros e. rewrite Hid2. cbn [labels]. rewrite N.eqb_refl, Hsame, F7. fold r.
           pose proof (vt_reset (vpc c1 e sid) r (gm s) final) as V. rewrite Er in V. apply V; [|exact G1]. intros _. apply Hfinal. apply orb_true_r. }
    reflexivity. }
  set (s3 := s_set_rx s2 (r_set_reset (s_rx s2))) in *.
  destruct (update_max c2 s3) as [c3 s4] eqn:Eu.
  destruct (update_max_spec _ _ _ _ Eu) as (U1 & U2 & U3 & U4 & U5 & U6 & U7 & U8 & U9 & U10 & U11 & U12 & U13).
  set (ev := if rx_reset_signalled r || s_discarded s4 then [] else [EvReset sid]) in *.
  set (c4 := add_out (put c3 s4) ev) in *.
  assert (Hid4 : s_id s4 = sid) by (rewrite U8; exact Hid2).
  assert (Hrx4 : s_rx s4 = rx_reset r final).
  { rewrite U9. cbn [s3 s_set_rx s_rx]. rewrite G2. reflexivity. }
  assert (Hop4 : gm s4 = gm s) by (rewrite U10; exact F7).
  assert (Hk4 : cok (k_client c) s4).
  { intros _. left. rewrite Hrx4. unfold rx_done, rx_reset. cbn. apply orb_true_r. }
  assert (Hcl3 : k_client c3 = k_client c) by (rewrite (rest_client _ _ U1); exact Hcl2).
  assert (Hw3 : winv c3) by (eapply winv_same; try eassumption; congruence).
  assert (Hlk3 : lookup c3 (s_id s4) = Some s).
  { unfold lookup. rewrite U4. apply Hlk2. exact Hid4. }
  assert (Hw4 : winv c4).
  { eapply winv_same with (c := put c3 s4); try reflexivity. apply winv_put; [exact Hw3|]. rewrite Hcl3. exact Hk4. }
  assert (Hlk4 : lookup c4 (s_id s4) = Some s4).
  { change (lookup (put c3 s4) (s_id s4) = Some s4). rewrite lookup_put, Hlk3, N.eqb_refl. reflexivity. }
  assert (Hpe : forall x, pieces_of x ev = []).
  { intros x. unfold ev. destruct (rx_reset_signalled r || s_discarded s4); reflexivity. }
  assert (Hg : good c1 c4 (fun x => labels x (OpReset sid final))).
  { eapply good_write with (s0 := s); try congruence.
    - intros x Hne. cbn [labels]. destruct (N.eqb_spec sid x); [congruence|reflexivity].
    - unfold fo. rewrite Hrx4. fold r. unfold rx_reset. cbn [rx_fin_offset]. rewrite U2, G4. fold r. lia.
    - rewrite U2. exact G5.
    - rewrite Hcl1. exact Hk4.
    - intros e. rewrite Hid4, Hpe. cbn [labels]. rewrite N.eqb_refl, Hrx4, Hop4. fold r.
      pose proof (vt_reset (vpc c1 e sid) r (gm s) final) as V. rewrite Er in V. apply V; [exact Hfinal|exact G1]. }
  assert (Hg' : good_step c c4 (OpReset sid final)).
  { eapply good_trans with (L1 := fun _ => []); [|apply good_mild; [reflexivity|exact M]|exact Hg]. reflexivity. }
  injection H as <- <-. split; [|discriminate]. intros _.
  destruct (rx_reset_signalled r); [exact Hg'|].
  eapply good_trans with (L2 := fun _ => []); [|exact Hg'|eapply good_delete with (s0 := s4); try reflexivity; try assumption].
  - intros x. rewrite app_nil_r. reflexivity.
  - change (k_client c4) with (k_client c3). rewrite Hcl3. exact Hk4.
Qed.

Lemma stop_sending_spec : forall c sid c' ok, winv c -> stop_sending_frame c sid = (c', ok) ->
  (ok = true -> good_step c c' (OpStopFrame sid)) /\ (ok = false -> k_out c' = k_out c /\ k_err c' <> None).
Proof.
  intros c sid c' ok Hw H. unfold stop_sending_frame in H.
  destruct (find_or_create c sid) as [c1 os] eqn:Ef.
  destruct (find_or_create_spec _ _ _ _ Hw Ef) as (M & Ho). pose proof M as (M1 & M2 & M3 & M4 & M5 & M6 & M7 & M8 & M9).
  assert (Hg1 : good_step c c1 (OpStopFrame sid)) by (apply good_mild; [reflexivity|exact M]).
  destruct os as [s|]; [|injection H as <- <-; split; [intros _; exact Hg1|discriminate]].
  destruct Ho as (Hlk & Herr). pose proof (lookup_in _ _ _ Hlk) as (_ & Hid).
  destruct (_ && _).
  { injection H as <- <-. split; [discriminate|]. intros _. destruct (conn_error_streams c1 5) as (_ & _ & _ & -> & _). split; [exact M3|].
    unfold conn_error. destruct (k_err c1) eqn:E; [rewrite E; discriminate|discriminate]. }
  destruct (_ && _ && _); [|injection H as <- <-; split; [intros _; exact Hg1|discriminate]].
  injection H as <- <-. split; [|discriminate]. intros _.
  set (s2 := s_set_stop s (s_stop_req s) true (s_discarded s)). set (ev := if s_discarded s then [] else [EvStop sid]).
  assert (Hg2 : good c1 (put c1 s2) (fun _ => [])).
  { eapply good_put with (s0 := s); [exact M1|reflexivity| | |reflexivity|].
    - eapply cok_rx; [eapply winv_lookup; eassumption|reflexivity|reflexivity|auto].
    - cbn [s2 s_set_stop s_id]. rewrite Hid. exact Hlk.
    - intros e. apply vt_refl. }
  assert (Hg3 : good (put c1 s2) (add_out (put c1 s2) ev) (fun _ => [])).
  { apply good_out; [apply Hg2|reflexivity|]. intros x. unfold ev. destruct (s_discarded s); reflexivity. }
  eapply good_after; [exact Hg1|]. eapply good_after; [exact Hg2|exact Hg3].
Qed.

Lemma put_id : forall c s, lookup c (s_id s) = Some s -> tinv c -> put c s = c.
Proof.
  intros c s Hl Ht. unfold put. assert (E : map (fun x => if s_id x =? s_id s then s else x) (k_streams c) = k_streams c).
  { pose proof (tinv_nodup c Ht) as Hn. unfold lookup in Hl. revert Hl Hn. induction (k_streams c) as [|x l IH]; intros Hl Hn; [reflexivity|].
    cbn [find map] in *. inversion Hn as [|y z Hy Hz]. subst. destruct (N.eqb_spec (s_id x) (s_id s)) as [E|E].
    - injection Hl as ->. rewrite sumS_map_other by exact Hy. reflexivity.
    - rewrite (IH Hl Hz). reflexivity. }
  rewrite E. destruct c; reflexivity.
Qed.

Lemma tinv_none : forall c sid, tinv c -> k_next c (stream_type sid) <= sid -> view_of c sid = VNone.
Proof.
  intros c sid (T1 & T2 & T3) H. assert (Hn : ~ In sid (ids c)) by (rewrite T2; lia). unfold ids in Hn. unfold view_of.
  assert (lookup c sid = None) as -> by (apply lookup_none; intros X; apply Hn; apply in_or_app; left; exact X).
  destruct (find _ _) as [[i o]|] eqn:E; [|reflexivity]. apply find_some in E. destruct E as [E1 E2]. exfalso. apply Hn. apply in_or_app. right.
  cbn [fst] in E2. apply N.eqb_eq in E2. subst i. apply in_map with (f := fst) in E1. exact E1.
Qed.

Lemma good_no_gate : forall c L, winv c -> (forall x, L x = [] \/ L x = [LGate]) -> good c c L.
Proof.
  intros c L Hw Hl. split; [exact Hw|]. split; [split; reflexivity|]. split; [|auto].
  exists []. split; [rewrite app_nil_r; reflexivity|]. intros x e _. destruct (Hl x) as [-> | ->]; [apply vt_refl|apply vt_no_gate].
Qed.

Lemma sstep_spec : forall c o c' ok, winv c -> sstep c o = Some (c', ok) ->
  (ok = true -> good_step c c' o) /\ (ok = false -> k_out c' = k_out c /\ k_err c' <> None).
Proof.
  intros c o c' ok Hw H. destruct o as [sid off fin d|sid final|sid|v|sid v|uni rank|v|sid v| |sid|sid t|sid t|sid|sid]; cbn [sstep] in H.
  - eapply stream_frame_spec; eassumption.
  - apply reset_frame_spec; [exact Hw|]. congruence.
  - apply stop_sending_spec; [exact Hw|]. congruence.
  - injection H as <- <-. split; [|discriminate]. intros _. unfold max_data_frame. destruct (_ <? _); apply good_same; try reflexivity; auto.
  - injection H as <- <-. split; [|discriminate]. intros _. unfold max_stream_data_frame.
    destruct (find_or_create c sid) as [c1 os] eqn:Ef.
    destruct (find_or_create_spec _ _ _ _ Hw Ef) as (M & Ho). pose proof M as (M1 & M2 & M3 & M4 & M5 & M6 & M7 & M8 & M9).
    assert (Hg1 : good c c1 (fun _ => [])) by (apply good_mild; [reflexivity|exact M]).
    destruct os as [s|].
    + destruct Ho as (Hlk & Herr). pose proof (lookup_in _ _ _ Hlk) as (_ & Hid).
      eapply good_before; [exact Hg1|]. clear Hg1.
      set (s2 := if s_md_remote s <? v then s_set_md_remote s v else s).
      assert (Hs2 : s_id s2 = sid /\ s_rx s2 = s_rx s /\ gm s2 = (fst (gm s), N.max (snd (gm s)) v) /\ s_closed s2 = s_closed s).
      { unfold s2. destruct (N.ltb_spec (s_md_remote s) v) as [Hv|Hv]; (split; [exact Hid|]); (split; [reflexivity|]); (split; [|reflexivity]);
          unfold gm; cbn [s_set_md_remote s_md_remote is_open s_stop_req s_discarded fst snd]; [rewrite N.max_r by lia; reflexivity|rewrite N.max_l by lia; reflexivity]. }
      destruct Hs2 as (S1 & S2 & S3 & S4).
      assert (Hput : (if s_md_remote s <? v then put c1 (s_set_md_remote s v) else c1) = put c1 s2).
      { unfold s2. destruct (s_md_remote s <? v); [reflexivity|]. symmetry. apply put_id; [rewrite Hid; exact Hlk|]. apply M1. }
      rewrite Hput. eapply good_put with (s0 := s); [exact M1| | | | |].
      * intros x Hne. cbn [labels]. destruct (N.eqb_spec sid x); [congruence|reflexivity].
      * eapply cok_rx; [eapply winv_lookup; eassumption|congruence|exact S4|rewrite S2; auto].
      * rewrite S1. exact Hlk.
      * unfold fo. rewrite S2. reflexivity.
      * intros e. rewrite S1, S2, S3. cbn [labels]. rewrite N.eqb_refl. apply vt_maxr.
    + destruct Ho as (O1 & O2 & O3). destruct O3 as [(-> & O3 & (o4 & O4))|(O3 & O4)].
      * apply good_ignored with (i := sid) (o := o4); [exact Hw|exact O4|]. intros x. cbn [labels]. destruct (N.eqb_spec sid x) as [<-|Hne]; [right; split; [reflexivity|eauto]|left; reflexivity].
      * destruct Hg1 as (G1 & G2 & (evs & G3 & G4) & G5). split; [exact G1|]. split; [exact G2|]. split; [|exact G5].
        exists evs. split; [exact G3|]. intros x e He. specialize (G4 x e He). cbn [labels]. destruct (N.eqb_spec sid x) as [<-|Hne]; [|exact G4].
        rewrite <- (app_nil_l [LMaxR v]), <- (app_nil_r (pieces_of sid evs)). eapply vt_trans; [exact G4|]. rewrite (He O3) in *.
        assert (Hnone : view_of c1 sid = VNone).
        { apply tinv_none; [apply M1|]. rewrite O2. exact O4. }
        rewrite Hnone. apply vt_maxr_none. reflexivity.
  - assert (Hg : good_step c c' (OpMaxStreams uni rank) /\ (ok = false -> k_out c' = k_out c /\ k_err c' <> None)).
    { unfold max_streams_frame in H.
      set (c1 := if uni then _ else _) in H.
      assert (Hg1 : good_step c c1 (OpMaxStreams uni rank)).
      { unfold c1. destruct uni; destruct (_ <? _); apply good_same; try reflexivity; auto. }
      assert (Ho1 : k_out c1 = k_out c) by (unfold c1; destruct uni; destruct (_ <? _); reflexivity).
      destruct (_ <=? _); injection H as <- <-.
      - split.
        + eapply good_after; [exact Hg1|]. destruct (conn_error_streams c1 4) as (A & B & C & D & E & F). destruct (rest_max _ _ (conn_error_rest c1 4)) as (R1 & R2 & R3).
          apply good_same; try assumption; try reflexivity; try lia; [apply Hg1|unfold conn_error; destruct (k_err c1); reflexivity|]. intros _. apply conn_error_sticky.
        + intros _. destruct (conn_error_streams c1 4) as (A & B & C & D & E & F). split; [congruence|]. apply conn_error_sticky.
      - split; [exact Hg1|discriminate]. }
    destruct Hg as [Hg1 Hg2]. split; [intros _; exact Hg1|exact Hg2].
  - injection H as <- <-. split; [|discriminate]. intros _. apply good_same; try reflexivity; auto. cbn [send_max_data set_md k_md_l]. lia.
  - injection H as <- <-. split; [|discriminate]. intros _. unfold send_max_stream_data.
    destruct (lookup c sid) as [s|] eqn:Hlk.
    + pose proof (lookup_in _ _ _ Hlk) as (_ & Hid).
      set (s2 := if rx_maxdata (s_rx s) <? v then s_set_rx s (r_set_maxdata (s_rx s) v) else s).
      assert (Hput : (if rx_maxdata (s_rx s) <? v then put c (s_set_rx s (r_set_maxdata (s_rx s) v)) else c) = put c s2).
      { unfold s2. destruct (_ <? v); [reflexivity|]. symmetry. apply put_id; [rewrite Hid; exact Hlk|]. apply Hw. }
      rewrite Hput. assert (S1 : s_id s2 = sid) by (unfold s2; destruct (_ <? v); exact Hid).
      eapply good_put with (s0 := s); [exact Hw| | | | |].
      * intros x Hne. cbn [labels]. destruct (N.eqb_spec sid x); [congruence|reflexivity].
      * eapply cok_rx; [eapply winv_lookup; eassumption|congruence|unfold s2; destruct (_ <? v); reflexivity|unfold s2; destruct (_ <? v); auto].
      * rewrite S1. exact Hlk.
      * unfold fo, s2. destruct (_ <? v); reflexivity.
      * intros e. rewrite S1. cbn [labels]. rewrite N.eqb_refl. pose proof (vt_maxl (vpc c e sid) (s_rx s) (gm s) v) as V. unfold s2. destruct (_ <? v); exact V.
    + split; [exact Hw|]. split; [split; reflexivity|]. split; [|auto].
      exists []. split; [rewrite app_nil_r; reflexivity|]. intros x e _. cbn [labels]. destruct (N.eqb_spec sid x) as [<-|Hne]; [|apply vt_refl].
      unfold view_of. rewrite Hlk. destruct (find _ _) as [[? ?]|]; [apply vt_ignored|apply vt_maxl_none].
  - injection H as <- <-. split; [|discriminate]. intros _. unfold send_max_streams. apply good_same; try reflexivity; auto; cbn [set_limits k_maxb_l k_maxu_l]; destruct (_ <? _); lia.
  - injection H as <- <-. split; [|discriminate]. intros _. unfold open_local.
    destruct (lookup c sid) as [s|] eqn:Hlk; [apply good_refl; exact Hw|].
    destruct (Bool.eqb _ _); [|apply good_refl; exact Hw].
    destruct (create_missing c sid false) as [c1 okk] eqn:Ec. cbn [fst].
    destruct (create_missing_spec _ _ _ _ _ Hw Ec) as (M & _). apply good_mild; [reflexivity|exact M].
  - injection H as <- <-. split; [|discriminate]. intros _. unfold tx_sent.
    destruct (lookup c sid) as [s|] eqn:Hlk; [|apply good_refl; exact Hw].
    pose proof (lookup_in _ _ _ Hlk) as (_ & Hid).
    destruct (update_max c (s_set_tx s t)) as [c1 s1] eqn:Eu.
    destruct (update_max_spec _ _ _ _ Eu) as (U1 & U2 & U3 & U4 & U5 & U6 & U7 & U8 & U9 & U10 & U11 & U12 & U13).
    assert (Hcl : k_client c1 = k_client c) by (apply rest_client; exact U1).
    assert (Hw1 : winv c1) by (eapply winv_same; try eassumption).
    assert (Hk1 : cok (k_client c1) s1).
    { rewrite Hcl. eapply cok_rx; [eapply winv_lookup; eassumption|exact U8|exact U12|]. rewrite U9. auto. }
    assert (Hlk1 : lookup c1 (s_id s1) = Some s) by (unfold lookup; rewrite U4, U8; cbn [s_set_tx s_id]; rewrite Hid; exact Hlk).
    destruct (rest_max _ _ U1) as (R1 & R2 & R3).
    assert (Hg1 : good c c1 (fun _ => [])) by (apply good_same; try assumption; try reflexivity; try lia; [apply rest_par; exact U1|congruence]).
    assert (Hg2 : good c1 (put c1 s1) (fun _ => [])).
    { eapply good_put with (s0 := s); [exact Hw1|reflexivity|exact Hk1|exact Hlk1|unfold fo; rewrite U9; reflexivity|]. intros e. rewrite U9, U10. apply vt_refl. }
    eapply good_after; [exact Hg1|]. eapply good_after; [exact Hg2|].
    eapply good_delete with (s0 := s1); [apply Hg2|reflexivity|exact Hk1| |reflexivity|reflexivity].
    rewrite lookup_put, Hlk1, N.eqb_refl. reflexivity.
  - injection H as <- <-. split; [|discriminate]. intros _. unfold tx_acked.
    destruct (lookup c sid) as [s|] eqn:Hlk; [|apply good_refl; exact Hw].
    pose proof (lookup_in _ _ _ Hlk) as (_ & Hid).
    set (s1 := s_set_tx s t).
    assert (Hk1 : cok (k_client c) s1).
    { eapply cok_rx; [eapply winv_lookup; eassumption|reflexivity|reflexivity|auto]. }
    assert (Hlk1 : lookup c (s_id s1) = Some s) by (cbn [s1 s_set_tx s_id]; rewrite Hid; exact Hlk).
    assert (Hg2 : good c (put c s1) (fun _ => [])).
    { eapply good_put with (s0 := s); [exact Hw|reflexivity|exact Hk1|exact Hlk1|reflexivity|]. intros e. apply vt_refl. }
    eapply good_after; [exact Hg2|].
    eapply good_delete with (s0 := s1); [apply Hg2|reflexivity|exact Hk1| |reflexivity|reflexivity].
    rewrite lookup_put, Hlk1, N.eqb_refl. reflexivity.
  - injection H as <- <-. split; [|discriminate]. intros _. unfold app_stop_sending.
    destruct (lookup c sid) as [s|] eqn:Hlk; [|apply good_no_gate; [exact Hw|]; intros x; cbn [labels]; destruct (sid =? x); auto].
    pose proof (lookup_in _ _ _ Hlk) as (_ & Hid).
    destruct (rx_reset_received (s_rx s)); [apply good_no_gate; [exact Hw|]; intros x; cbn [labels]; destruct (sid =? x); auto|].
    eapply good_put with (s0 := s); [exact Hw| | | |reflexivity|].
    + intros x Hne. cbn [s_set_stop s_id] in Hne. cbn [labels]. destruct (N.eqb_spec sid x); [congruence|reflexivity].
    + eapply cok_rx; [eapply winv_lookup; eassumption|reflexivity|reflexivity|auto].
    + cbn [s_set_stop s_id]. rewrite Hid. exact Hlk.
    + intros e. cbn [s_set_stop s_id s_rx]. rewrite Hid. cbn [labels]. rewrite N.eqb_refl. apply (vt_gate (vpc c e sid) (s_rx s) (gm s)).
  - injection H as <- <-. split; [|discriminate]. intros _. unfold app_discard.
    destruct (lookup c sid) as [s|] eqn:Hlk; [|apply good_no_gate; [exact Hw|]; intros x; cbn [labels]; destruct (sid =? x); auto].
    pose proof (lookup_in _ _ _ Hlk) as (_ & Hid).
    eapply good_put with (s0 := s); [exact Hw| | | |reflexivity|].
    + intros x Hne. cbn [s_set_stop s_id] in Hne. cbn [labels]. destruct (N.eqb_spec sid x); [congruence|reflexivity].
    + eapply cok_rx; [eapply winv_lookup; eassumption|reflexivity|reflexivity|auto].
    + cbn [s_set_stop s_id]. rewrite Hid. exact Hlk.
    + intros e. cbn [s_set_stop s_id s_rx]. rewrite Hid. cbn [labels]. rewrite N.eqb_refl. unfold gm at 2, is_open. cbn [s_set_stop s_discarded s_stop_req s_md_remote]. rewrite orb_true_r.
      apply (vt_gate (vpc c e sid) (s_rx s) (gm s)).
Qed.
