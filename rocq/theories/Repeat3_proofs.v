(** Proofs about the repetition of lost STREAM frames: the cursor, one turn, the queue. *)
From Verif Require Import Base Tac Varint_model Varint_proofs Sack_model Sack_spec Sack_proofs Stream_model Frames_model Frames_spec
  Frames_proofs Frames2_proofs Frames5_proofs Send_model Send_spec Send_proofs Send2_proofs Send3_proofs
  Repeat_model Repeat_spec Repeat_proofs Repeat2_proofs.

Lemma skip_next bytes frame l rest : skipn (N.to_nat frame) bytes = l -> tail_of l rest ->
  skipn (N.to_nat (frame + (blen l - blen rest))) bytes = rest.
Proof.
  intros H [h Hl]. rewrite N2Nat.inj_add, <- skipn_add, H, Hl. rewrite Varint_proofs.blen_app.
  replace (blen h + blen rest - blen rest) with (blen h) by lia. unfold blen. rewrite Nat2N.id.
  rewrite skipn_app, skipn_all, Nat.sub_diag. reflexivity.
Qed.

Lemma skipn_nonempty bytes frame b l : skipn (N.to_nat frame) bytes = b :: l -> frame < blen bytes.
Proof.
  intro H. assert (E := skipn_blen bytes frame). rewrite H, Varint_proofs.blen_cons in E. lia.
Qed.

Lemma skipn_empty bytes frame : skipn (N.to_nat frame) bytes = [] -> blen bytes <= frame.
Proof. intro H. assert (E := skipn_blen bytes frame). rewrite H in E. change (blen []) with 0 in E. lia. Qed.

Lemma rs_find_prio streams id : prio_ok streams ->
  match rs_find streams id with Some s => rs_prio s | None => 0 end <= max64.
Proof.
  intro H. unfold rs_find. destruct (find _ streams) as [s |] eqn:E; [| unfold max64; lia].
  apply find_some in E. unfold prio_ok in H. rewrite Forall_forall in H. apply H, E.
Qed.

Definition lands (bytes : list N) (fs : list sfr) (p' : lost) : Prop :=
  match fs with
  | [] => blen bytes <= lp_frame p'
  | _ :: _ => lp_frame p' < blen bytes /\ waiting p' fs
  end.

Lemma adjust_spec streams bytes tail fs : payload_streams tail fs -> prio_ok streams ->
  forall fuel frame prio, skipn (N.to_nat frame) bytes = tail -> (length tail <= fuel)%nat -> prio <= max64 ->
  exists p', adjust fuel streams (mk_lost bytes frame frame prio) = Some (p', true) /\
    lp_bytes p' = bytes /\ lp_prio p' <= max64 /\ frame <= lp_frame p' /\ lands bytes fs p'.
Proof.
  intros H Hpr. induction H as [| b l id off fin d rest fs Hty Hp Hr IH | b l rest fs Hty Hsk Hr IH];
    intros fuel frame prio Hs Hf Hprio.
  - exists (mk_lost bytes frame frame prio). destruct fuel; cbn [adjust lp_frame lp_bytes]; rewrite Hs;
      (split; [reflexivity |]; split; [reflexivity |]; split; [exact Hprio |]; split; [reflexivity |];
       apply skipn_empty, Hs).
  - eexists. split.
    { destruct fuel; cbn [adjust lp_frame lp_bytes lp_index]; rewrite Hs, Hty, Hp; reflexivity. }
    cbn [lp_bytes lp_prio lp_frame]. split; [reflexivity |]. split; [apply rs_find_prio, Hpr |]. split; [reflexivity |].
    split; [eapply skipn_nonempty, Hs |].
    assert (W := w_stream bytes frame frame
      (match rs_find streams id with Some s => rs_prio s | None => 0 end) b l id off fin d rest fs 0 Hs Hty Hp Hr).
    rewrite N.add_0_r in W. apply W; [lia | left; reflexivity].
  - destruct fuel as [| fuel]; [cbn [length] in Hf; lia |]. cbn [adjust lp_frame lp_bytes lp_index lp_prio]. rewrite Hs, Hty, Hsk.
    assert (G := skip_frame_good (b :: l) ltac:(discriminate)). rewrite Hsk in G.
    assert (L := progress_len _ _ G). apply progress_tail in G.
    assert (Hn := skip_next _ _ _ _ Hs G).
    destruct (IH fuel (frame + (blen (b :: l) - blen rest)) prio Hn ltac:(lia) Hprio) as (p' & E & Hb & Hq & Hle & Hla).
    exists p'. split; [exact E |]. split; [exact Hb |]. split; [exact Hq |]. split; [lia | exact Hla].
Qed.

(** What one turn does to the frames that wait. *)
Inductive turn (streams : list rstream) (room : N) : list sfr -> list item -> list sfr -> Prop :=
| t_unneeded id off fin d r :
    not_needed streams id off (off + blen d) fin -> turn streams room ((id, off, fin, d) :: r) [] r
| t_no_room id off fin d r :
    room < 17 + 512 -> d <> [] -> turn streams room ((id, off, fin, d) :: r) [] ((id, off, fin, d) :: r)
| t_fin_lost id off fin r :
    room < 18 -> turn streams room ((id, off, fin, []) :: r) [] r
| t_all id off fin d r :
    turn streams room ((id, off, fin, d) :: r) [IStream id off fin d] r
| t_part id off fin d r k :
    512 <= k < blen d ->
    turn streams room ((id, off, fin, d) :: r) [IStream id off false (firstn (N.to_nat k) d)]
      ((id, off + k, fin, skipn (N.to_nat k) d) :: r).

Lemma copy_single_spec streams p room fs :
  bytes_ok (lp_bytes p) -> prio_ok streams -> lp_prio p <= max64 -> waiting p fs -> Forall sfr_ok fs ->
  exists s b fs', copy_single streams p room = Some s /\ sg_bytes s = Some b /\ bytes_ok b /\
    (b = [] \/ readable room b (frames_of (sg_items s))) /\ (b = [] -> sg_items s = []) /\
    turn streams room fs (sg_items s) fs' /\
    lp_bytes (sg_lost s) = lp_bytes p /\ lp_prio (sg_lost s) <= max64 /\
    match fs' with
    | [] => sg_gone s = true
    | _ :: _ => sg_gone s = false /\ waiting (sg_lost s) fs'
    end.
Proof.
  intros Hok Hpr Hpp Hw Hf.
  destruct Hw as [bytes frame index prio b0 l id off fin d rest fs sent Hs Hty Hp Hps Hsent Hlt].
  cbn [lp_bytes lp_prio] in *.
  inversion Hf as [| x y Hf1 Hf2]; subst x y. cbn [sfr_ok] in Hf1.
  assert (Bd : blen (skipn (N.to_nat sent) d) = blen d - sent) by apply skipn_blen.
  assert (Hok0 : bytes_ok (b0 :: l)).
  { rewrite <- (firstn_skipn (N.to_nat frame) bytes) in Hok. apply Forall_app in Hok. rewrite Hs in Hok. tauto. }
  assert (Hfl := skipn_nonempty _ _ _ _ Hs).
  destruct (copy_frame_spec streams (mk_lost bytes frame index prio) room b0 l id off fin d rest sent) as (b & its & p1 & E & Out);
    cbn [lp_bytes lp_frame lp_index]; try assumption; [lia |].
  cbn [lp_bytes lp_frame lp_index lp_prio] in *.
  set (e := frame + (blen (b0 :: l) - blen rest)) in *.
  assert (Htl : tail_of (b0 :: l) rest).
  { inversion Hok0; subst. destruct (parse_shape _ _ _ _ _ _ _ ltac:(eassumption) Hp) as (_ & _ & h & ->).
    exists (b0 :: h ++ d). cbn [app]. rewrite <- app_assoc. reflexivity. }
  assert (Hnext : skipn (N.to_nat e) bytes = rest) by (apply skip_next; assumption).
  assert (Hfe : frame < e).
  { unfold e. destruct Htl as [h Hh]. assert (B : blen (b0 :: l) = blen h + blen rest) by (rewrite Hh; apply Varint_proofs.blen_app).
    inversion Hok0 as [| x y X1 X2]; subst x y. destruct (parse_shape _ _ _ _ _ _ _ X2 Hp) as (_ & _ & h2 & Hl2).
    assert (blen l = blen h2 + blen d + blen rest) by (rewrite Hl2, !Varint_proofs.blen_app; lia).
    rewrite Varint_proofs.blen_cons in *. lia. }
  (* the part that follows the copy *)
  assert (Fin : forall its', exists s, (match (if e <? blen bytes then adjust_all streams (mk_lost bytes e e prio) else Some (mk_lost bytes e e prio, true)) with
       | Some (p2, ok) => Some (mk_single (if (ok : bool) then Some b else None) its' p2 (blen bytes <=? lp_frame p2)
                             ((lp_frame p2 <? blen bytes) && (frame <? lp_frame p2)))
       | None => None end) = Some s /\ sg_bytes s = Some b /\ sg_items s = its' /\ lp_bytes (sg_lost s) = bytes /\
       lp_prio (sg_lost s) <= max64 /\
       match fs with [] => sg_gone s = true | _ :: _ => sg_gone s = false /\ waiting (sg_lost s) fs end).
  { intro its'. destruct (N.ltb_spec e (blen bytes)) as [L | L].
    - destruct (adjust_spec streams bytes rest fs Hps Hpr (length bytes) e prio Hnext) as (p' & Ea & Hb & Hq & Hle & Hla); [| exact Hpp |].
      { rewrite <- Hnext, skipn_length. lia. }
      unfold adjust_all. cbn [lp_bytes]. rewrite Ea. eexists. split; [reflexivity |]. cbn [sg_bytes sg_items sg_lost sg_gone].
      split; [reflexivity |]. split; [reflexivity |]. split; [exact Hb |]. split; [exact Hq |].
      unfold lands in Hla. destruct fs; [apply N.leb_le, Hla | split; [apply N.leb_gt |]; tauto].
    - eexists. split; [reflexivity |]. cbn [sg_bytes sg_items sg_lost sg_gone lp_bytes lp_frame lp_prio].
      split; [reflexivity |]. split; [reflexivity |]. split; [reflexivity |]. split; [exact Hpp |].
      assert (Er : rest = []). { rewrite <- Hnext. apply skipn_all2. unfold blen in L. lia. }
      assert (Ef : fs = []). { clear - Hps Er. rewrite Er in Hps. inversion Hps. reflexivity. }
      rewrite Ef. apply N.leb_le, L. }
  assert (Stay : forall its' idx k, k < blen (skipn (N.to_nat sent) d) -> idx = (if k =? 0 then index else e - blen (skipn (N.to_nat sent) d) + k) ->
     exists s, (match (if frame <? blen bytes then adjust_all streams (mk_lost bytes frame idx prio) else Some (mk_lost bytes frame idx prio, true)) with
       | Some (p2, ok) => Some (mk_single (if (ok : bool) then Some b else None) its' p2 (blen bytes <=? lp_frame p2)
                             ((lp_frame p2 <? blen bytes) && (frame <? lp_frame p2)))
       | None => None end) = Some s /\ sg_bytes s = Some b /\ sg_items s = its' /\ lp_bytes (sg_lost s) = bytes /\
       lp_prio (sg_lost s) <= max64 /\ sg_gone s = false /\
       waiting (sg_lost s) ((id, off + sent + k, fin, skipn (N.to_nat k) (skipn (N.to_nat sent) d)) :: fs)).
  { intros its' idx k Hk Hidx. destruct (N.ltb_spec frame (blen bytes)) as [L | L]; [| lia].
    unfold adjust_all. cbn [lp_bytes].
    assert (Ea : adjust (length bytes) streams (mk_lost bytes frame idx prio) =
      Some (mk_lost bytes frame idx (match rs_find streams id with Some s => rs_prio s | None => 0 end), true)).
    { destruct (length bytes); cbn [adjust lp_frame lp_bytes lp_index]; rewrite Hs, Hty, Hp; reflexivity. }
    rewrite Ea. eexists. split; [reflexivity |]. cbn [sg_bytes sg_items sg_lost sg_gone lp_bytes lp_frame lp_prio].
    split; [reflexivity |]. split; [reflexivity |]. split; [reflexivity |]. split; [apply rs_find_prio, Hpr |].
    split; [apply N.leb_gt, L |].
    assert (W := w_stream bytes frame idx (match rs_find streams id with Some s => rs_prio s | None => 0 end)
      b0 l id off fin d rest fs (sent + k) Hs Hty Hp Hps).
    rewrite N.add_assoc in W. rewrite skipn_add, <- N2Nat.inj_add. apply W; [| lia].
    rewrite Hidx. destruct (N.eqb_spec k 0) as [-> | Hk0]; [lia |].
    assert (blen d <= blen (b0 :: l) - blen rest).
    { inversion Hok0 as [| x y X1 X2]; subst x y. destruct (parse_shape _ _ _ _ _ _ _ X2 Hp) as (_ & _ & h2 & Hl2).
      rewrite Varint_proofs.blen_cons, Hl2, !Varint_proofs.blen_app. lia. }
    unfold e. lia. }
  unfold copy_single. cbv zeta. cbn [lp_bytes lp_frame]. rewrite (proj2 (N.ltb_lt _ _) Hfl).
  rewrite Hs, Hty, E. cbv iota.
  destruct Out as [(-> & -> & Hnn & ->) | [(-> & -> & Hr & Hr2 & ->) | (k & f & Hits & Hne & Hbo & Hrd & Hc)]].
  - cbn [lp_frame]. destruct (Fin []) as (s & Es & H1 & H2 & H3 & H4 & H5).
    exists s, [], fs. split; [exact Es |]. split; [exact H1 |]. split; [constructor |]. split; [left; reflexivity |].
    split; [intros _; exact H2 |]. rewrite H2. split; [apply t_unneeded, Hnn |]. auto.
  - destruct (N.eqb_spec (blen (skipn (N.to_nat sent) d)) 0) as [Ez | Ez].
    + cbn [lp_frame]. destruct (Fin []) as (s & Es & H1 & H2 & H3 & H4 & H5).
      exists s, [], fs. split; [exact Es |]. split; [exact H1 |]. split; [constructor |]. split; [left; reflexivity |].
      split; [intros _; exact H2 |]. rewrite H2. apply blen_zero in Ez as Ed. rewrite Ed. split; [apply t_fin_lost, Hr2, Ez |]. auto.
    + cbn [lp_frame]. destruct (Stay [] index 0 ltac:(lia) eq_refl) as (s & Es & H1 & H2 & H3 & H4 & H5 & H6).
      rewrite N.add_0_r in H6. cbn [N.to_nat skipn] in H6.
      exists s, []. eexists. split; [exact Es |]. split; [exact H1 |]. split; [constructor |]. split; [left; reflexivity |].
      split; [intros _; exact H2 |]. rewrite H2. split; [apply t_no_room; [exact Hr |] |].
      { intro X. rewrite X in Ez. apply Ez. reflexivity. }
      split; [exact H3 |]. split; [exact H4 |]. split; [exact H5 | exact H6].
  - destruct Hc as [(-> & -> & ->) | (Hk & -> & ->)].
    + cbn [lp_frame]. destruct (Fin its) as (s & Es & H1 & H2 & H3 & H4 & H5).
      exists s, b, fs. split; [exact Es |]. split; [exact H1 |]. split; [exact Hbo |]. rewrite H2. split; [right; exact Hrd |].
      split; [intro; contradiction |]. rewrite Hits, firstn_all_blen. split; [apply t_all |]. auto.
    + cbn [lp_frame]. destruct (Stay its (e - blen (skipn (N.to_nat sent) d) + k) k ltac:(lia)) as (s & Es & H1 & H2 & H3 & H4 & H5 & H6).
      { destruct (N.eqb_spec k 0); [lia | reflexivity]. }
      exists s, b. eexists. split; [exact Es |]. split; [exact H1 |]. split; [exact Hbo |]. rewrite H2. split; [right; exact Hrd |].
      split; [intro; contradiction |]. rewrite Hits. split; [apply t_part, Hk |].
      split; [exact H3 |]. split; [exact H4 |]. split; [exact H5 | exact H6].
Qed.
