(** Proofs about the repetition of lost STREAM frames: the copy of one frame. *)
From Verif Require Import Base Tac Varint_model Varint_proofs Sack_model Sack_spec Sack_proofs Stream_model Frames_model Frames_spec
  Frames_proofs Frames2_proofs Frames5_proofs Send_model Send_spec Send_proofs Send2_proofs Send3_proofs
  Repeat_model Repeat_spec Repeat_proofs.

Lemma vread_shape l v l' : bytes_ok l -> varint_read l = Some (v, l') ->
  v < two62 /\ exists h, l = h ++ l'.
Proof.
  intros Hok H. rewrite varint_read_eq in H by exact Hok. split.
  - apply frames_varint_decode_lt in H; assumption.
  - apply frames_varint_decode_suffix in H. destruct H as (h & H & _). exists h. exact H.
Qed.

Lemma take_shape n l d r : take_bytes n l = Some (d, r) -> l = d ++ r.
Proof.
  unfold take_bytes. destruct (_ <=? _); [| discriminate]. intro H. inv_pair H. symmetry. apply firstn_skipn.
Qed.

Lemma parse_shape b l id off fin d rest : bytes_ok l -> parse_stream b l = Some ((id, off, fin, d), rest) ->
  id < two62 /\ off < two62 /\ exists h, l = h ++ d ++ rest.
Proof.
  intros Hok. unfold parse_stream. destruct (varint_read l) as [[v1 l1] |] eqn:E1; [| discriminate].
  destruct (vread_shape _ _ _ Hok E1) as [V1 [h1 ->]]. apply Forall_app in Hok. destruct Hok as [_ Hok].
  destruct (N.land b 4 =? 0).
  - destruct (N.land b 2 =? 0).
    + intro H. apply some_inj in H. injection H as <- <- <- <- <-. split; [exact V1 |]; split; [reflexivity |].
      exists h1. rewrite app_nil_r. reflexivity.
    + destruct (varint_read l1) as [[v2 l2] |] eqn:E2; [| discriminate].
      destruct (vread_shape _ _ _ Hok E2) as [V2 [h2 ->]].
      destruct (take_bytes v2 l2) as [[dd r] |] eqn:E3; [| discriminate]. apply take_shape in E3.
      intro H. apply some_inj in H. injection H as <- <- <- <- <-. split; [exact V1 |]; split; [reflexivity |].
      exists (h1 ++ h2). rewrite E3, <- !app_assoc. reflexivity.
  - destruct (varint_read l1) as [[v2 l2] |] eqn:E2; [| discriminate].
    destruct (vread_shape _ _ _ Hok E2) as [V2 [h2 ->]]. apply Forall_app in Hok. destruct Hok as [_ Hok].
    destruct (N.land b 2 =? 0).
    + intro H. apply some_inj in H. injection H as <- <- <- <- <-. split; [exact V1 |]; split; [exact V2 |].
      exists (h1 ++ h2). rewrite app_nil_r, <- app_assoc. reflexivity.
    + destruct (varint_read l2) as [[v3 l3] |] eqn:E3; [| discriminate].
      destruct (vread_shape _ _ _ Hok E3) as [V3 [h3 ->]].
      destruct (take_bytes v3 l3) as [[dd r] |] eqn:E4; [| discriminate]. apply take_shape in E4.
      intro H. apply some_inj in H. injection H as <- <- <- <- <-. split; [exact V1 |]; split; [exact V2 |].
      exists (h1 ++ h2 ++ h3). rewrite E4, <- !app_assoc. reflexivity.
Qed.

(** When the copy is skipped, it is not needed. *)
Lemma unneeded streams id off avail fin : off + avail < two62 ->
  repeat_needed streams id off avail fin = false -> not_needed streams id off (off + avail) fin.
Proof.
  intros Hb. unfold repeat_needed, rs_find. destruct (find (fun s => rs_id s =? id) streams) as [s |] eqn:E.
  - apply find_some in E. destruct E as [Hin Hid]. apply N.eqb_eq in Hid.
    intro H. right. exists s. split; [exact Hin |]. split; [exact Hid |].
    destruct (rs_reset_sent s); [left; reflexivity | right].
    cbn [negb andb] in H. apply negb_false_iff in H. unfold check_sack_list, find_range_below in H.
    destruct (split_below_spec (sl_items (rs_sack s)) [] off) as (a & b & Hl & Hs & Ha & _). rewrite Hs in H. cbn [fst] in H.
    rewrite app_nil_r in H. destruct (rev a) as [| it r] eqn:Er; [discriminate |].
    assert (Hit : In it a) by (rewrite <- (rev_involutive a), Er; apply in_rev; rewrite rev_involutive; left; reflexivity).
    apply N.leb_le in H. intros i Hi Hc. exists (ss it), (se it). split.
    + unfold ranges. apply in_map_iff. exists it. split; [reflexivity |]. rewrite Hl. apply in_or_app. left. exact Hit.
    + assert (ss it <= off). { rewrite Forall_forall in Ha. apply Ha, Hit. }
      split; [lia |]. unfold sub64 in H. destruct fin.
      * replace (off + avail + two64 - 0) with (off + avail + 1 * two64) in H by lia.
        rewrite N.mod_add in H by (unfold two64; lia). rewrite N.mod_small in H by (unfold two62, two64 in *; lia). lia.
      * destruct Hc as [Hc | [? _]]; [| discriminate].
        replace (off + avail + two64 - 1) with (off + avail - 1 + 1 * two64) in H by lia.
        rewrite N.mod_add in H by (unfold two64; lia). rewrite N.mod_small in H by (unfold two62, two64 in *; lia). lia.
  - intros _. left. intros s Hs He. apply (find_none _ _ E) in Hs. rewrite He, N.eqb_refl in Hs. discriminate.
Qed.

(** The outcome of a copy, for a frame of which [sent] bytes are already sent:
    not needed; no room; all; a part. *)
Definition outcome_of (streams : list rstream) (p : lost) (id off : N) (fin : bool) (d : list N) (fin_at : N) (room : N)
    (b : list N) (its : list item) (p' : lost) : Prop :=
  (b = [] /\ its = [] /\ not_needed streams id off (off + blen d) fin /\ p' = mk_lost (lp_bytes p) fin_at fin_at (lp_prio p)) \/
  (b = [] /\ its = [] /\ room < 17 + 512 /\ (blen d = 0 -> room < 18) /\
     p' = if blen d =? 0 then mk_lost (lp_bytes p) fin_at fin_at (lp_prio p) else p) \/
  (exists k f, its = [IStream id off f (firstn (N.to_nat k) d)] /\ b <> [] /\ bytes_ok b /\ readable room b (frames_of its) /\
    ((k = blen d /\ f = fin /\ p' = mk_lost (lp_bytes p) fin_at fin_at (lp_prio p)) \/
     (512 <= k < blen d /\ f = false /\
      p' = mk_lost (lp_bytes p) (lp_frame p) (fin_at - blen d + k) (lp_prio p)))).

Lemma copy_frame_spec streams p room b0 l id off fin data rest sent :
  skipn (N.to_nat (lp_frame p)) (lp_bytes p) = b0 :: l -> bytes_ok (b0 :: l) ->
  parse_stream b0 l = Some ((id, off, fin, data), rest) -> off + blen data < two62 ->
  sent = lp_index p - (lp_frame p + (blen (b0 :: l) - blen rest - blen data)) -> (sent = 0 \/ sent < blen data) ->
  exists b its p', copy_frame streams p room = COk b its p' /\
    outcome_of streams p id (off + sent) fin (skipn (N.to_nat sent) data)
      (lp_frame p + (blen (b0 :: l) - blen rest)) room b its p'.
Proof.
  intros Hs Hok Hp Ho Hsent Hlt. inversion Hok as [| x y Hb0 Hokl]; subst x y.
  destruct (parse_shape _ _ _ _ _ _ _ Hokl Hp) as (Hi & Ho2 & h & Hl).
  assert (Hd : bytes_ok data). { rewrite Hl in Hokl. apply Forall_app in Hokl. destruct Hokl as [_ X]. apply Forall_app in X. tauto. }
  assert (Bl : blen l = blen h + blen data + blen rest) by (rewrite Hl, !Varint_proofs.blen_app; lia).
  rewrite Varint_proofs.blen_cons in Hsent.
  unfold copy_frame. rewrite Hs, Hp. cbv zeta.
  replace (1 + (blen l - blen rest - blen data)) with (1 + blen h) by lia.
  replace (1 + blen l - blen rest - blen data) with (1 + blen h) in Hsent by lia.
  set (start := lp_frame p + (1 + blen h)) in *.
  assert (Es : (if start <? lp_index p then if lp_index p - start <=? blen data then lp_index p - start else blen data else 0) = sent).
  { destruct (N.ltb_spec start (lp_index p)); [| lia]. destruct (N.leb_spec (lp_index p - start) (blen data)); lia. }
  rewrite Es. rewrite Varint_proofs.blen_cons, Bl.
  replace (lp_frame p + (1 + (blen h + blen data + blen rest) - blen rest)) with (start + blen data) by (unfold start; lia).
  set (d := skipn (N.to_nat sent) data).
  assert (Bd : blen d = blen data - sent) by apply skipn_blen.
  assert (Hdd : bytes_ok d).
  { rewrite <- (firstn_skipn (N.to_nat sent) data) in Hd. apply Forall_app in Hd. unfold d. tauto. }
  destruct (repeat_needed streams id (off + sent) (blen d) fin) eqn:En.
  - destruct (repeat_write id (off + sent) fin d room) as [[b its] ns] eqn:Ew.
    apply repeat_write_spec in Ew; [| exact Hi | lia | exact Hdd].
    destruct Ew as [(-> & -> & -> & Hr & Hr2) | (k & f & Hits & Hne & Hbo & Hrd & Hc)].
    + eexists _, _, _. split; [reflexivity |]. right. left. repeat split; [exact Hr | exact Hr2 |].
      destruct (N.eqb_spec (blen d) 0) as [E | E]; [reflexivity |].
      destruct (N.ltb_spec (blen d) (blen data)) as [L | L]; [| reflexivity].
      destruct p as [pb pf pi pp]. cbn [lp_bytes lp_frame lp_index lp_prio] in *. f_equal. lia.
    + eexists _, _, _. split; [reflexivity |]. right. right. exists k, f. split; [exact Hits |]. split; [exact Hne |].
      split; [exact Hbo |]. split; [exact Hrd |]. destruct Hc as [(-> & -> & ->) | (Hk & -> & ->)].
      * left. repeat split.
      * right. split; [exact Hk |]. split; [reflexivity |].
        destruct (N.eqb_spec (blen d - k) 0); [lia |].
        destruct (N.ltb_spec (blen d - k) (blen data)); [| lia]. f_equal. lia.
  - eexists _, _, _. split; [reflexivity |]. left. repeat split. apply unneeded; [lia | exact En].
Qed.
