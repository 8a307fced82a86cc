(** Lemmas about ACK frames. *)
From Verif Require Import Base Tac Varint_model Varint_spec Varint_proofs
  Sack_model Sack_spec Sack_proofs Ack_model Ack_spec.

Lemma two62_pow : two62 = 2 ^ 62. Proof. reflexivity. Qed.

Lemma encode_is_varint : forall n room p, n < two62 ->
  frames_varint_encode n room = Some p -> is_varint n p /\ blen p <= room.
Proof.
  intros n room p Hn H. rewrite frames_varint_encode_eq in H.
  destruct (encode_varint_length n <=? room) eqn:E; [|discriminate].
  apply some_inj in H. subst p. split; [apply varint_bytes_is_varint; exact Hn|].
  rewrite varint_bytes_length. lia.
Qed.

Lemma wseq_inv : forall a b room x, (a >>> b) room = Some x ->
  exists y z, a room = Some y /\ b (room - blen y) = Some z /\ x = y ++ z.
Proof.
  intros a b room x H. unfold wseq in H.
  destruct (a room) as [y|] eqn:Ea; [|discriminate].
  destruct (b (room - blen y)) as [z|] eqn:Eb; [|discriminate].
  apply some_inj in H. subst x. eauto.
Qed.

Lemma varints_app : forall vs ws a b, varints vs a -> varints ws b -> varints (vs ++ ws) (a ++ b).
Proof.
  intros vs ws a b H Hb. induction H as [|v vs p bytes Hp Hvs IH]; cbn [app]; [exact Hb|].
  rewrite <- app_assoc. constructor; assumption.
Qed.

Lemma varints_one : forall v p, is_varint v p -> varints [v] p.
Proof. intros. rewrite <- (app_nil_r p). constructor; [assumption|constructor]. Qed.

Lemma varints_app_inv : forall vs ws bytes, varints (vs ++ ws) bytes ->
  exists a b, bytes = a ++ b /\ varints vs a /\ varints ws b.
Proof.
  induction vs as [|v vs IH]; intros ws bytes H; cbn [app] in H.
  - exists [], bytes. repeat split; [constructor|exact H].
  - inversion H as [|? ? p b Hp Hb]; subst. apply IH in Hb. destruct Hb as (x & y & -> & Hx & Hy).
    exists (p ++ x), y. rewrite <- app_assoc. repeat split; [constructor|]; assumption.
Qed.

Lemma is_varint_ok : forall v p, is_varint v p -> bytes_ok p.
Proof. intros v p (c & _ & _ & _ & _ & H). exact H. Qed.

Lemma is_varint_pos : forall v p, is_varint v p -> 1 <= blen p.
Proof. intros v p (c & _ & H & _). rewrite H. pose proof (N.pow_nonzero 2 c). lia. Qed.

Lemma varints_ok : forall vs b, varints vs b -> bytes_ok b.
Proof.
  intros vs b H. induction H; [constructor|]. apply Forall_app. split; [|assumption].
  apply is_varint_ok in H. exact H.
Qed.

(** ** Construction *)
(** ranges in decreasing order, all at least 2 below [lowest] *)
Fixpoint desc_wf (lowest : N) (d : list sack_item) : Prop :=
  match d with
  | [] => True
  | it :: d' => ss it <= se it /\ se it + 2 <= lowest /\ desc_wf (ss it) d'
  end.

Lemma desc_wf_mono : forall d lo lo', lo <= lo' -> desc_wf lo d -> desc_wf lo' d.
Proof. destruct d as [|x d]; intros lo lo' H Hd; cbn in *; [exact I|]. intuition lia. Qed.

Lemma desc_wf_snoc : forall d lo it, desc_wf lo d -> ss it <= se it ->
  (forall x, In x d -> se it + 2 <= ss x) -> se it + 2 <= lo -> desc_wf lo (d ++ [it]).
Proof.
  induction d as [|x d IH]; intros lo it Hd Hi Hb Hlo; cbn [app desc_wf] in *.
  - auto.
  - destruct Hd as (D1 & D2 & D3). repeat split; try assumption.
    apply IH; auto. intros y Hy. apply Hb. right. exact Hy.
    apply Hb. left. reflexivity.
Qed.

(** items of a well formed list, reversed *)
Lemma wf_desc : forall l lo, wf_from lo l -> forall top, next_lo lo l <= top -> desc_wf top (rev l).
Proof.
  induction l as [|x l IH]; intros lo H top Ht; cbn [rev]; [exact I|].
  cbn [wf_from] in H. destruct H as (H1 & H2 & H3 & H4).
  cbn [next_lo fold_left] in Ht. change (next_lo (se x + 2) l <= top) in Ht.
  apply desc_wf_snoc; [apply (IH _ H4 _ Ht)|exact H2| |].
  - intros y Hy. apply in_rev in Hy. apply (wf_from_bounds _ _ _ H4) in Hy. lia.
  - apply next_lo_ge in H4. lia.
Qed.

Lemma u64_small : forall x, x < two64 -> u64 x = x.
Proof. intros. unfold u64. apply N.mod_small. assumption. Qed.

Lemma u64_sub : forall a b, a < two64 -> b <= a -> u64 (a + two64 - b) = a - b.
Proof.
  intros a b Ha Hb. unfold u64. replace (a + two64 - b) with (a - b + 1 * two64) by lia.
  rewrite N.mod_add by discriminate. apply N.mod_small. lia.
Qed.

Lemma u64_sub2 : forall a b, a < two64 -> b + 2 <= a -> u64 (a + two64 + two64 - b - 2) = a - b - 2.
Proof.
  intros a b Ha Hb. unfold u64. replace (a + two64 + two64 - b - 2) with (a - b - 2 + 2 * two64) by lia.
  rewrite N.mod_add by discriminate. apply N.mod_small. lia.
Qed.

Definition rng (it : sack_item) : N * N := (ss it, se it).

Lemma rng_sent : forall r it, rng (item_sent r it) = rng it.
Proof. intros [] it; reflexivity. Qed.

Lemma format_ranges_nil : forall nb room lowest (desc : list sack_item), nb <= 32 ->
  exists blocks rs, varints (block_numbers blocks) [] /\ nb = nb + N.of_nat (length blocks) /\ nb <= 32 /\
    blen [] <= room /\ rfc_blocks lowest blocks = Some rs /\ incl rs (map rng desc) /\
    map rng desc = map rng desc.
Proof.
  intros nb room lowest desc H. exists [], []. cbn [block_numbers flat_map length rfc_blocks].
  refine (conj varints_nil (conj _ (conj H (conj _ (conj eq_refl (conj _ eq_refl)))))); [lia|rewrite blen_nil; lia|].
  intros x [].
Qed.

Lemma format_ranges_spec : forall r desc c room nb nbmax skip lowest b d2 c2 n2 m,
  format_ranges r desc c room nb nbmax skip lowest = (b, d2, c2, n2, m) ->
  desc_wf lowest desc -> lowest <= two62 -> nb <= 32 ->
  exists blocks rs, varints (block_numbers blocks) b /\ n2 = nb + N.of_nat (length blocks) /\ n2 <= 32 /\
    blen b <= room /\ rfc_blocks lowest blocks = Some rs /\ incl rs (map rng desc) /\
    map rng d2 = map rng desc.
Proof.
  induction desc as [|it d IH]; intros c room nb nbmax skip lowest b d2 c2 n2 m H Hd Hlo Hnb;
    cbn [format_ranges] in H.
  - inversion H; subst. apply format_ranges_nil. assumption.
  - cbn [desc_wf] in Hd. destruct Hd as (D1 & D2 & D3).
    destruct (nb <? 32) eqn:En.
    2:{ inversion H; subst. apply format_ranges_nil. assumption. }
    assert (Hskip : forall skip' b d2 c2 n2 m,
       format_ranges r d c room nb nbmax skip' lowest = (b, d2, c2, n2, m) ->
       exists blocks rs, varints (block_numbers blocks) b /\ n2 = nb + N.of_nat (length blocks) /\ n2 <= 32 /\
       blen b <= room /\ rfc_blocks lowest blocks = Some rs /\ incl rs (map rng (it :: d)) /\
       map rng (it :: d2) = map rng (it :: d)).
    { intros skip' b0 d0 c0 n0 m0 H0. apply IH in H0; try assumption.
      - destruct H0 as (blocks & rs & V & L & L2 & B & R & I & M). exists blocks, rs.
        repeat split; try assumption; [apply incl_tl; exact I|]. cbn [map]. rewrite M. reflexivity.
      - apply (desc_wf_mono _ (ss it)); [lia|exact D3]. }
    destruct ((if r then nb1 it else nb0 it) <=? nbmax) eqn:E1.
    + destruct (((if r then nb1 it else nb0 it) =? nbmax) && (0 <? skip)%Z) eqn:E2.
      * destruct (format_ranges r d c room nb nbmax (skip - 1)%Z lowest) as [[[[b0 d0] c0] n0] m0] eqn:Ef.
        inversion H; subst. eapply Hskip. exact Ef.
      * destruct ((frames_varint_encode (u64 (lowest + two64 + two64 - se it - 2)) >>>
                   frames_varint_encode (u64 (se it + two64 - ss it))) room) as [x|] eqn:Ew.
        -- destruct (format_ranges r d (count_sent r c it) (room - blen x) (nb + 1) nbmax skip (ss it))
             as [[[[b0 d0] c0] n0] m0] eqn:Ef.
           inversion H; subst; clear H.
           apply wseq_inv in Ew. destruct Ew as (y & z & Ey & Ez & ->).
           unfold two62 in *.
           rewrite u64_sub2 in Ey by (unfold two64; lia).
           rewrite u64_sub in Ez by (unfold two64; lia).
           apply encode_is_varint in Ey; [|unfold two62; lia]. destruct Ey as [Vy By].
           apply encode_is_varint in Ez; [|unfold two62; lia]. destruct Ez as [Vz Bz].
           apply IH in Ef; [|exact D3|lia|lia].
           destruct Ef as (blocks & rs & V & L & L2 & B & R & I & M).
           exists ((lowest - se it - 2, se it - ss it) :: blocks), ((ss it, se it) :: rs).
           rewrite !blen_app in *.
           split.
           { cbn [block_numbers flat_map fst snd app]. rewrite <- app_assoc.
             constructor; [exact Vy|]. constructor; [exact Vz|exact V]. }
           split; [cbn [length]; lia|]. split; [exact L2|]. split; [lia|].
           split.
           { cbn [rfc_blocks]. replace (lowest - se it - 2 + 2 + (se it - ss it) <=? lowest) with true
               by (symmetry; apply N.leb_le; lia).
             replace (lowest - (lowest - se it - 2) - 2) with (se it) by lia.
             replace (se it - (se it - ss it)) with (ss it) by lia. rewrite R. reflexivity. }
           split; [|cbn [map]; rewrite rng_sent, M; reflexivity].
           intros q [<-|Hq]; [left; reflexivity|right; apply I; exact Hq].
        -- inversion H; subst. apply format_ranges_nil. assumption.
    + destruct (format_ranges r d c room nb nbmax skip lowest) as [[[[b0 d0] c0] n0] m0] eqn:Ef.
      inversion H; subst. eapply Hskip. exact Ef.
Qed.

Lemma byte_is_varint : forall n, n < 64 -> is_varint n [u8 n].
Proof.
  intros n Hn. assert (H : varint_bytes n = [u8 n]).
  { unfold varint_bytes. destruct (n <? 16384) eqn:E1; [|lia]. destruct (n <? 64) eqn:E2; [|lia].
    reflexivity. }
  rewrite <- H. apply varint_bytes_is_varint. unfold two62. lia.
Qed.

Lemma ack_prefix_spec : forall is_ecn mp largest delay room pre,
  ack_prefix is_ecn mp largest delay room = Some pre ->
  largest < two62 -> delay < two62 -> (forall p, mp = Some p -> p < two62) ->
  varints ((match mp with None => if is_ecn then ft_ack_ecn else ft_ack
                        | Some _ => if is_ecn then ft_path_ack_ecn else ft_path_ack end)
           :: match mp with Some p => [p] | None => [] end ++ [largest; delay]) pre /\ blen pre <= room.
Proof.
  intros is_ecn mp largest delay room pre H Hl Hd Hmp. unfold ack_prefix in H.
  destruct mp as [p|].
  - specialize (Hmp p eq_refl).
    apply wseq_inv in H. destruct H as (y1 & z1 & E1 & H & ->).
    apply wseq_inv in H. destruct H as (y2 & z2 & E2 & H & ->).
    apply wseq_inv in H. destruct H as (y3 & z3 & E3 & H & ->).
    apply encode_is_varint in E1; [|destruct is_ecn; vm_compute; reflexivity].
    apply encode_is_varint in E2; [|assumption].
    apply encode_is_varint in E3; [|assumption].
    apply encode_is_varint in H; [|assumption].
    split; [|rewrite !blen_app; lia].
    cbn [app]. constructor; [tauto|]. constructor; [tauto|]. constructor; [tauto|]. apply varints_one; tauto.
  - apply wseq_inv in H. destruct H as (y1 & z1 & E1 & H & ->).
    apply wseq_inv in H. destruct H as (y3 & z3 & E3 & H & ->).
    apply encode_is_varint in E1; [|destruct is_ecn; vm_compute; reflexivity].
    apply encode_is_varint in E3; [|assumption].
    apply encode_is_varint in H; [|assumption].
    split; [|rewrite !blen_app; lia].
    cbn [app]. constructor; [tauto|]. constructor; [tauto|]. apply varints_one; tauto.
Qed.

Lemma ack_byte : is_varint ft_ack [ft_ack].
Proof. apply (byte_is_varint 2). reflexivity. Qed.

(** the single path prefix starts with a one-byte type *)
Lemma ack_prefix_head : forall is_ecn largest delay room pre,
  ack_prefix is_ecn None largest delay room = Some pre ->
  exists t, pre = (if is_ecn then ft_ack_ecn else ft_ack) :: t /\
    (largest < two62 -> delay < two62 -> varints [largest; delay] t).
Proof.
  intros is_ecn largest delay room pre H. unfold ack_prefix in H.
  apply wseq_inv in H. destruct H as (y1 & z1 & E1 & H & ->).
  assert (y1 = [if is_ecn then ft_ack_ecn else ft_ack]).
  { rewrite frames_varint_encode_eq in E1. destruct (_ <=? room); [|discriminate].
    apply some_inj in E1. subst y1. destruct is_ecn; reflexivity. }
  subst y1. exists z1. split; [reflexivity|]. intros Hl Hd.
  apply wseq_inv in H. destruct H as (y3 & z3 & E3 & H & ->).
  apply encode_is_varint in E3; [|assumption]. apply encode_is_varint in H; [|assumption].
  constructor; [tauto|]. apply varints_one; tauto.
Qed.

Lemma format_ack_frame_spec : forall s r needed ecn mp delay room bytes s2 more,
  format_ack_frame s r needed ecn mp delay room = (bytes, s2, more) ->
  wf_from 0 (sl_items s) -> (forall it, In it (sl_items s) -> se it < two62) ->
  delay < two62 -> (forall p, mp = Some p -> p < two62) ->
  (forall e0 e1 ce, ecn = Some (e0, e1, ce) -> e0 < two62 /\ e1 < two62 /\ ce < two62) ->
  (mp = None \/ ecn = None) ->
  ranges s2 = ranges s /\
  (bytes = [] \/
   exists ty largest first blocks ecns rs,
     ack_frame ty mp largest delay first blocks ecns bytes /\
     rfc_ranges largest first blocks = Some rs /\
     incl rs (ranges s) /\ largest = sack_list_last s /\ sl_items s <> [] /\
     (mp = None -> (ty = 2 /\ ecns = []) \/ (ty = 3 /\ length ecns = 3%nat)) /\
     (mp <> None -> ty = ft_path_ack /\ ecns = []) /\
     blen bytes <= room).
Proof.
  intros s r needed ecn mp delay room bytes s2 more H Hw Hs Hd Hmp Hecn Hor.
  unfold format_ack_frame in H.
  destruct (rev (sl_items s)) as [|last desc] eqn:Er; [inversion H; subst; auto|].
  assert (Hitems : sl_items s = rev desc ++ [last]).
  { apply (f_equal (@rev _)) in Er. rewrite rev_involutive in Er. exact Er. }
  assert (Hlast : In last (sl_items s)) by (rewrite Hitems; apply in_or_app; right; left; reflexivity).
  destruct (negb needed && _ && _); [inversion H; subst; auto|].
  set (is_ecn := match ecn with Some _ => true | None => false end) in *.
  destruct (ack_prefix is_ecn mp (se last) delay room) as [pre|] eqn:Ep; [|inversion H; subst; auto].
  destruct (room - blen pre <? 1) eqn:E1; [inversion H; subst; auto|].
  destruct (frames_varint_encode (u64 (se last + two64 - ss last)) (room - blen pre - 1)) as [fr|] eqn:Ef;
    [|inversion H; subst; auto].
  destruct (select_ack_ranges _ _ _) as [nbmax skip] eqn:Esel.
  destruct (format_ranges r desc (count_sent r (sl_rc s) last) (room - blen pre - 1 - blen fr) 0 nbmax skip (ss last))
    as [[[[body desc2] c2] nb] m] eqn:Efr.
  (* facts on the last range *)
  pose proof (wf_from_bounds _ _ _ Hw Hlast) as (B1 & B2 & B3).
  pose proof (Hs _ Hlast) as B4.
  assert (Hdw : desc_wf (ss last) desc).
  { rewrite Hitems in Hw. apply wf_from_app in Hw. destruct Hw as [Hwa Hwp]. cbn [wf_from] in Hwp.
    pose proof (wf_desc _ _ Hwa (ss last)) as X. rewrite rev_involutive in X. apply X. lia. }
  rewrite u64_sub in Ef by (unfold two64, two62 in *; lia).
  apply encode_is_varint in Ef; [|unfold two62 in *; lia]. destruct Ef as [Vf Bf].
  apply format_ranges_spec in Efr; try assumption; try (unfold two62 in *; lia).
  destruct Efr as (blocks & rs & V & L & L2 & B & R & I & M).
  pose proof (ack_prefix_spec _ _ _ _ _ _ Ep B4 Hd Hmp) as [Vp Bp].
  assert (Hbytes : varints ((match mp with None => if is_ecn then ft_ack_ecn else ft_ack
                        | Some _ => if is_ecn then ft_path_ack_ecn else ft_path_ack end)
           :: match mp with Some p => [p] | None => [] end ++
              [se last; delay; N.of_nat (length blocks); se last - ss last] ++ block_numbers blocks)
              (pre ++ [u8 nb] ++ fr ++ body)).
  { match goal with |- varints ?v _ =>
      replace v with ((match mp with None => if is_ecn then ft_ack_ecn else ft_ack
                        | Some _ => if is_ecn then ft_path_ack_ecn else ft_path_ack end
           :: match mp with Some p => [p] | None => [] end ++ [se last; delay]) ++
           ([N.of_nat (length blocks); se last - ss last] ++ block_numbers blocks)) end.
    - apply varints_app; [exact Vp|].
      apply (varints_cons _ _ [u8 nb]).
      + replace (N.of_nat (length blocks)) with nb by lia. apply byte_is_varint. lia.
      + constructor; [exact Vf|exact V].
    - destruct mp; reflexivity. }
  assert (Hlen : blen (pre ++ [u8 nb] ++ fr ++ body) <= room).
  { rewrite !blen_app. change (blen [u8 nb]) with 1. lia. }
  assert (Hrg : rfc_ranges (se last) (se last - ss last) blocks = Some ((ss last, se last) :: rs)).
  { unfold rfc_ranges. replace (se last - ss last <=? se last) with true by (symmetry; apply N.leb_le; lia).
    replace (se last - (se last - ss last)) with (ss last) by lia. rewrite R. reflexivity. }
  assert (Hincl : incl ((ss last, se last) :: rs) (ranges s)).
  { unfold ranges. intros q [<-|Hq].
    - apply in_map_iff. exists last. auto.
    - apply I in Hq. apply in_map_iff in Hq. destruct Hq as (it & <- & Hit).
      apply in_map_iff. exists it. split; [reflexivity|]. rewrite Hitems. apply in_or_app. left.
      apply in_rev in Hit. exact Hit. }
  assert (Hlst : se last = sack_list_last s) by (unfold sack_list_last; rewrite Er; reflexivity).
  assert (Hne : sl_items s <> []) by (rewrite Hitems; destruct (rev desc); discriminate).
  assert (Hs2 : forall h d, ranges (mk_sl (rev (item_sent r last :: desc2)) h d c2) = ranges s).
  { intros h d. unfold ranges. cbn [sl_items]. rewrite Hitems. cbn [rev].
    rewrite !map_app. cbn [map]. destruct r; cbn [item_sent ss se]; f_equal.
    - rewrite !map_rev. f_equal. exact M.
    - rewrite !map_rev. f_equal. exact M. }
  destruct ecn as [[[e0 e1] ce]|]; cbn in is_ecn; subst is_ecn.
  - destruct Hor as [->|]; [|discriminate]. cbn [app] in Hbytes.
    destruct (Hecn _ _ _ eq_refl) as (He0 & He1 & Hce).
    destruct ((frames_varint_encode e0 >>> frames_varint_encode e1 >>> frames_varint_encode ce)
             (room - blen (pre ++ [u8 nb] ++ fr ++ body))) as [e|] eqn:Ee.
    + inversion H; subst; clear H. split; [apply Hs2|]. right.
      apply wseq_inv in Ee. destruct Ee as (y1 & z1 & E3 & Ee & ->).
      apply wseq_inv in Ee. destruct Ee as (y2 & z2 & E4 & Ee & ->).
      apply encode_is_varint in E3; [|assumption]. apply encode_is_varint in E4; [|assumption].
      apply encode_is_varint in Ee; [|assumption].
      exists 3, (se last), (se last - ss last), blocks, [e0; e1; ce], ((ss last, se last) :: rs).
      split.
      { unfold ack_frame. cbn [app].
        match goal with |- varints ?v ?b => replace v with
          ((3 :: se last :: delay :: N.of_nat (length blocks) :: se last - ss last :: block_numbers blocks) ++ [e0; e1; ce])
          by reflexivity;
          replace b with ((pre ++ [u8 (0 + N.of_nat (length blocks))] ++ fr ++ body) ++ (y1 ++ y2 ++ z2))
        end.
        - apply varints_app; [exact Hbytes|]. constructor; [tauto|]. constructor; [tauto|]. apply varints_one; tauto.
        - cbn [app]. rewrite <- !app_assoc. cbn [app]. rewrite <- !app_assoc. reflexivity. }
      refine (conj Hrg (conj Hincl (conj Hlst (conj Hne (conj _ (conj _ _)))))); [intros _; auto|intros X; congruence|].
      match goal with |- blen ?b <= room => replace b with
         ((pre ++ [u8 (0 + N.of_nat (length blocks))] ++ fr ++ body) ++ (y1 ++ y2 ++ z2)) by (cbn [app]; rewrite <- !app_assoc; cbn [app]; rewrite <- !app_assoc; reflexivity) end.
      rewrite blen_app. rewrite (blen_app y1), (blen_app y2). lia.
    + inversion H; subst; clear H. split; [apply Hs2|]. right.
      destruct (ack_prefix_head _ _ _ _ _ Ep) as (t & -> & Vt).
      exists 2, (se last), (se last - ss last), blocks, [], ((ss last, se last) :: rs).
      split.
      { unfold ack_frame. cbn [app tl]. rewrite app_nil_r.
        change (ft_ack :: t ++ u8 (0 + N.of_nat (length blocks)) :: fr ++ body)
          with ([ft_ack] ++ (t ++ [u8 (0 + N.of_nat (length blocks))] ++ fr ++ body)).
        constructor; [apply ack_byte|].
        change (se last :: delay :: N.of_nat (length blocks) :: se last - ss last :: block_numbers blocks)
          with ([se last; delay] ++ (N.of_nat (length blocks) :: se last - ss last :: block_numbers blocks)).
        apply varints_app; [apply Vt; assumption|].
        apply (varints_cons _ _ [u8 (0 + N.of_nat (length blocks))]).
        - apply byte_is_varint. lia.
        - constructor; assumption. }
      refine (conj Hrg (conj Hincl (conj Hlst (conj Hne (conj _ (conj _ _)))))); [intros _; auto|intros X; congruence|].
      exact Hlen.
  - inversion H; subst; clear H. split; [apply Hs2|]. right.
    destruct mp as [p|].
    + exists ft_path_ack, (se last), (se last - ss last), blocks, [], ((ss last, se last) :: rs).
      split; [unfold ack_frame; rewrite !app_nil_r; exact Hbytes|].
      refine (conj Hrg (conj Hincl (conj Hlst (conj Hne (conj _ (conj _ _)))))); [intros X; discriminate|auto|exact Hlen].
    + exists 2, (se last), (se last - ss last), blocks, [], ((ss last, se last) :: rs).
      split; [unfold ack_frame; rewrite !app_nil_r; exact Hbytes|].
      refine (conj Hrg (conj Hincl (conj Hlst (conj Hne (conj _ (conj _ _)))))); [intros _; auto|intros X; congruence|exact Hlen].
Qed.
