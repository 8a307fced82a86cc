(** Lemmas about the times of acknowledgements: which ranges an ACK frame
    names. *)
From Verif Require Import Base Tac Varint_model Varint_spec Varint_proofs
  Sack_model Sack_spec Sack_proofs Ack_model Ack_spec Ack_proofs Ack2_proofs Delay_model Delay_spec.

(** ** Frames are read in one way *)
Lemma varints_unique : forall vs bytes, varints vs bytes -> forall ws, varints ws bytes -> vs = ws.
Proof.
  induction 1 as [|v vs p bytes Hv H IH]; intros ws Hw.
  - inversion Hw as [|w ws' p' b' Hw1 Hw2 E1 E2]; [reflexivity|].
    apply is_varint_pos in Hw1. destruct p'; [vm_compute in Hw1; congruence|discriminate].
  - inversion Hw as [E1 E2|w ws' p' b' Hw1 Hw2 E1 E2].
    + apply is_varint_pos in Hv. destruct p; [vm_compute in Hv; congruence|discriminate].
    + pose proof (is_varint_decode v p bytes Hv (varints_ok _ _ H)) as D1.
      pose proof (is_varint_decode w p' b' Hw1 (varints_ok _ _ Hw2)) as D2.
      rewrite E2, D1 in D2. apply some_pair_inj in D2. destruct D2 as [-> ->].
      f_equal. apply IH. exact Hw2.
Qed.

Lemma block_numbers_inj : forall a b ea eb, length a = length b ->
  block_numbers a ++ ea = block_numbers b ++ eb -> a = b /\ ea = eb.
Proof.
  induction a as [|[x y] a IH]; intros [|[x2 y2] b] ea eb Hl H; try discriminate.
  - split; [reflexivity|exact H].
  - cbn [block_numbers flat_map fst snd app] in H.
    pose proof (f_equal (hd 0) H) as H1. cbn [hd] in H1. subst x2.
    apply (f_equal (@tl N)) in H. cbn [tl] in H.
    pose proof (f_equal (hd 0) H) as H2. cbn [hd] in H2. subst y2.
    apply (f_equal (@tl N)) in H. cbn [tl] in H.
    cbn [length] in Hl. destruct (IH b ea eb) as [-> ->]; [lia|exact H|]. split; reflexivity.
Qed.

Lemma ack_frame_unique : forall bytes ty l d f bl e ty2 l2 d2 f2 bl2 e2,
  ack_frame ty None l d f bl e bytes -> ack_frame ty2 None l2 d2 f2 bl2 e2 bytes ->
  l = l2 /\ f = f2 /\ bl = bl2.
Proof.
  intros bytes ty l d f bl e ty2 l2 d2 f2 bl2 e2 H1 H2. unfold ack_frame in *.
  pose proof (varints_unique _ _ H1 _ H2) as E. cbn [app] in E.
  apply (f_equal (@tl N)) in E. cbn [tl] in E.
  pose proof (f_equal (hd 0) E) as E1. cbn [hd] in E1.
  apply (f_equal (@tl N)) in E. cbn [tl] in E.
  apply (f_equal (@tl N)) in E. cbn [tl] in E.
  pose proof (f_equal (hd 0) E) as E2. cbn [hd] in E2.
  apply (f_equal (@tl N)) in E. cbn [tl] in E.
  pose proof (f_equal (hd 0) E) as E3. cbn [hd] in E3.
  apply (f_equal (@tl N)) in E. cbn [tl] in E.
  apply block_numbers_inj in E; [|lia]. tauto.
Qed.

(** ** The ranges chosen *)
Definition kept (rs : list (N * N)) (it it2 : sack_item) : Prop :=
  it2 = it \/ (it2 = item_sent false it /\ In (rng it) rs).

Lemma kept_same : forall rs l, Forall2 (kept rs) l l.
Proof. induction l; constructor; [left; reflexivity|assumption]. Qed.

Lemma kept_more : forall rs rs2 l l2, incl rs rs2 -> Forall2 (kept rs) l l2 -> Forall2 (kept rs2) l l2.
Proof.
  intros rs rs2 l l2 Hi H. induction H as [|x y l l2 [->|[-> Hx]] H IH]; constructor; try assumption.
  - left. reflexivity.
  - right. split; [reflexivity|apply Hi; exact Hx].
Qed.

Lemma format_ranges_plus : forall desc c room nb nbmax skip lowest b d2 c2 n2 m,
  format_ranges false desc c room nb nbmax skip lowest = (b, d2, c2, n2, m) ->
  desc_wf lowest desc -> lowest <= two62 -> nb <= 32 ->
  exists blocks rs, varints (block_numbers blocks) b /\ n2 = nb + N.of_nat (length blocks) /\ n2 <= 32 /\
    blen b <= room /\ rfc_blocks lowest blocks = Some rs /\ incl rs (map rng desc) /\
    Forall2 (kept rs) desc d2 /\
    (m = false -> nb + N.of_nat (length desc) <= 32 -> 0 < nbmax \/ (skip <= 0)%Z ->
     forall it, In it desc -> nb0 it = 0 -> In (rng it) rs) /\
    (16 * (32 - nb) <= room -> m = false).
Proof.
  assert (Hnil : forall nb room lowest (desc : list sack_item), nb <= 32 ->
    exists blocks rs, varints (block_numbers blocks) [] /\ nb = nb + N.of_nat (length blocks) /\ nb <= 32 /\
    blen [] <= room /\ rfc_blocks lowest blocks = Some rs /\ incl rs (map rng desc) /\ rs = []).
  { intros nb room lowest desc H. exists [], []. cbn [block_numbers flat_map length rfc_blocks].
    refine (conj varints_nil (conj _ (conj H (conj _ (conj eq_refl (conj _ eq_refl)))))); [lia|rewrite blen_nil; lia|].
    intros x []. }
  induction desc as [|it d IH]; intros c room nb nbmax skip lowest b d2 c2 n2 m H Hd Hlo Hnb;
    cbn [format_ranges] in H.
  - inversion H; subst. destruct (Hnil n2 room lowest [] Hnb) as (bl & rs & A & B & C & D & E & F & ->).
    exists bl, []. refine (conj A (conj B (conj C (conj D (conj E (conj F (conj _ (conj _ _)))))))).
    + constructor.
    + intros _ _ _ it [].
    + intros _. reflexivity.
  - cbn [desc_wf] in Hd. destruct Hd as (D1 & D2 & D3).
    destruct (nb <? 32) eqn:En.
    2:{ inversion H; subst. destruct (Hnil n2 room lowest (it :: d) Hnb) as (bl & rs & A & B & C & D & E & F & ->).
        exists bl, []. refine (conj A (conj B (conj C (conj D (conj E (conj F (conj _ (conj _ _)))))))).
        - apply kept_same.
        - intros _ Hl. cbn [length] in Hl. lia.
        - intros _. reflexivity. }
    assert (Hskip : forall skip' b d2 c2 n2 m,
       format_ranges false d c room nb nbmax skip' lowest = (b, d2, c2, n2, m) ->
       (nb0 it = 0 -> 0 < nbmax \/ (skip <= 0)%Z -> False) -> (0 < nbmax \/ (skip <= 0)%Z -> 0 < nbmax \/ (skip' <= 0)%Z) ->
       exists blocks rs, varints (block_numbers blocks) b /\ n2 = nb + N.of_nat (length blocks) /\ n2 <= 32 /\
       blen b <= room /\ rfc_blocks lowest blocks = Some rs /\ incl rs (map rng (it :: d)) /\
       Forall2 (kept rs) (it :: d) (it :: d2) /\
       (m = false -> nb + N.of_nat (length (it :: d)) <= 32 -> 0 < nbmax \/ (skip <= 0)%Z ->
        forall it0, In it0 (it :: d) -> nb0 it0 = 0 -> In (rng it0) rs) /\
       (16 * (32 - nb) <= room -> m = false)).
    { intros skip' b0 d0 c0 n0 m0 H0 Hz Hsk. apply IH in H0; try assumption.
      - destruct H0 as (blocks & rs & V & L & L2 & B & R & I & M & P & Q). exists blocks, rs.
        refine (conj V (conj L (conj L2 (conj B (conj R (conj _ (conj _ (conj _ Q)))))))).
        + cbn [map]. apply incl_tl. exact I.
        + constructor; [left; reflexivity|exact M].
        + intros Hm Hl Hs it0 [<-|Hi] Hn0.
          * destruct (Hz Hn0 Hs).
          * cbn [length] in Hl. apply (P Hm); try assumption; [lia|auto].
      - apply (desc_wf_mono _ (ss it)); [lia|exact D3]. }
    cbn [negb] in H. destruct (nb0 it <=? nbmax) eqn:E1.
    + destruct ((nb0 it =? nbmax) && (0 <? skip)%Z) eqn:E2.
      * destruct (format_ranges false d c room nb nbmax (skip - 1)%Z lowest) as [[[[b0 d0] c0] n0] m0] eqn:Ef.
        inversion H; subst. eapply Hskip; [exact Ef| |].
        -- intros Hn0 [Hc|Hc]; apply andb_prop in E2; destruct E2 as [E2 E3]; lia.
        -- intros [Hc|Hc]; [left; exact Hc|right; lia].
      * destruct ((frames_varint_encode (u64 (lowest + two64 + two64 - se it - 2)) >>>
                   frames_varint_encode (u64 (se it + two64 - ss it))) room) as [x|] eqn:Ew.
        -- destruct (format_ranges false d (count_sent false c it) (room - blen x) (nb + 1) nbmax skip (ss it))
             as [[[[b0 d0] c0] n0] m0] eqn:Ef.
           inversion H; subst; clear H.
           apply wseq_inv in Ew. destruct Ew as (y & z & Ey & Ez & ->).
           unfold two62 in *.
           rewrite u64_sub2 in Ey by (unfold two64; lia).
           rewrite u64_sub in Ez by (unfold two64; lia).
           assert (L8 : blen y <= 8 /\ blen z <= 8).
           { assert (L : forall n, encode_varint_length n <= 8).
             { intro n. unfold encode_varint_length. repeat (destruct (_ <? _)); lia. }
             rewrite frames_varint_encode_eq in Ey, Ez.
             destruct (encode_varint_length (lowest - se it - 2) <=? room); [|discriminate].
             destruct (encode_varint_length (se it - ss it) <=? room - blen y); [|discriminate].
             apply some_inj in Ey. apply some_inj in Ez. subst y z.
             rewrite !varint_bytes_length. split; apply L. }
           apply encode_is_varint in Ey; [|unfold two62; lia]. destruct Ey as [Vy By].
           apply encode_is_varint in Ez; [|unfold two62; lia]. destruct Ez as [Vz Bz].
           apply IH in Ef; [|exact D3|lia|lia].
           destruct Ef as (blocks & rs & V & L & L2 & B & R & I & M & P & Q).
           exists ((lowest - se it - 2, se it - ss it) :: blocks), ((ss it, se it) :: rs).
           rewrite !blen_app in *.
           split.
           { cbn [block_numbers flat_map fst snd app]. rewrite <- app_assoc.
             constructor; [exact Vy|]. constructor; [exact Vz|exact V]. }
           split; [cbn [length]; lia|]. split; [exact L2|]. split; [lia|].
           split.
           { cbn [rfc_blocks]. replace (lowest - se it - 2 + 2 + (se it - ss it) <=? lowest) with true
               by (symmetry; apply N.leb_le; lia).
             replace (lowest - (lowest - se it - 2) - 2) with (se it) by lia.
             replace (se it - (se it - ss it)) with (ss it) by lia. rewrite R. reflexivity. }
           split.
           { intros q [<-|Hq]; [left; reflexivity|right; apply I; exact Hq]. }
           split.
           { constructor; [right; split; [reflexivity|left; reflexivity]|].
             eapply kept_more; [|exact M]. apply incl_tl. apply incl_refl. }
           split.
           { intros Hm Hl Hs it0 [<-|Hi] Hn0; [left; reflexivity|]. right. cbn [length] in Hl.
             apply P; try assumption. lia. }
           intros Hr. apply Q. lia.
        -- inversion H; subst. destruct (Hnil n2 room lowest (it :: d) Hnb) as (bl & rs & A & B & C & D & E & F & ->).
           exists bl, []. refine (conj A (conj B (conj C (conj D (conj E (conj F (conj _ (conj _ _)))))))).
           ++ apply kept_same.
           ++ discriminate.
           ++ intros Hr. exfalso.
              destruct (wseq_some (frames_varint_encode (u64 (lowest + two64 + two64 - se it - 2)))
                (frames_varint_encode (u64 (se it + two64 - ss it))) 8 8 room) as (x & Ex & _);
                try (intros; apply encode_some; assumption); [lia|]. congruence.
    + destruct (format_ranges false d c room nb nbmax skip lowest) as [[[[b0 d0] c0] n0] m0] eqn:Ef.
      inversion H; subst. eapply Hskip; [exact Ef| |auto].
      intros Hn0 _. lia.
Qed.

(** The choice never leaves out a range that was not sent, when there are at
    most 32. *)
Lemma select_loop_few : forall fuel i cumul c fc f desc m k,
  (forall j, j < 4 -> (c j - (if N.eqb j fc then 1 else 0))%Z = cntf f desc j) ->
  i + N.of_nat fuel = 4 -> cumul = cnt_lt f desc i -> (length desc <= 32)%nat ->
  select_loop fuel i cumul c fc 32 = (m, k) -> (k <= 0)%Z.
Proof.
  induction fuel as [|fuel IH]; intros i cumul c fc f desc m k Hc Hi Hcu Hl H; cbn [select_loop] in H.
  - inversion H; subst. lia.
  - assert (Hcur : (if N.eqb i fc then cumul + c i - 1 else cumul + c i)%Z = cnt_lt f desc (i + 1)).
    { rewrite cnt_lt_succ. specialize (Hc i ltac:(lia)). destruct (i =? fc); lia. }
    rewrite Hcur in H. destruct (32 <=? cnt_lt f desc (i + 1))%Z eqn:E.
    + inversion H; subst. pose proof (cnt_lt_le f desc (m + 1)) as Hb. lia.
    + eapply IH; [exact Hc| | |exact Hl|exact H]; [lia|reflexivity].
Qed.

Lemma forall2_rev : forall A B (R : A -> B -> Prop) l l2, Forall2 R l l2 -> Forall2 R (rev l) (rev l2).
Proof.
  intros A B R l l2 H. induction H as [|x y l l2 Hx H IH]; [constructor|].
  cbn [rev]. apply Forall2_app; [exact IH|]. constructor; [exact Hx|constructor].
Qed.

(** What a frame of single path ACKs says. *)
Lemma format_ack_plus : forall s needed ecn delay room bytes s2 more,
  format_ack_frame s false needed ecn None delay room = (bytes, s2, more) ->
  (forall j, j < 4 -> rc0 (sl_rc s) j = cntf nb0 (sl_items s) j) ->
  wf_from 0 (sl_items s) -> (forall it, In it (sl_items s) -> se it < two62) ->
  delay < two62 ->
  (forall e0 e1 ce, ecn = Some (e0, e1, ce) -> e0 < two62 /\ e1 < two62 /\ ce < two62) ->
  (bytes = [] /\ s2 = s /\ ((sl_items s = [] \/ (needed = false)) \/ room < 600)) \/
  exists ty first blocks ecns rs,
     ack_frame ty None (sack_list_last s) delay first blocks ecns bytes /\ bytes <> [] /\
     ((ty = 2 /\ ecns = []) \/ (ty = 3 /\ length ecns = 3%nat)) /\
     rfc_ranges (sack_list_last s) first blocks = Some rs /\
     incl rs (ranges s) /\ sl_items s <> [] /\
     Forall2 (kept rs) (sl_items s) (sl_items s2) /\ sack_list_last s2 = sack_list_last s /\
     (more = false -> (length (sl_items s) <= 33)%nat ->
      forall it, In it (sl_items s) -> nb0 it = 0 -> In (rng it) rs) /\
     (600 <= room -> more = false).
Proof.
  intros s needed ecn delay room bytes s2 more H Hcnt Hw Hs Hd Hecn.
  unfold format_ack_frame in H.
  destruct (rev (sl_items s)) as [|last desc] eqn:Er.
  { inversion H; subst. left. split; [reflexivity|]. split; [reflexivity|]. left. left.
    apply (f_equal (@rev _)) in Er. rewrite rev_involutive in Er. exact Er. }
  assert (Hitems : sl_items s = rev desc ++ [last]).
  { apply (f_equal (@rev _)) in Er. rewrite rev_involutive in Er. exact Er. }
  assert (Hlast : In last (sl_items s)) by (rewrite Hitems; apply in_or_app; right; left; reflexivity).
  destruct (negb needed && (length (sl_items s) =? 1)%nat && (max_ack_range_repeat <=? nb0 last)) eqn:Enn.
  { inversion H; subst. left. split; [reflexivity|]. split; [reflexivity|]. left. right.
    apply andb_prop in Enn. destruct Enn as [Enn _]. apply andb_prop in Enn. destruct Enn as [Enn _].
    destruct needed; [discriminate|reflexivity]. }
  set (is_ecn := match ecn with Some _ => true | None => false end) in *.
  assert (L8 : forall n r p, frames_varint_encode n r = Some p -> blen p <= 8).
  { intros n r p Hp. assert (L : forall n, encode_varint_length n <= 8).
    { intro n0. unfold encode_varint_length. repeat (destruct (_ <? _)); lia. }
    rewrite frames_varint_encode_eq in Hp. destruct (encode_varint_length n <=? r); [|discriminate].
    apply some_inj in Hp. subst p. rewrite varint_bytes_length. apply L. }
  assert (E8 : forall n r, 8 <= r -> exists p, frames_varint_encode n r = Some p /\ blen p <= 8)
    by (intros; apply encode_some; assumption).
  assert (Hpre : 600 <= room -> exists pre, ack_prefix is_ecn None (se last) delay room = Some pre /\ blen pre <= 24).
  { intros Hr. unfold ack_prefix.
    apply (wseq_some _ _ 8 16); [intros; apply E8; assumption| |lia].
    intros r Hr2. apply (wseq_some _ _ 8 8); [intros; apply E8; assumption|intros; apply E8; assumption|lia]. }
  destruct (ack_prefix is_ecn None (se last) delay room) as [pre|] eqn:Ep.
  2:{ inversion H; subst. left. split; [reflexivity|]. split; [reflexivity|]. right.
      apply N.nle_gt. intro Hr. destruct (Hpre Hr) as (pre & X & _). discriminate. }
  assert (Hpl : 600 <= room -> blen pre <= 24).
  { intros Hr. destruct (Hpre Hr) as (pre' & X & Y). apply some_inj in X. subst pre'. exact Y. }
  destruct (room - blen pre <? 1) eqn:E1.
  { inversion H; subst. left. split; [reflexivity|]. split; [reflexivity|]. right.
    apply N.nle_gt. intro Hr. specialize (Hpl Hr). lia. }
  destruct (frames_varint_encode (u64 (se last + two64 - ss last)) (room - blen pre - 1)) as [fr|] eqn:Ef.
  2:{ inversion H; subst. left. split; [reflexivity|]. split; [reflexivity|]. right.
      apply N.nle_gt. intro Hr. specialize (Hpl Hr).
      destruct (E8 (u64 (se last + two64 - ss last)) (room - blen pre - 1)) as (p & X & _); [lia|]. congruence. }
  pose proof (L8 _ _ _ Ef) as Lfr.
  destruct (select_ack_ranges _ _ _) as [nbmax skip] eqn:Esel.
  destruct (format_ranges false desc (count_sent false (sl_rc s) last) (room - blen pre - 1 - blen fr) 0 nbmax skip (ss last))
    as [[[[body desc2] c2] nb] m] eqn:Efr.
  right.
  pose proof (wf_from_bounds _ _ _ Hw Hlast) as (B1 & B2 & B3).
  pose proof (Hs _ Hlast) as B4.
  assert (Hdw : desc_wf (ss last) desc).
  { rewrite Hitems in Hw. apply wf_from_app in Hw. destruct Hw as [Hwa Hwp]. cbn [wf_from] in Hwp.
    pose proof (wf_desc _ _ Hwa (ss last)) as X. rewrite rev_involutive in X. apply X. lia. }
  assert (Hskip : (length (sl_items s) <= 33)%nat -> (skip <= 0)%Z).
  { intros Hl. unfold select_ack_ranges in Esel.
    refine (select_loop_few 4 0 0 _ _ nb0 desc nbmax skip _ eq_refl _ _ Esel).
    - intros j Hj. cbn [item_sent nb0 count_sent rc0].
      assert (Hc := Hcnt j Hj). rewrite Hitems, cntf_app, cntf_cons, cntf_nil in Hc.
      assert (Hr : cntf nb0 (rev desc) j = cntf nb0 desc j).
      { unfold cntf. rewrite filter_rev', rev_length. reflexivity. }
      rewrite Hr in Hc. unfold bump_sent, bump, max_ack_range_repeat.
      destruct (nb0 last <? 4) eqn:A1; destruct (nb0 last + 1 <? 4) eqn:A2;
        destruct (j =? nb0 last + 1) eqn:A3; destruct (j =? nb0 last) eqn:A4;
        destruct (nb0 last =? j) eqn:A5; lia.
    - symmetry. unfold cnt_lt. induction desc as [|x d IHd]; [reflexivity|].
      cbn [filter]. destruct (nb0 x <? 0) eqn:X; [lia|]. clear - X.
      induction d as [|y d IH]; [reflexivity|]. cbn [filter]. destruct (nb0 y <? 0) eqn:Y; [lia|exact IH].
    - rewrite Hitems, app_length, rev_length in Hl. cbn [length] in Hl. lia. }
  rewrite u64_sub in Ef by (unfold two64, two62 in *; lia).
  apply encode_is_varint in Ef; [|unfold two62 in *; lia]. destruct Ef as [Vf Bf].
  apply format_ranges_plus in Efr; try assumption; try (unfold two62 in *; lia).
  destruct Efr as (blocks & rs & V & L & L2 & B & R & I & M & P & Q).
  assert (Hmp : forall p : N, @None N = Some p -> p < two62) by discriminate.
  pose proof (ack_prefix_spec _ _ _ _ _ _ Ep B4 Hd Hmp) as [Vp Bp].
  cbn [app] in Vp.
  assert (Hbytes : varints ((if is_ecn then ft_ack_ecn else ft_ack) ::
              [se last; delay; N.of_nat (length blocks); se last - ss last] ++ block_numbers blocks)
              (pre ++ [u8 nb] ++ fr ++ body)).
  { match goal with |- varints ?v _ =>
      replace v with (((if is_ecn then ft_ack_ecn else ft_ack) :: [se last; delay]) ++
           ([N.of_nat (length blocks); se last - ss last] ++ block_numbers blocks)) by reflexivity end.
    apply varints_app; [exact Vp|].
    apply (varints_cons _ _ [u8 nb]).
    - replace (N.of_nat (length blocks)) with nb by lia. apply byte_is_varint. lia.
    - constructor; [exact Vf|exact V]. }
  assert (Hrg : rfc_ranges (se last) (se last - ss last) blocks = Some ((ss last, se last) :: rs)).
  { unfold rfc_ranges. replace (se last - ss last <=? se last) with true by (symmetry; apply N.leb_le; lia).
    replace (se last - (se last - ss last)) with (ss last) by lia. rewrite R. reflexivity. }
  assert (Hincl : incl ((ss last, se last) :: rs) (ranges s)).
  { unfold ranges. intros q [<-|Hq].
    - apply in_map_iff. exists last. auto.
    - apply I in Hq. apply in_map_iff in Hq. destruct Hq as (it & <- & Hit).
      apply in_map_iff. exists it. split; [reflexivity|]. rewrite Hitems. apply in_or_app. left.
      apply in_rev in Hit. exact Hit. }
  assert (Hlst : sack_list_last s = se last) by (unfold sack_list_last; rewrite Er; reflexivity).
  assert (Hne : sl_items s <> []) by (rewrite Hitems; destruct (rev desc); discriminate).
  assert (Hkept : Forall2 (kept ((ss last, se last) :: rs)) (sl_items s) (rev (item_sent false last :: desc2))).
  { rewrite Hitems. cbn [rev]. apply Forall2_app.
    - apply forall2_rev. eapply kept_more; [|exact M]. apply incl_tl. apply incl_refl.
    - constructor; [|constructor]. right. split; [reflexivity|left; reflexivity]. }
  assert (Hall : m = false -> (length (sl_items s) <= 33)%nat ->
      forall it, In it (sl_items s) -> nb0 it = 0 -> In (rng it) ((ss last, se last) :: rs)).
  { intros Hm Hl it Hin Hn0. rewrite Hitems in Hin. apply in_app_or in Hin. destruct Hin as [Hin|[<-|[]]].
    - right. apply P; try assumption.
      + rewrite Hitems, app_length, rev_length in Hl. cbn [length] in Hl. lia.
      + right. apply Hskip. exact Hl.
      + apply in_rev. exact Hin.
    - left. reflexivity. }
  assert (Hm : 600 <= room -> m = false).
  { intros Hr. apply Q. specialize (Hpl Hr). lia. }
  rewrite Hlst.
  assert (Hlast2 : forall c h d, sack_list_last (mk_sl (rev (item_sent false last :: desc2)) h d c) = se last).
  { intros c h d. unfold sack_list_last. cbn [sl_items]. rewrite rev_involutive. reflexivity. }
  destruct ecn as [[[e0 e1] ce]|]; cbn in is_ecn; subst is_ecn.
  - destruct (Hecn _ _ _ eq_refl) as (He0 & He1 & Hce).
    destruct ((frames_varint_encode e0 >>> frames_varint_encode e1 >>> frames_varint_encode ce)
             (room - blen (pre ++ [u8 nb] ++ fr ++ body))) as [e|] eqn:Ee.
    + inversion H; subst; clear H.
      apply wseq_inv in Ee. destruct Ee as (y1 & z1 & E3 & Ee & ->).
      apply wseq_inv in Ee. destruct Ee as (y2 & z2 & E4 & Ee & ->).
      apply encode_is_varint in E3; [|assumption]. apply encode_is_varint in E4; [|assumption].
      apply encode_is_varint in Ee; [|assumption].
      exists 3, (se last - ss last), blocks, [e0; e1; ce], ((ss last, se last) :: rs).
      split.
      { unfold ack_frame. cbn [app].
        match goal with |- varints ?v ?b => replace v with
          ((3 :: se last :: delay :: N.of_nat (length blocks) :: se last - ss last :: block_numbers blocks) ++ [e0; e1; ce])
          by reflexivity;
          replace b with ((pre ++ [u8 (0 + N.of_nat (length blocks))] ++ fr ++ body) ++ (y1 ++ y2 ++ z2))
        end.
        - apply varints_app; [exact Hbytes|]. constructor; [tauto|]. constructor; [tauto|]. apply varints_one; tauto.
        - cbn [app]. rewrite <- !app_assoc. cbn [app]. rewrite <- !app_assoc. reflexivity. }
      split; [destruct pre; discriminate|]. split; [right; split; reflexivity|].
      split; [exact Hrg|]. split; [exact Hincl|]. split; [exact Hne|]. split; [exact Hkept|].
      split; [apply Hlast2|]. split; [exact Hall|exact Hm].
    + inversion H; subst; clear H.
      destruct (ack_prefix_head _ _ _ _ _ Ep) as (t & -> & Vt).
      exists 2, (se last - ss last), blocks, [], ((ss last, se last) :: rs).
      split.
      { unfold ack_frame. cbn [app tl]. rewrite app_nil_r.
        change (ft_ack :: t ++ u8 (0 + N.of_nat (length blocks)) :: fr ++ body)
          with ([ft_ack] ++ (t ++ [u8 (0 + N.of_nat (length blocks))] ++ fr ++ body)).
        constructor; [apply ack_byte|].
        change (se last :: delay :: N.of_nat (length blocks) :: se last - ss last :: block_numbers blocks)
          with ([se last; delay] ++ (N.of_nat (length blocks) :: se last - ss last :: block_numbers blocks)).
        apply varints_app; [apply Vt; assumption|].
        apply (varints_cons _ _ [u8 (0 + N.of_nat (length blocks))]).
        - apply byte_is_varint. lia.
        - constructor; assumption. }
      split; [discriminate|]. split; [left; split; reflexivity|].
      split; [exact Hrg|]. split; [exact Hincl|]. split; [exact Hne|]. split; [exact Hkept|].
      split; [apply Hlast2|]. split; [discriminate|].
      intros Hr. exfalso. specialize (Hpl Hr). specialize (Hm Hr).
      assert (Lb : blen body <= 512).
      { clear - V L2. assert (length blocks <= 32)%nat by lia. clear L2.
        assert (G : forall vs b, varints vs b -> blen b <= 8 * N.of_nat (length vs)).
        { clear. intros vs b H. induction H as [|v vs p bytes Hv H IH]; [vm_compute; congruence|].
          rewrite blen_app. cbn [length]. assert (blen p <= 8); [|lia].
          destruct Hv as (k & Hk & Hl & _). rewrite Hl.
          assert (Hk2 : k = 0 \/ k = 1 \/ k = 2 \/ k = 3) by lia. destruct Hk2 as [->|[->|[->| ->]]]; vm_compute; congruence. }
        apply G in V. assert (length (block_numbers blocks) = (2 * length blocks)%nat).
        { clear. induction blocks as [|[x y] b IH]; [reflexivity|]. cbn [block_numbers flat_map app length] in *. unfold block_numbers in IH. lia. }
        lia. }
      destruct (wseq_some (frames_varint_encode e0) (frames_varint_encode e1 >>> frames_varint_encode ce) 8 16
        (room - blen ((ft_ack_ecn :: t) ++ [u8 (0 + N.of_nat (length blocks))] ++ fr ++ body))) as (x & Ex & _).
      * intros; apply E8; assumption.
      * intros r Hr2. apply (wseq_some _ _ 8 8); [intros; apply E8; assumption|intros; apply E8; assumption|lia].
      * rewrite !blen_app. change (blen [u8 (0 + N.of_nat (length blocks))]) with 1. lia.
      * congruence.
  - inversion H; subst; clear H.
    exists 2, (se last - ss last), blocks, [], ((ss last, se last) :: rs).
    split; [unfold ack_frame; rewrite !app_nil_r; exact Hbytes|].
    split; [destruct pre; discriminate|]. split; [left; split; reflexivity|].
    split; [exact Hrg|]. split; [exact Hincl|]. split; [exact Hne|]. split; [exact Hkept|].
    split; [apply Hlast2|]. split; [exact Hall|exact Hm].
Qed.
