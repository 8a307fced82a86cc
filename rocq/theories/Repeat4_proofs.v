(** Proofs about the repetition of lost STREAM frames: the whole queue. *)
From Verif Require Import Base Tac Varint_model Varint_proofs Sack_model Sack_spec Stream_model Frames_model Frames_spec
  Frames_proofs Send_model Send_spec Send_proofs Send2_proofs Send3_proofs
  Repeat_model Repeat_spec Repeat_proofs Repeat2_proofs Repeat3_proofs.

Lemma readable_nil room : readable room [] [].
Proof.
  change (@nil rframe) with (frames_of []). apply readable_wire. intros. apply wire_nil.
Qed.

Lemma readable_app room b1 i1 b2 i2 : readable room b1 (frames_of i1) -> readable (room - blen b1) b2 (frames_of i2) ->
  readable room (b1 ++ b2) (frames_of (i1 ++ i2)).
Proof.
  intros H1 H2. apply readable_wire. intros S h o epoch He Hp. apply wire_app; try assumption; apply wire_readable; assumption.
Qed.

Lemma not_needed_mono streams id lo hi fin lo' hi' fin' :
  (forall i, lo' <= i -> (i < hi' \/ (fin' = true /\ i = hi')) -> lo <= i /\ (i < hi \/ (fin = true /\ i = hi))) ->
  not_needed streams id lo hi fin -> not_needed streams id lo' hi' fin'.
Proof.
  intros H [N | (s & H1 & H2 & H3)]; [left; exact N | right]. exists s. split; [exact H1 |]. split; [exact H2 |].
  destruct H3 as [H3 | H3]; [left; exact H3 | right]. intros i A B. destruct (H i A B) as [C D]. exact (H3 i C D).
Qed.

Lemma conserves_refl streams fss : conserves streams fss [] fss.
Proof.
  split; [| split; [| split]].
  - intros id i v [(? & ? & ? & [] & _) | H]; exact H.
  - intros id e [(? & ? & [] & _) | H]; exact H.
  - intros id i v H. right. left. exact H.
  - intros id e H. right. left. exact H.
Qed.

Lemma log_byte_app a b id i v : log_byte (a ++ b) id i v <-> log_byte a id i v \/ log_byte b id i v.
Proof.
  unfold log_byte. split.
  - intros (off & fin & d & H & X). apply in_app_or in H. destruct H; [left | right]; exists off, fin, d; auto.
  - intros [(off & fin & d & H & X) | (off & fin & d & H & X)]; exists off, fin, d; (split; [apply in_or_app; auto | exact X]).
Qed.

Lemma log_end_app a b id e : log_end (a ++ b) id e <-> log_end a id e \/ log_end b id e.
Proof.
  unfold log_end. split.
  - intros (off & d & H & X). apply in_app_or in H. destruct H; [left | right]; exists off, d; auto.
  - intros [(off & d & H & X) | (off & d & H & X)]; exists off, d; (split; [apply in_or_app; auto | exact X]).
Qed.

Lemma pending_byte_cons fs fss id i v : pending_byte (fs :: fss) id i v <-> pending_byte [fs] id i v \/ pending_byte fss id i v.
Proof.
  unfold pending_byte. cbn [concat]. rewrite app_nil_r. split.
  - intros (f & H & X). apply in_app_or in H. destruct H; [left | right]; exists f; auto.
  - intros [(f & H & X) | (f & H & X)]; exists f; (split; [apply in_or_app; auto | exact X]).
Qed.

Lemma pending_end_cons fs fss id e : pending_end (fs :: fss) id e <-> pending_end [fs] id e \/ pending_end fss id e.
Proof.
  unfold pending_end. cbn [concat]. rewrite app_nil_r. split.
  - intros (f & H & X). apply in_app_or in H. destruct H; [left | right]; exists f; auto.
  - intros [(f & H & X) | (f & H & X)]; exists f; (split; [apply in_or_app; auto | exact X]).
Qed.

(** Equivalent queues: the same frames wait. *)
Definition same_frames (a b : list (list sfr)) : Prop := forall f, In f (concat a) <-> In f (concat b).

Lemma conserves_same streams a its b b' : same_frames b b' -> conserves streams a its b -> conserves streams a its b'.
Proof.
  intros E (H1 & H2 & H3 & H4).
  assert (P1 : forall id i v, pending_byte b' id i v <-> pending_byte b id i v).
  { intros. unfold pending_byte. split; intros (f & Hf & X); exists f; (split; [apply E, Hf | exact X]). }
  assert (P2 : forall id e, pending_end b' id e <-> pending_end b id e).
  { intros. unfold pending_end. split; intros (f & Hf & X); exists f; (split; [apply E, Hf | exact X]). }
  split; [| split; [| split]].
  - intros id i v H. apply H1. rewrite <- P1. exact H.
  - intros id e H. apply H2. rewrite <- P2. exact H.
  - intros id i v H. rewrite P1. apply H3, H.
  - intros id e H. rewrite P2. apply H4, H.
Qed.

(** A turn on the first packet, then whatever happens to the others. *)
Lemma conserves_cons streams fs its fs' fss its2 fss' :
  conserves streams [fs] its [fs'] -> conserves streams fss its2 fss' ->
  conserves streams (fs :: fss) (its ++ its2) (fs' :: fss').
Proof.
  intros (A1 & A2 & A3 & A4) (B1 & B2 & B3 & B4). split; [| split; [| split]].
  - intros id i v. rewrite log_byte_app, !(pending_byte_cons _ fss), (pending_byte_cons _ fss'). intros [[H | H] | [H | H]]; auto.
  - intros id e. rewrite log_end_app, !(pending_end_cons _ fss), (pending_end_cons _ fss'). intros [[H | H] | [H | H]]; auto.
  - intros id i v. rewrite log_byte_app, !(pending_byte_cons _ fss), (pending_byte_cons _ fss'). intros [H | H].
    + destruct (A3 _ _ _ H) as [? | [? | ?]]; auto.
    + destruct (B3 _ _ _ H) as [? | [? | ?]]; auto.
  - intros id e. rewrite log_end_app, !(pending_end_cons _ fss), (pending_end_cons _ fss'). cbn [concat]. intros [H | H].
    + destruct (A4 _ _ H) as [? | [? | [? | X]]]; auto. cbn [concat] in X. rewrite app_nil_r in X.
      right. right. right. apply in_or_app. auto.
    + destruct (B4 _ _ H) as [? | [? | [? | X]]]; auto. right. right. right. apply in_or_app. auto.
Qed.

Lemma pending_head f r id i v : pending_byte [f :: r] id i v <-> frame_byte f id i v \/ pending_byte [r] id i v.
Proof.
  unfold pending_byte. cbn [concat]. rewrite !app_nil_r. split.
  - intros (g & [-> | H] & X); [left; exact X | right; exists g; auto].
  - intros [X | (g & H & X)]; [exists f | exists g]; (split; [cbn [In]; auto | exact X]).
Qed.

Lemma pending_end_head f r id e : pending_end [f :: r] id e <-> frame_end f id e \/ pending_end [r] id e.
Proof.
  unfold pending_end. cbn [concat]. rewrite !app_nil_r. split.
  - intros (g & [-> | H] & X); [left; exact X | right; exists g; auto].
  - intros [X | (g & H & X)]; [exists f | exists g]; (split; [cbn [In]; auto | exact X]).
Qed.

Lemma log_byte_one id0 off fin d id i v : log_byte [IStream id0 off fin d] id i v <-> frame_byte (id0, off, fin, d) id i v.
Proof.
  unfold log_byte. split.
  - intros (o & f & dd & [H | []] & X). injection H as -> -> -> ->. exact X.
  - intro X. assert (E : id0 = id) by apply X. subst id0. exists off, fin, d. split; [left; reflexivity | exact X].
Qed.

Lemma log_end_one id0 off fin d id e : log_end [IStream id0 off fin d] id e <-> frame_end (id0, off, fin, d) id e.
Proof.
  unfold log_end. split.
  - intros (o & dd & [H | []] & X). injection H as -> -> -> ->. cbn. auto.
  - intros (E & F & X). subst id0 fin. exists off, d. split; [left; reflexivity | exact X].
Qed.

Lemma turn_conserves streams room fs its fs' : turn streams room fs its fs' -> conserves streams [fs] its [fs'].
Proof.
  assert (LN : forall id i v, ~ log_byte [] id i v) by (intros ? ? ? (? & ? & ? & [] & _)).
  assert (LE : forall id e, ~ log_end [] id e) by (intros ? ? (? & ? & [] & _)).
  intros [id off fin d r Hn | id off fin d r Hr Hd | id off fin r Hr | id off fin d r | id off fin d r k Hk].
  - split; [| split; [| split]].
    + intros j i v [H | H]; [destruct (LN _ _ _ H) |]. apply pending_head. auto.
    + intros j e [H | H]; [destruct (LE _ _ H) |]. apply pending_end_head. auto.
    + intros j i v H. apply pending_head in H. destruct H as [(<- & Hi & _) | H]; [| auto]. right. right.
      revert Hn. apply not_needed_mono. intros x X1 [X2 | [? _]]; [| discriminate]. split; [lia | left; lia].
    + intros j e H. apply pending_end_head in H. destruct H as [(<- & -> & He) | H]; [| auto]. right. right. left.
      revert Hn. apply not_needed_mono. intros x X1 [X2 | [_ X2]]; [lia |]. split; [lia | right; split; [reflexivity | lia]].
  - apply conserves_refl.
  - split; [| split; [| split]].
    + intros j i v [H | H]; [destruct (LN _ _ _ H) |]. apply pending_head. auto.
    + intros j e [H | H]; [destruct (LE _ _ H) |]. apply pending_end_head. auto.
    + intros j i v H. apply pending_head in H. destruct H as [(<- & Hi & _) | H]; [| auto].
      change (blen []) with 0 in Hi. lia.
    + intros j e H. apply pending_end_head in H. destruct H as [(<- & -> & He) | H]; [| auto].
      change (blen []) with 0 in He. rewrite N.add_0_r in He. subst e. right. right. right. left. reflexivity.
  - split; [| split; [| split]].
    + intros j i v [H | H]; apply pending_head; [left; apply log_byte_one, H | right; exact H].
    + intros j e [H | H]; apply pending_end_head; [left; apply log_end_one, H | right; exact H].
    + intros j i v H. apply pending_head in H. destruct H as [H | H]; [left; apply log_byte_one, H | auto].
    + intros j e H. apply pending_end_head in H. destruct H as [H | H]; [left; apply log_end_one, H | auto].
  - assert (Bf : blen (firstn (N.to_nat k) d) = k) by (apply firstn_blen; lia).
    assert (Bs : blen (skipn (N.to_nat k) d) = blen d - k) by apply skipn_blen.
    assert (Nf : forall i, i < k -> nth (N.to_nat i) (firstn (N.to_nat k) d) 0 = nth (N.to_nat i) d 0).
    { intros i Hi. rewrite <- (firstn_skipn (N.to_nat k) d) at 2. rewrite app_nth1; [reflexivity |].
      unfold blen in Bf. lia. }
    assert (Ns : forall i, k <= i -> nth (N.to_nat (i - k)) (skipn (N.to_nat k) d) 0 = nth (N.to_nat i) d 0).
    { intros i Hi. rewrite <- (firstn_skipn (N.to_nat k) d) at 2. rewrite app_nth2; [| unfold blen in Bf; lia].
      f_equal. unfold blen in Bf. lia. }
    split; [| split; [| split]].
    + intros j i v [H | H]; apply pending_head.
      * left. apply log_byte_one in H. destruct H as (-> & Hi & Hv). rewrite Bf in Hi. rewrite Nf in Hv by lia.
        split; [reflexivity |]. split; [lia | exact Hv].
      * apply pending_head in H. destruct H as [(-> & Hi & Hv) | H]; [left | right; exact H]. rewrite Bs in Hi.
        replace (i - (off + k)) with (i - off - k) in Hv by lia. rewrite Ns in Hv by lia.
        split; [reflexivity |]. split; [lia | exact Hv].
    + intros j e [H | H]; apply pending_end_head.
      * apply log_end_one in H. destruct H as (_ & X & _). discriminate.
      * apply pending_end_head in H. destruct H as [(-> & -> & He) | H]; [left | right; exact H]. rewrite Bs in He.
        split; [reflexivity |]. split; [reflexivity | lia].
    + intros j i v H. apply pending_head in H. destruct H as [(-> & Hi & Hv) | H].
      * destruct (N.ltb_spec i (off + k)) as [L | L].
        -- left. apply log_byte_one. split; [reflexivity |]. rewrite Bf. split; [lia |]. rewrite Nf by lia. exact Hv.
        -- right. left. apply pending_head. left. split; [reflexivity |]. rewrite Bs. split; [lia |].
           replace (i - (off + k)) with (i - off - k) by lia. rewrite Ns by lia. exact Hv.
      * right. left. apply pending_head. right. exact H.
    + intros j e H. right. left. apply pending_end_head. apply pending_end_head in H.
      destruct H as [(-> & -> & He) | H]; [left | right; exact H]. split; [reflexivity |]. split; [reflexivity | lia].
Qed.

(** Weights. *)
Lemma weight_app a b : weight (a ++ b) = weight a + weight b.
Proof.
  unfold weight. rewrite concat_app. induction (concat a) as [| [[[? ?] ?] ?] l IH]; cbn [app fold_right]; [reflexivity |].
  rewrite IH. lia.
Qed.

Lemma weight_cons f r : weight [f :: r] = (let '(_, _, _, d) := f in blen d + 1) + weight [r].
Proof. unfold weight. cbn [concat]. rewrite !app_nil_r. destruct f as [[[? ?] ?] ?]. cbn [fold_right]. lia. Qed.

Lemma weight_split fs fss : weight (fs :: fss) = weight [fs] + weight fss.
Proof. apply (weight_app [fs] fss). Qed.

Lemma turn_weight streams room fs its fs' : turn streams room fs its fs' ->
  weight [fs'] <= weight [fs] /\ (17 + 512 <= room -> weight [fs'] < weight [fs]).
Proof.
  intros [id off fin d r Hn | id off fin d r Hr Hd | id off fin r Hr | id off fin d r | id off fin d r k Hk];
    rewrite ?weight_cons; try lia.
  assert (Bs : blen (skipn (N.to_nat k) d) = blen d - k) by apply skipn_blen. lia.
Qed.

(** Frames that fit still fit. *)
Lemma turn_ok streams room fs its fs' : turn streams room fs its fs' -> Forall sfr_ok fs -> Forall sfr_ok fs'.
Proof.
  intros [id off fin d r Hn | id off fin d r Hr Hd | id off fin r Hr | id off fin d r | id off fin d r k Hk] H;
    inversion H as [| x y H1 H2]; subst x y; auto.
  constructor; [| exact H2]. cbn [sfr_ok] in *. rewrite skipn_blen. lia.
Qed.

Lemma Forall2_firstn {A B} (R : A -> B -> Prop) n : forall a b, Forall2 R a b -> Forall2 R (firstn n a) (firstn n b).
Proof.
  induction n as [| n IH]; intros a b H; [constructor |]. destruct H; cbn [firstn]; constructor; auto.
Qed.
Lemma Forall2_skipn {A B} (R : A -> B -> Prop) n : forall a b, Forall2 R a b -> Forall2 R (skipn n a) (skipn n b).
Proof.
  induction n as [| n IH]; intros a b H; [exact H |]. destruct H; cbn [skipn]; [constructor | auto].
Qed.

Lemma same_insert fs fss pos : same_frames (fs :: fss) (firstn pos fss ++ fs :: skipn pos fss).
Proof.
  intro f. rewrite <- (firstn_skipn pos fss) at 1. cbn [concat]. rewrite !concat_app. cbn [concat].
  rewrite !in_app_iff. tauto.
Qed.

Lemma weight_insert fs fss pos : weight (firstn pos fss ++ fs :: skipn pos fss) = weight (fs :: fss).
Proof.
  rewrite weight_app, (weight_split fs (skipn pos fss)), (weight_split fs fss).
  assert (E := f_equal weight (firstn_skipn pos fss)). rewrite weight_app in E. lia.
Qed.

Lemma waits_insert p fs q fss pos : bytes_ok (lp_bytes p) -> lp_prio p <= max64 -> waiting p fs -> Forall sfr_ok fs ->
  queue_waits q fss -> queue_waits (insert_at pos p q) (firstn pos fss ++ fs :: skipn pos fss).
Proof.
  intros H1 H2 H3 H4 H. unfold insert_at. apply Forall2_app; [apply Forall2_firstn, H |].
  constructor; [auto | apply Forall2_skipn, H].
Qed.

(** Pieces. *)
Lemma piece_refl f : piece_of f f.
Proof.
  destruct f as [[[id off] fin] d]. split; [reflexivity |]. exists [], []. rewrite app_nil_r.
  split; [reflexivity |]. split; [cbn; lia |]. auto.
Qed.

Lemma cut_refl fss : cut fss [] fss.
Proof. split; [intros x [] |]. intros f Hf. exists f. split; [exact Hf | apply piece_refl]. Qed.

Lemma cut_cons fs its fs' fss its2 fss' :
  cut [fs] its [fs'] -> cut fss its2 fss' -> cut (fs :: fss) (its ++ its2) (fs' :: fss').
Proof.
  unfold cut. cbn [concat]. rewrite !app_nil_r. intros [A1 A2] [B1 B2]. split.
  - intros x Hx. apply in_app_or in Hx. destruct Hx as [Hx | Hx]; [apply A1 in Hx | apply B1 in Hx];
      destruct Hx as (id & off & fin & d & g & E & Hg & Hp); exists id, off, fin, d, g; rewrite in_app_iff; auto.
  - intros f Hf. apply in_app_or in Hf. destruct Hf as [Hf | Hf]; [apply A2 in Hf | apply B2 in Hf];
      destruct Hf as (g & Hg & Hp); exists g; rewrite in_app_iff; auto.
Qed.

Lemma cut_same a its b b' : same_frames b b' -> cut a its b -> cut a its b'.
Proof. intros E [H1 H2]. split; [exact H1 |]. intros f Hf. apply H2, E, Hf. Qed.

Lemma turn_cut streams room fs its fs' : turn streams room fs its fs' -> cut [fs] its [fs'].
Proof.
  unfold cut. cbn [concat]. rewrite !app_nil_r.
  intros [id off fin d r Hn | id off fin d r Hr Hd | id off fin r Hr | id off fin d r | id off fin d r k Hk];
    (split; [intros x Hx; cbn [In] in Hx | intros f Hf; cbn [In] in Hf]).
  all: try (destruct Hx as [<- | []]); try contradiction.
  all: try (exists f; split; [cbn [In]; tauto | apply piece_refl]).
  - exists id, off, fin, d, (id, off, fin, d). split; [reflexivity |]. split; [left; reflexivity | apply piece_refl].
  - exists id, off, false, (firstn (N.to_nat k) d), (id, off, fin, d). split; [reflexivity |]. split; [left; reflexivity |].
    split; [reflexivity |]. exists [], (skipn (N.to_nat k) d). cbn [app]. rewrite firstn_skipn.
    split; [reflexivity |]. split; [cbn; lia | discriminate].
  - destruct Hf as [<- | Hf]; [| exists f; split; [right; exact Hf | apply piece_refl]].
    exists (id, off, fin, d). split; [left; reflexivity |]. split; [reflexivity |].
    exists (firstn (N.to_nat k) d), []. rewrite app_nil_r, firstn_skipn. split; [reflexivity |].
    split; [rewrite firstn_blen; lia | auto].
Qed.

Lemma copy_loop_spec streams pos : prio_ok streams -> forall q fss, queue_waits q fss -> forall room bytes items,
  exists b its q' fss', copy_loop streams q room max64 pos bytes items = Some (bytes ++ b, items ++ its, q', true) /\
    queue_waits q' fss' /\ readable room b (frames_of its) /\ bytes_ok b /\ conserves streams fss its fss' /\
    cut fss its fss' /\ weight fss' <= weight fss /\ (q <> [] -> 17 + 512 <= room -> weight fss' < weight fss).
Proof.
  intros Hpr q fss H. induction H as [| p fs q fss (Hok & Hpp & Hw & Hf) Hq IH]; intros room bytes items.
  - exists [], [], [], []. cbn [copy_loop]. rewrite !app_nil_r. split; [reflexivity |]. split; [constructor |].
    split; [apply readable_nil |]. split; [constructor |]. split; [apply conserves_refl |]. split; [apply cut_refl |]. split; [lia | congruence].
  - cbn [copy_loop]. destruct (N.ltb_spec max64 (lp_prio p)) as [L | L]; [lia |].
    destruct (copy_single_spec streams p room fs Hok Hpr Hpp Hw Hf)
      as (s & b & fs' & Es & Eb & Hbo & Hrd & Hbn & Ht & Hlb & Hlp & Hg).
    rewrite Es, Eb.
    assert (Hr : readable room b (frames_of (sg_items s))).
    { destruct Hrd as [-> | Hrd]; [| exact Hrd]. rewrite Hbn by reflexivity. apply readable_nil. }
    assert (Hc := turn_conserves _ _ _ _ _ Ht). assert (Hcu := turn_cut _ _ _ _ _ Ht). assert (Hwt := turn_weight _ _ _ _ _ Ht).
    assert (Hf' := turn_ok _ _ _ _ _ Ht Hf).
    destruct fs' as [| f' r'].
    + rewrite Hg. cbn [andb]. change (weight [[]]) with 0 in Hwt.
      destruct (0 <? room - blen b).
      * destruct (IH (room - blen b) (bytes ++ b) (items ++ sg_items s)) as (b2 & its2 & q' & fss' & E & Hq' & Hr2 & Hb2 & Hc2 & Hcu2 & Hw2 & _).
        exists (b ++ b2), (sg_items s ++ its2), q', fss'. rewrite !app_assoc. split; [exact E |]. split; [exact Hq' |].
        split; [apply readable_app; assumption |]. split; [apply Forall_app; auto |].
        assert (C := conserves_cons _ _ _ _ _ _ _ Hc Hc2). split; [exact C |]. split; [exact (cut_cons _ _ _ _ _ _ Hcu Hcu2) |].
        rewrite (weight_split fs fss). split; [lia |]. intros _ HR. destruct Hwt as [_ Hwt]. specialize (Hwt HR). lia.
      * exists b, (sg_items s), q, fss. split; [reflexivity |]. split; [exact Hq |]. split; [exact Hr |]. split; [exact Hbo |].
        assert (C := conserves_cons _ _ _ _ _ _ _ Hc (conserves_refl streams fss)). rewrite app_nil_r in C. split; [exact C |].
        assert (U := cut_cons _ _ _ _ _ _ Hcu (cut_refl fss)). rewrite app_nil_r in U. split; [exact U |].
        rewrite (weight_split fs fss). split; [lia |]. intros _ HR. destruct Hwt as [_ Hwt]. specialize (Hwt HR). lia.
    + destruct Hg as [Hg Hw']. rewrite Hg. cbn [andb].
      assert (C := conserves_cons _ _ _ _ _ _ _ Hc (conserves_refl streams fss)). rewrite app_nil_r in C.
      assert (U := cut_cons _ _ _ _ _ _ Hcu (cut_refl fss)). rewrite app_nil_r in U.
      assert (W : weight ((f' :: r') :: fss) <= weight (fs :: fss) /\
                  (17 + 512 <= room -> weight ((f' :: r') :: fss) < weight (fs :: fss))).
      { rewrite (weight_split fs fss), (weight_split (f' :: r') fss). split; [lia |]. intro HR. destruct Hwt as [_ Hwt]. specialize (Hwt HR). lia. }
      assert (Hok' : bytes_ok (lp_bytes (sg_lost s))) by (rewrite Hlb; exact Hok).
      destruct (sg_moved s).
      * exists b, (sg_items s), (insert_at pos (sg_lost s) q), (firstn pos fss ++ (f' :: r') :: skipn pos fss).
        split; [reflexivity |]. split; [apply waits_insert; assumption |]. split; [exact Hr |]. split; [exact Hbo |].
        split; [eapply conserves_same; [apply same_insert | exact C] |].
        split; [eapply cut_same; [apply same_insert | exact U] |]. rewrite weight_insert. split; [apply W | intros _; apply W].
      * exists b, (sg_items s), (sg_lost s :: q), ((f' :: r') :: fss). split; [reflexivity |].
        split; [constructor; auto |]. split; [exact Hr |]. split; [exact Hbo |]. split; [exact C |]. split; [exact U |].
        split; [apply W | intros _; apply W].
Qed.

Lemma copy_frames_spec streams q fss room pos : prio_ok streams -> queue_waits q fss ->
  exists b its q' fss', copy_frames streams q room pos = Some (b, its, q', true) /\
    queue_waits q' fss' /\ readable room b (frames_of its) /\ bytes_ok b /\ conserves streams fss its fss' /\
    cut fss its fss' /\ weight fss' <= weight fss /\ (q <> [] -> 17 + 512 <= room -> weight fss' < weight fss).
Proof. intros Hpr Hq. apply (copy_loop_spec streams pos Hpr q fss Hq room [] []). Qed.

(** Queueing a lost packet. *)
Lemma queue_lost_spec streams payload fs q fss pos : prio_ok streams -> queue_waits q fss -> bytes_ok payload ->
  payload_streams payload fs -> Forall sfr_ok fs ->
  exists q' fss', queue_lost streams payload pos q = Some q' /\ queue_waits q' fss' /\ same_frames (fs :: fss) fss'.
Proof.
  intros Hpr Hq Hok Hps Hf. unfold queue_lost, adjust_all. cbn [lp_bytes].
  destruct (adjust_spec streams payload payload fs Hps Hpr (length payload) 0 0 eq_refl (le_n _) ltac:(unfold max64; lia))
    as (p' & E & Hb & Hp & _ & Hl).
  rewrite E. cbn [andb]. unfold lands in Hl. destruct fs as [| f r].
  - exists q, fss. destruct (N.ltb_spec (lp_frame p') (blen payload)); [lia |]. split; [reflexivity |]. split; [exact Hq |].
    intro f. reflexivity.
  - destruct Hl as [Hl Hw]. destruct (N.ltb_spec (lp_frame p') (blen payload)); [| lia].
    exists (insert_at pos p' q), (firstn pos fss ++ (f :: r) :: skipn pos fss). split; [reflexivity |].
    split; [apply waits_insert; try assumption; rewrite Hb; exact Hok | apply same_insert].
Qed.

(** Repeated calls. *)
Lemma calls_spec steps : forall q fss, queue_waits q fss ->
  Forall (fun '(streams, _, _) => prio_ok streams) steps ->
  exists its q' fss', calls q steps = Some (its, q') /\ queue_waits q' fss' /\
    (forall id i v, log_byte its id i v -> pending_byte fss id i v) /\
    (forall id e, log_end its id e -> pending_end fss id e) /\
    (forall id i v, pending_byte fss id i v -> log_byte its id i v \/ pending_byte fss' id i v \/
       exists streams room pos, In (streams, room, pos) steps /\ not_needed streams id i (i + 1) false) /\
    (Forall (fun '(_, room, _) => 17 + 512 <= room) steps -> weight fss <= N.of_nat (length steps) -> q' = []).
Proof.
  induction steps as [| [[streams room] pos] r IH]; intros q fss Hq Hs.
  - exists [], q, fss. cbn [calls]. split; [reflexivity |]. split; [exact Hq |].
    split; [intros ? ? ? (? & ? & ? & [] & _) |]. split; [intros ? ? (? & ? & [] & _) |].
    split; [auto |]. intros _ Hw. destruct Hq as [| p fs q fss (_ & _ & Hx & _) Hq]; [reflexivity |]. exfalso.
    destruct Hx. rewrite weight_split, weight_cons in Hw. cbn [length] in Hw. lia.
  - inversion Hs as [| x y Hpr Hs']; subst x y. cbn [calls].
    destruct (copy_frames_spec streams q fss room pos Hpr Hq) as (b & its & q1 & fss1 & E & Hq1 & _ & _ & (C1 & C2 & C3 & _) & _ & Hle & Hlt).
    rewrite E. destruct (IH q1 fss1 Hq1 Hs') as (its' & q' & fss' & E' & Hq' & D1 & D2 & D3 & D4).
    rewrite E'. exists (its ++ its'), q', fss'. split; [reflexivity |]. split; [exact Hq' |].
    split; [intros id i v H; apply log_byte_app in H; apply C1; destruct H as [H | H]; auto |].
    split; [intros id e H; apply log_end_app in H; apply C2; destruct H as [H | H]; auto |].
    split.
    + intros id i v H. rewrite log_byte_app. destruct (C3 _ _ _ H) as [X | [X | X]]; [auto | | right; right; exists streams, room, pos; cbn [In]; auto].
      destruct (D3 _ _ _ X) as [Y | [Y | (st & ro & po & Y & Z)]]; [auto | auto | right; right; exists st, ro, po; cbn [In]; auto].
    + intros HR Hw. inversion HR as [| x y HR1 HR2]; subst x y. apply D4; [exact HR2 |]. cbn [length] in Hw.
      destruct q as [| p q]; [assert (fss = []) by (inversion Hq; reflexivity); subst fss; change (weight []) with 0 in Hle; lia |].
      specialize (Hlt ltac:(discriminate) HR1). lia.
Qed.

(** Attempts on one frame. *)
Lemma no_fin_cons id off d r : no_fin r -> no_fin (IStream id off false d :: r).
Proof. intros H a b f x [E | E]; [injection E; auto | eapply H, E]. Qed.

Definition attempts_result (steps : list (list rstream * N)) (id off : N) (fin : bool) (d : list N) (same : Prop) (log : list item) : Prop :=
  (same /\ exists d2, d = joined log ++ d2 /\ (fin = true \/ d2 <> []) /\ no_fin log) \/
  (~ same /\ log <> [] /\ joined log = d /\ fin_last fin log) \/
  (~ same /\ exists streams room d2, In (streams, room) steps /\ d = joined log ++ d2 /\ no_fin log /\
     not_needed streams id (off + blen (joined log)) (off + blen d) fin) \/
  (~ same /\ log = [] /\ d = [] /\ exists streams room, In (streams, room) steps /\ room < 18).

Lemma attempts_spec bytes frame prio b0 l id off fin data rest steps :
  skipn (N.to_nat frame) bytes = b0 :: l -> bytes_ok (b0 :: l) ->
  parse_stream b0 l = Some ((id, off, fin, data), rest) -> off + blen data < two62 ->
  forall sent index, sent = index - (frame + (blen (b0 :: l) - blen rest - blen data)) -> (sent = 0 \/ sent < blen data) ->
  (data = [] -> fin = true) ->
  exists outs p', attempts (mk_lost bytes frame index prio) steps = Some (outs, p') /\
    Forall (fun '(room, b, i) => readable room b (frames_of i)) outs /\
    tiles id (off + sent) (log_of outs) /\
    attempts_result steps id (off + sent) fin (skipn (N.to_nat sent) data) (lp_frame p' = frame) (log_of outs).
Proof.
  intros Hs Hok Hp Ho. induction steps as [| [streams room] r IH]; intros sent index Hsent Hlt Hfin.
  { exists [], (mk_lost bytes frame index prio). split; [reflexivity |]. split; [constructor |]. split; [exact I |].
    left. split; [reflexivity |]. exists (skipn (N.to_nat sent) data). split; [reflexivity |].
    split; [| intros ? ? ? ? []]. destruct data as [| x y] eqn:Ed; [left; auto | right].
    intro X. apply (f_equal blen) in X. rewrite skipn_blen in X. change (blen []) with 0 in X. rewrite Varint_proofs.blen_cons in *. lia. }
  assert (Hbl : frame < frame + (blen (b0 :: l) - blen rest) /\ blen data <= blen (b0 :: l) - blen rest).
  { inversion Hok as [| x y X1 X2]; subst x y. destruct (parse_shape _ _ _ _ _ _ _ X2 Hp) as (_ & _ & h2 & Hl2).
    assert (blen l = blen h2 + blen data + blen rest) by (rewrite Hl2, !Varint_proofs.blen_app; lia).
    rewrite Varint_proofs.blen_cons. lia. }
  destruct (copy_frame_spec streams (mk_lost bytes frame index prio) room b0 l id off fin data rest sent) as (b & its & p1 & E & Out);
    cbn [lp_bytes lp_frame lp_index]; try assumption.
  cbn [lp_bytes lp_frame lp_index lp_prio] in *. cbn [attempts]. rewrite E.
  set (e := frame + (blen (b0 :: l) - blen rest)) in *.
  set (d := skipn (N.to_nat sent) data) in *.
  assert (Bd : blen d = blen data - sent) by apply skipn_blen.
  assert (Done : forall its, exists outs p', (if lp_frame (mk_lost bytes e e prio) =? lp_frame (mk_lost bytes frame index prio)
      then match attempts (mk_lost bytes e e prio) r with Some (outs, p'') => Some ((room, b, its) :: outs, p'') | None => None end
      else Some ([(room, b, its)], mk_lost bytes e e prio)) = Some (outs, p') /\ outs = [(room, b, its)] /\ lp_frame p' <> frame).
  { clear IH. intro its0. cbn [lp_frame]. destruct (N.eqb_spec e frame); [lia |]. eexists _, _. split; [reflexivity |]. split; [reflexivity |]. cbn [lp_frame]. lia. }
  destruct Out as [(-> & -> & Hnn & ->) | [(-> & -> & Hr & Hr2 & ->) | (k & f & Hits & Hne & Hbo & Hrd & Hc)]].
  all: cbn [lp_bytes lp_prio lp_frame lp_index] in *.
  - destruct (Done []) as (outs & p' & E2 & -> & Hne). cbn [lp_frame] in E2 |- *. rewrite E2. eexists _, _. split; [reflexivity |].
    split; [constructor; [apply readable_nil | constructor] |]. split; [exact I |]. right. right. left. split; [exact Hne |].
    exists streams, room, d. split; [left; reflexivity |]. split; [reflexivity |]. split; [intros ? ? ? ? [] |].
    cbn [joined log_of concat map snd app]. change (blen []) with 0. rewrite N.add_0_r. exact Hnn.
  - destruct (N.eqb_spec (blen d) 0) as [Ez | Ez].
    + destruct (Done []) as (outs & p' & E2 & -> & Hne). cbn [lp_frame] in E2 |- *. rewrite E2. eexists _, _. split; [reflexivity |].
      split; [constructor; [apply readable_nil | constructor] |]. split; [exact I |]. right. right. right. split; [exact Hne |].
      split; [reflexivity |]. split; [apply blen_zero, Ez |]. exists streams, room. split; [left; reflexivity |]. apply Hr2, Ez.
    + cbn [lp_frame]. rewrite N.eqb_refl. destruct (IH sent index Hsent Hlt Hfin) as (outs & p' & E2 & Ho2 & Ht & Res).
      rewrite E2. eexists _, _. split; [reflexivity |]. split; [constructor; [apply readable_nil | exact Ho2] |].
      unfold log_of. cbn [map snd concat app]. fold (log_of outs). split; [exact Ht |].
      destruct Res as [R | [R | [(R1 & st & ro & d2 & R2 & R3) | (R1 & R2 & R3 & st & ro & R4 & R5)]]]; [left; exact R | right; left; exact R | |].
      * right. right. left. split; [exact R1 |]. exists st, ro, d2. split; [right; exact R2 | exact R3].
      * right. right. right. split; [exact R1 |]. split; [exact R2 |]. split; [exact R3 |]. exists st, ro. split; [right; exact R4 | exact R5].
  - destruct Hc as [(-> & -> & ->) | (Hk & -> & ->)].
    + cbn [lp_bytes lp_prio lp_frame lp_index] in *. destruct (Done its) as (outs & p' & E2 & -> & Hne2). cbn [lp_frame] in E2 |- *. rewrite E2. eexists _, _. split; [reflexivity |].
      split; [constructor; [exact Hrd | constructor] |]. unfold log_of. cbn [map snd concat]. rewrite app_nil_r, Hits, firstn_all_blen.
      split; [repeat split |]. right. left. split; [exact Hne2 |]. split; [discriminate |]. cbn [joined fin_last]. rewrite app_nil_r. auto.
    + cbn [lp_bytes lp_prio lp_frame lp_index] in *. rewrite N.eqb_refl.
      destruct (IH (sent + k) (e - blen d + k)) as (outs & p' & E2 & Ho2 & Ht & Res); [unfold e; lia | lia | exact Hfin |].
      rewrite E2. eexists _, _. split; [reflexivity |]. split; [constructor; [exact Hrd | exact Ho2] |].
      unfold log_of. cbn [map snd concat]. fold (log_of outs). rewrite Hits. unfold attempts_result. cbn [app tiles joined fin_last].
      assert (Bf : blen (firstn (N.to_nat k) d) = k) by (apply firstn_blen; lia).
      assert (Ed : skipn (N.to_nat (sent + k)) data = skipn (N.to_nat k) d).
      { unfold d. rewrite skipn_add, N2Nat.inj_add. reflexivity. }
      rewrite Ed in Res. rewrite Bf, <- N.add_assoc. split; [auto |].
      assert (Bs : blen (skipn (N.to_nat k) d) = blen d - k) by apply skipn_blen.
      destruct Res as [(R1 & d2 & R2 & R3 & R4) | [(R1 & R2 & R3 & R4) | [(R1 & st & ro & d2 & R2 & R3 & R4 & R5) | (R1 & R2 & R3 & st & ro & R4 & R5)]]].
      * left. split; [exact R1 |]. exists d2. rewrite <- app_assoc, <- R2, firstn_skipn. split; [reflexivity |]. split; [exact R3 |].
        apply no_fin_cons, R4.
      * right. left. split; [exact R1 |]. split; [discriminate |]. rewrite R3, firstn_skipn. split; [reflexivity |].
        destruct (log_of outs); [contradiction | auto].
      * right. right. left. split; [exact R1 |]. exists st, ro, d2. split; [right; exact R2 |].
        rewrite <- app_assoc, <- R3, firstn_skipn. split; [reflexivity |]. split; [apply no_fin_cons, R4 |].
        rewrite Varint_proofs.blen_app, Bf. rewrite Bs in R5. replace (off + sent + (k + blen (joined (log_of outs)))) with (off + (sent + k) + blen (joined (log_of outs))) by lia.
        replace (off + sent + blen d) with (off + (sent + k) + (blen d - k)) by lia. exact R5.
      * exfalso. rewrite R3 in Bs. change (blen []) with 0 in Bs. lia.
Qed.

Lemma pieces p id off fin d fs steps : waiting p ((id, off, fin, d) :: fs) -> bytes_ok (lp_bytes p) -> off + blen d < two62 ->
  (d = [] -> fin = true) -> (d <> [] \/ Forall (fun '(_, room) => 18 <= room) steps) ->
  exists outs p', attempts p steps = Some (outs, p') /\
    Forall (fun '(room, b, i) => readable room b (frames_of i)) outs /\
    tiles id off (log_of outs) /\
    ((lp_frame p' = lp_frame p /\ exists d2, d = joined (log_of outs) ++ d2 /\ (fin = true \/ d2 <> []) /\ no_fin (log_of outs)) \/
     (lp_frame p' <> lp_frame p /\ log_of outs <> [] /\ joined (log_of outs) = d /\ fin_last fin (log_of outs)) \/
     (lp_frame p' <> lp_frame p /\ exists streams room d2, In (streams, room) steps /\ d = joined (log_of outs) ++ d2 /\
        no_fin (log_of outs) /\
        not_needed streams id (off + blen (joined (log_of outs))) (off + blen d) fin)).
Proof.
  intros Hw Hok Ho Hfin Hroom.
  remember ((id, off, fin, d) :: fs) as ffs eqn:Hfs.
  destruct Hw as [bytes frame index prio b0 l id0 off0 fin0 data rest fs0 sent Hs Hty Hp Hps Hsent Hlt].
  injection Hfs as -> <- -> <- ->. cbn [lp_bytes lp_frame] in *.
  assert (Bd : blen (skipn (N.to_nat sent) data) = blen data - sent) by apply skipn_blen.
  assert (Hok0 : bytes_ok (b0 :: l)).
  { rewrite <- (firstn_skipn (N.to_nat frame) bytes) in Hok. apply Forall_app in Hok. rewrite Hs in Hok. tauto. }
  destruct (attempts_spec bytes frame prio b0 l id off0 fin data rest steps Hs Hok0 Hp ltac:(lia) sent index Hsent Hlt)
    as (outs & p' & E & H3 & H4 & H5).
  { intro X. apply Hfin. apply blen_zero. rewrite Bd, X. reflexivity. }
  exists outs, p'. split; [exact E |]. split; [exact H3 |]. split; [exact H4 |].
  destruct H5 as [R | [R | [R | (R1 & R2 & R3 & st & ro & R4 & R5)]]]; auto.
  exfalso. destruct Hroom as [Hr | Hr]; [contradiction |]. rewrite Forall_forall in Hr. specialize (Hr _ R4). cbv beta iota in Hr. lia.
Qed.
