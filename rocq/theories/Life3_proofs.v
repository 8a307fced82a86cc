(** Proofs about the end of connections: callbacks, failures of the handshake, and
    the reason given. *)
From Verif Require Import Base Tac Life_model Life_spec Life_proofs.

Definition gone (s : cstate) : bool := match s with Disconnected => true | _ => false end.
Lemma gone_iff s : gone s = true <-> s = Disconnected.
Proof. destruct s; cbn; split; intros; try discriminate; reflexivity. Qed.

(** One frame that is not a close frame. *)
Lemma frame_plain x ep f now : is_close_frame f = false ->
  match decode_frame x ep f now with
  | (x', o, _) => o = [] /\ gone (li_st x') = gone (li_st x) /\ (down (li_st x) = true -> down (li_st x') = true)
  end.
Proof.
  destruct x as [cl st er ae fr_ re k1 k2 hs ak pr rc se stt ti sm rm id].
  destruct f as [code | code | e t | [code |] | | | b]; try discriminate; intros _;
    destruct ep, st; try destruct cl; repeat split; intros; try discriminate; reflexivity.
Qed.
Lemma list_plain ep now l : forall x, count is_close_frame l = 0 ->
  match decode_list x ep l now with
  | (x', o, _) => o = [] /\ gone (li_st x') = gone (li_st x) /\ (down (li_st x) = true -> down (li_st x') = true)
  end.
Proof.
  induction l as [| f r IH]; intros x C.
  - cbn [decode_list]. repeat split. trivial.
  - rewrite count_cons in C. destruct (is_close_frame f) eqn:EF; [lia |].
    cbn [decode_list]. pose proof (frame_plain x ep f now EF) as H.
    destruct (decode_frame x ep f now) as [[x1 o1] ok]. destruct H as [-> [G D]].
    destruct ok; [| repeat split; assumption].
    specialize (IH x1). destruct (decode_list x1 ep r now) as [[x2 o2] ok2].
    destruct IH as [-> [G2 D2]]; [lia |]. repeat split; [congruence | auto].
Qed.

(** What an event that is heard can call. *)
Definition calls (x x' : life) (o : list lout) : Prop :=
  if gone (li_st x) then count is_cb_close o = 0 /\ count is_cb_app o = 0 /\ li_st x' = Disconnected
  else count is_cb_close o + count is_cb_app o <= 1 /\
    (count is_cb_close o = 1 -> li_st x' = Disconnected) /\
    (count is_cb_app o = 1 -> down (li_st x') = true /\ down (li_st x) = false) /\
    (li_st x' = Disconnected -> count is_cb_close o + count is_cb_app o = 1).
(** The same inside a packet: the state may already be changed by the application. *)
Definition calls0 (x x' : life) (o : list lout) : Prop :=
  count is_cb_close o + count is_cb_app o <= 1 /\
  (count is_cb_close o = 1 -> li_st x' = Disconnected) /\
  (count is_cb_app o = 1 -> down (li_st x') = true) /\
  (li_st x' = Disconnected -> gone (li_st x) = false -> count is_cb_close o + count is_cb_app o = 1).
Lemma frame_calls x ep f now : gone (li_st x) = false ->
  match decode_frame x ep f now with (x', o, _) => calls0 x x' o end.
Proof.
  destruct x as [cl st er ae fr_ re k1 k2 hs ak pr rc se stt ti sm rm id].
  intros G. destruct f as [code | code | e t | [code |] | | | b];
    destruct ep, st; try discriminate; try destruct cl; try destruct k1;
    (split; [| split; [| split]]); vm_compute; intros; try discriminate; reflexivity.
Qed.
Lemma calls0_trans_l x x1 x2 o1 : calls0 x x1 o1 -> gone (li_st x2) = gone (li_st x1) ->
  (down (li_st x1) = true -> down (li_st x2) = true) -> calls0 x x2 o1.
Proof.
  intros [A [B [C D]]] G K. split; [exact A |]. split; [| split].
  - intros H. apply gone_iff. rewrite G. apply gone_iff. exact (B H).
  - intros H. exact (K (C H)).
  - intros H1 H2. apply D; [| exact H2]. apply gone_iff. rewrite <- G. apply gone_iff. exact H1.
Qed.
Lemma list_calls ep now l : forall x, gone (li_st x) = false -> count is_close_frame l <= 1 ->
  match decode_list x ep l now with (x', o, _) => calls0 x x' o end.
Proof.
  induction l as [| f r IH]; intros x G C.
  - cbn [decode_list]. unfold calls0. rewrite !count_nil. repeat split; intros; try lia.
    exfalso. apply gone_iff in H. congruence.
  - rewrite count_cons in C. cbn [decode_list]. pose proof (frame_calls x ep f now G) as H.
    destruct (is_close_frame f) eqn:EF.
    + destruct (decode_frame x ep f now) as [[x1 o1] ok]. destruct ok; [| exact H].
      pose proof (list_plain ep now r x1 ltac:(lia)) as P.
      destruct (decode_list x1 ep r now) as [[x2 o2] ok2]. destruct P as [-> [G2 D2]]. rewrite app_nil_r.
      exact (calls0_trans_l x x1 x2 o1 H G2 D2).
    + pose proof (frame_plain x ep f now EF) as P. destruct (decode_frame x ep f now) as [[x1 o1] ok].
      destruct P as [-> [G1 D1]]. destruct ok; [| exact H].
      specialize (IH x1 ltac:(congruence) ltac:(lia)). destruct (decode_list x1 ep r now) as [[x2 o2] ok2].
      cbn [app]. destruct IH as [A [B [C2 D]]]. split; [exact A |]. split; [exact B |]. split; [exact C2 |].
      intros H1 _. apply D; [exact H1 | congruence].
Qed.
Lemma frames_calls ep now l x : gone (li_st x) = false -> count is_close_frame l <= 1 ->
  match decode_frames x ep l now with (x', o, _) => calls0 x x' o end.
Proof.
  intros G C. unfold decode_frames. pose proof (list_calls ep now l x G C) as H.
  destruct (decode_list x ep l now) as [[x1 o] ok]. cbv zeta.
  destruct (ok && existsb eliciting l); cbn [andb]; [| exact H]. destruct ep; exact H.
Qed.
Lemma tls_gone x t : gone (li_st (tls_process x t)) = gone (li_st x) /\
  (down (li_st x) = true -> down (li_st (tls_process x t)) = true).
Proof.
  destruct x as [cl st er ae fr_ re k1 k2 hs ak pr rc se stt ti sm rm id].
  destruct t, st; split; intros; try discriminate; reflexivity.
Qed.
Lemma calls0_calls x x' o : down (li_st x) = false -> calls0 x x' o -> calls x x' o.
Proof.
  intros D [A [B [C E]]]. assert (G : gone (li_st x) = false) by (destruct (li_st x); try discriminate; reflexivity).
  unfold calls. rewrite G. repeat split; auto.
Qed.
Lemma calls0_st x x' y o : li_st y = li_st x' -> calls0 x x' o -> calls0 x y o.
Proof. unfold calls0. intros ->. trivial. Qed.
Lemma calls0_from x y x' o : gone (li_st y) = gone (li_st x) -> calls0 y x' o -> calls0 x x' o.
Proof. unfold calls0. intros ->. trivial. Qed.

(** Any event. *)
Lemma calls_down c x e : down (li_st x) = true ->
  calls x (fst (fst (lstep c x e))) (snd (fst (lstep c x e))).
Proof.
  destruct x as [cl st er ae fr_ re k1 k2 hs ak pr rc se stt ti sm rm id].
  destruct st; try discriminate; intros _; events e; cbv [calls gone]; open_step; splits;
    repeat match goal with |- _ /\ _ => split end; vm_compute; intros; try discriminate; reflexivity.
Qed.
Lemma incoming_calls x p one now : down (li_st x) = false -> count is_close_frame (pk_frames p) <= 1 ->
  match incoming x p one now with (x', o) => calls0 x x' o end.
Proof.
  intros D C. assert (G : gone (li_st x) = false) by (destruct (li_st x); try discriminate; reflexivity).
  assert (Z : calls0 x x []).
  { unfold calls0. rewrite !count_nil. repeat split; intros; try lia. exfalso. apply gone_iff in H. congruence. }
  assert (FT : forall y ep, gone (li_st y) = false ->
    match decode_frames y ep (pk_frames p) now with
    | (x1, o, ok) => calls0 y x1 o /\ calls0 y (tls_process x1 (pk_tls p)) o end).
  { intros y ep Gy. pose proof (frames_calls ep now (pk_frames p) y Gy C) as H.
    destruct (decode_frames y ep (pk_frames p) now) as [[x1 o] ok]. split; [exact H |].
    destruct (tls_gone x1 (pk_tls p)) as [T1 T2]. exact (calls0_trans_l _ _ _ _ H T1 T2). }
  assert (S : match
    match pk_ep p with
    | EInitial => if li_client x then server_initial x p now else client_initial x p now
    | EHandshake => if li_client x then server_handshake x p now else client_handshake x p now
    | EZero => incoming_0rtt x p one now
    | EOne => incoming_1rtt x p now
    end with (x1, o, _) => calls0 x x1 o end).
  { destruct (pk_ep p).
    - destruct (li_client x).
      + unfold server_initial.
        set (y := match li_st x with ClientInitSent | ClientInitResent => set_st x ClientHandshakeStart | _ => x end).
        assert (Gy : gone (li_st y) = gone (li_st x)) by (unfold y; destruct (li_st x) eqn:E; cbn; rewrite ?E; reflexivity).
        assert (Zy : calls0 x y []).
        { unfold calls0. rewrite !count_nil. repeat split; intros; try lia. exfalso. apply gone_iff in H. congruence. }
        destruct (num (li_st y) <=? 7).
        * specialize (FT y EInitial ltac:(congruence)). destruct (decode_frames y EInitial (pk_frames p) now) as [[x1 o] ok].
          destruct FT as [F1 F2]. destruct ok; apply (calls0_from x y _ _ Gy); assumption.
        * destruct (num (li_st y) <? 14); exact Zy.
      + unfold client_initial. destruct (num (li_st x) <? 12).
        * specialize (FT x EInitial G). destruct (decode_frames x EInitial (pk_frames p) now) as [[x1 o] ok].
          destruct FT as [F1 F2]. destruct ok; assumption.
        * destruct (num (li_st x) <? 14); exact Z.
    - unfold incoming_0rtt. destruct (match li_st x with ServerAlmostReady | ServerFalseStart => true | Ready => negb one | _ => false end).
      + specialize (FT x EZero G). destruct (decode_frames x EZero (pk_frames p) now) as [[x1 o] ok].
        destruct FT as [F1 F2]. destruct ok; assumption.
      + exact Z.
    - destruct (li_client x).
      + unfold server_handshake. destruct (num (li_st x) <? 14); [| exact Z].
        specialize (FT x EHandshake G). destruct (decode_frames x EHandshake (pk_frames p) now) as [[x1 o] ok].
        destruct FT as [F1 F2]. destruct (ok && _); assumption.
      + unfold client_handshake. destruct (num (li_st x) <? 12); [| destruct (num (li_st x) <=? 14); exact Z].
        specialize (FT x EHandshake G). destruct (decode_frames x EHandshake (pk_frames p) now) as [[x1 o] ok].
        destruct FT as [F1 F2]. destruct ok; [| assumption]. cbv zeta.
        destruct ((num (li_st (tls_process x1 (pk_tls p))) <? 14) && pk_complete p) eqn:ER; [| assumption].
        apply andb_prop in ER. destruct ER as [ER _]. destruct F2 as [A [B [C2 E]]].
        assert (NG : li_st (tls_process x1 (pk_tls p)) <> Disconnected) by (intros Q; rewrite Q in ER; discriminate).
        assert (ND : down (li_st (tls_process x1 (pk_tls p))) <> true)
          by (intros Q; destruct (li_st (tls_process x1 (pk_tls p))); discriminate).
        split; [exact A |]. split; [intros H; exfalso; exact (NG (B H)) |].
        split; [intros H; exfalso; exact (ND (C2 H)) |]. intros H; discriminate H.
    - unfold incoming_1rtt. destruct (_ || _); [exact Z |].
      destruct (15 <=? num (li_st x)) eqn:EN.
      + destruct (li_st x); discriminate.
      + specialize (FT x EOne G). destruct (decode_frames x EOne (pk_frames p) now) as [[x1 o] ok].
        destruct FT as [F1 F2]. destruct ok; assumption. }
  unfold incoming.
  destruct (match pk_ep p with
    | EInitial => if li_client x then server_initial x p now else client_initial x p now
    | EHandshake => if li_client x then server_handshake x p now else client_handshake x p now
    | EZero => incoming_0rtt x p one now
    | EOne => incoming_1rtt x p now
    end) as [[x1 o] ok]. cbv zeta.
  refine (calls0_st x x1 _ o _ S). destruct (ok && _), (pk_ep p); try destruct ok; reflexivity.
Qed.
Lemma calls_step c x e : one_close e -> calls x (fst (fst (lstep c x e))) (snd (fst (lstep c x e))).
Proof.
  intros O. destruct (down (li_st x)) eqn:D; [exact (calls_down c x e D) |].
  assert (P : forall p one now, e = LPacket p one now \/ (forall p one now, e <> LPacket p one now) -> True) by trivial.
  clear P. destruct e as [a now|e f|p one now| | | |k1' k2'|tt_ ss_ mm_ ii_|g rto others|g|].
  3: { apply calls0_calls; [exact D |]. cbn [lstep fst snd one_close] in *.
       pose proof (incoming_calls x p one now D O) as H. destruct (incoming x p one now) as [x' o]. exact H. }
  all: clear O; destruct x as [cl st er ae fr_ re k1 k2 hs ak pr rc se stt ti sm rm id];
    destruct st; try discriminate; clear D; try destruct a; cbv [calls gone]; open_step; splits;
    repeat match goal with |- _ /\ _ => split end; vm_compute; intros; try discriminate; reflexivity.
Qed.

Lemma later_gone s : later Disconnected s = true -> s = Disconnected.
Proof. destruct s; try discriminate; reflexivity. Qed.
Lemma callbacks c l : forall x, Forall one_close l ->
  let x' := fst (lrun c x l) in let o := snd (lrun c x l) in
  (li_st x = Disconnected -> count is_cb_close o = 0 /\ count is_cb_app o = 0 /\ li_st x' = Disconnected) /\
  (down (li_st x) = true -> count is_cb_app o = 0) /\
  (li_st x <> Disconnected ->
    count is_cb_close o <= 1 /\ count is_cb_app o <= 1 /\
    (count is_cb_close o = 1 -> li_st x' = Disconnected) /\
    (li_st x' = Disconnected -> count is_cb_close o = 1 \/ count is_cb_app o = 1)).
Proof.
  induction l as [| e r IH]; intros x F.
  - cbn [lrun fst snd]. rewrite !count_nil. repeat split; intros; try lia; congruence.
  - inversion F as [| ? ? Fe Fr]; subst. rewrite lrun_cons. cbn [fst snd]. rewrite !count_app.
    pose proof (calls_step c x e Fe) as S. specialize (IH (fst (fst (lstep c x e))) Fr).
    destruct IH as [I1 [I2 I3]]. cbv zeta. unfold calls in S.
    pose proof (down_step c x e) as DS.
    set (x1 := fst (fst (lstep c x e))) in *. set (o1 := snd (fst (lstep c x e))) in *.
    set (x2 := fst (lrun c x1 r)) in *. set (o2 := snd (lrun c x1 r)) in *.
    destruct (gone (li_st x)) eqn:G.
    + apply gone_iff in G. destruct S as [S1 [S2 S3]]. destruct (I1 S3) as [J1 [J2 J3]].
      rewrite S1, S2, J1, J2. repeat split; intros; try assumption; congruence.
    + assert (NG : li_st x <> Disconnected) by (intros Q; rewrite Q in G; discriminate).
      destruct S as [S1 [S2 [S3 S4]]].
      split; [intros Q; contradiction |]. split.
      { intros D. pose proof (later_down _ _ (proj1 (DS D))) as D1. rewrite (I2 D1).
        destruct (N.eq_dec (count is_cb_app o1) 1) as [Q | Q]; [| lia].
        destruct (S3 Q) as [_ Q2]. congruence. }
      intros _. destruct (gone (li_st x1)) eqn:G1.
      * apply gone_iff in G1. destruct (I1 G1) as [J1 [J2 J3]]. rewrite J1, J2. specialize (S4 G1).
        repeat split; intros; try lia; try assumption.
      * assert (NG1 : li_st x1 <> Disconnected) by (intros Q; rewrite Q in G1; discriminate).
        destruct (I3 NG1) as [K1 [K2 [K3 K4]]].
        assert (Z : count is_cb_close o1 = 0).
        { destruct (N.eq_dec (count is_cb_close o1) 1) as [Q | Q]; [exfalso; exact (NG1 (S2 Q)) | lia]. }
        assert (Z2 : count is_cb_app o1 + count is_cb_app o2 <= 1).
        { destruct (N.eq_dec (count is_cb_app o1) 1) as [Q | Q]; [| lia].
          destruct (S3 Q) as [Q1 _]. rewrite (I2 Q1). lia. }
        rewrite Z. split; [lia |]. split; [exact Z2 |]. split; [intros Q; apply K3; lia |].
        intros Q. destruct (K4 Q) as [Q1 | Q1]; [left; lia | right; lia].
Qed.
