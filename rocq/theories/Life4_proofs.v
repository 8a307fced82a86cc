(** Proofs about the end of connections: failures of the handshake, and the reason
    given to the peer. *)
From Verif Require Import Base Tac Life_model Life_spec Life_proofs Life3_proofs.

(** The handshake failed, or the connection is being closed. *)
Definition over (s : cstate) : bool := down s || failed s.
(** Errors are recorded only when the connection ends. *)
Definition told (x x' : life) : Prop :=
  (over (li_st x) = true -> over (li_st x') = true) /\
  (over (li_st x) = false -> over (li_st x') = true \/ li_err x' = li_err x) /\
  (failed (li_st x) = true -> over (li_st x') = true) /\
  li_client x' = li_client x.
Lemma told_refl x : told x x.
Proof. unfold told, over. repeat split; intros; auto. rewrite H. apply orb_true_r. Qed.
Lemma told_over x : failed (li_st x) = true -> over (li_st x) = true.
Proof. unfold over. intros ->. apply orb_true_r. Qed.
Lemma told_trans x y z : told x y -> told y z -> told x z.
Proof.
  intros [A [B [C D]]] [A2 [B2 [C2 D2]]]. split; [auto |]. split; [| split; [auto | congruence]].
  intros O. destruct (over (li_st y)) eqn:E; [left; auto |].
  destruct (B O) as [Q | Q]; [discriminate |]. destruct (B2 eq_refl) as [R | R]; [left; exact R | right; congruence].
Qed.
Lemma frame_told x ep f now : match decode_frame x ep f now with (x', _, _) => told x x' end.
Proof.
  destruct x as [cl st er ae fr_ re k1 k2 hs ak pr rc se stt ti sm rm id].
  destruct f as [code | code | e t | [code |] | | | b];
    destruct ep, st; try destruct cl; try destruct k1; vm_compute; repeat split; intros; try discriminate; auto.
Qed.
Lemma list_told ep now l : forall x, match decode_list x ep l now with (x', _, _) => told x x' end.
Proof.
  induction l as [| f r IH]; intros x; cbn [decode_list]; [apply told_refl |].
  pose proof (frame_told x ep f now) as H. destruct (decode_frame x ep f now) as [[x1 o1] ok].
  destruct ok; [| exact H]. specialize (IH x1). destruct (decode_list x1 ep r now) as [[x2 o2] ok2].
  exact (told_trans _ _ _ H IH).
Qed.
Lemma frames_told x ep l now : match decode_frames x ep l now with (x', _, _) => told x x' end.
Proof.
  unfold decode_frames. pose proof (list_told ep now l x) as H. destruct (decode_list x ep l now) as [[x1 o] ok].
  cbv zeta. destruct (ok && existsb eliciting l); cbn [andb]; [| exact H]. destruct ep; exact H.
Qed.
Lemma tls_told x t : told x (tls_process x t).
Proof.
  destruct x as [cl st er ae fr_ re k1 k2 hs ak pr rc se stt ti sm rm id].
  destruct t, st; vm_compute; repeat split; intros; try discriminate; auto.
Qed.
(** In a Handshake packet, frames end the connection only by a close frame, unless they
    are refused. *)
Lemma frame_failed x f now : match decode_frame x EHandshake f now with
  | (x', _, ok) => ok = true -> failed (li_st x') = true -> failed (li_st x) = true end.
Proof.
  destruct x as [cl st er ae fr_ re k1 k2 hs ak pr rc se stt ti sm rm id].
  destruct f as [code | code | e t | [code |] | | | b]; destruct st; try destruct cl; try destruct k1; vm_compute; intros; congruence.
Qed.
Lemma list_failed now l : forall x, match decode_list x EHandshake l now with
  | (x', _, ok) => ok = true -> failed (li_st x') = true -> failed (li_st x) = true end.
Proof.
  induction l as [| f r IH]; intros x; cbn [decode_list]; [auto |].
  pose proof (frame_failed x f now) as H. destruct (decode_frame x EHandshake f now) as [[x1 o1] ok].
  destruct ok; [| discriminate]. specialize (IH x1). destruct (decode_list x1 EHandshake r now) as [[x2 o2] ok2]. auto.
Qed.
Lemma frames_failed x l now : match decode_frames x EHandshake l now with
  | (x', _, ok) => ok = true -> failed (li_st x') = true -> failed (li_st x) = true end.
Proof.
  unfold decode_frames. pose proof (list_failed now l x) as H. destruct (decode_list x EHandshake l now) as [[x1 o] ok].
  cbv zeta. destruct (ok && existsb eliciting l); cbn [andb]; exact H.
Qed.
Lemma tls_failed x t : failed (li_st (tls_process x t)) = true -> failed (li_st x) = true \/ exists e, t = TFail e.
Proof.
  destruct t as [| e | |]; [| right; exists e; reflexivity | |];
  destruct x as [cl st er ae fr_ re k1 k2 hs ak pr rc se stt ti sm rm id];
  destruct st; vm_compute; intros; try discriminate; left; reflexivity.
Qed.

Definition proper (x : life) (e : lev) : Prop :=
  completes e = true -> failed (li_st x) = false /\ tls_fails e = false.
Lemma incoming_told x p one now : li_client x = true \/ proper x (LPacket p one now) ->
  told x (fst (incoming x p one now)).
Proof.
  intros PR.
  assert (FT : forall y ep, 
    match decode_frames y ep (pk_frames p) now with
    | (x1, o, ok) => told y x1 /\ told y (tls_process x1 (pk_tls p)) end).
  { intros y ep. pose proof (frames_told y ep (pk_frames p) now) as H.
    destruct (decode_frames y ep (pk_frames p) now) as [[x1 o] ok]. split; [exact H |].
    exact (told_trans _ _ _ H (tls_told x1 (pk_tls p))). }
  assert (S : match
    match pk_ep p with
    | EInitial => if li_client x then server_initial x p now else client_initial x p now
    | EHandshake => if li_client x then server_handshake x p now else client_handshake x p now
    | EZero => incoming_0rtt x p one now
    | EOne => incoming_1rtt x p now
    end with (x1, o, _) => told x x1 end).
  { destruct (pk_ep p).
    - destruct (li_client x) eqn:CL.
      + unfold server_initial.
        set (y := match li_st x with ClientInitSent | ClientInitResent => set_st x ClientHandshakeStart | _ => x end).
        assert (Zy : told x y).
        { unfold y. destruct (li_st x) eqn:E; try apply told_refl; unfold told; rewrite E; cbn; repeat split; intros; try discriminate; auto. }
        destruct (num (li_st y) <=? 7).
        * specialize (FT y EInitial). destruct (decode_frames y EInitial (pk_frames p) now) as [[x1 o] ok].
          destruct FT as [F1 F2]. destruct ok; apply (told_trans x y _ Zy); assumption.
        * destruct (num (li_st y) <? 14); exact Zy.
      + unfold client_initial. destruct (num (li_st x) <? 12).
        * specialize (FT x EInitial). destruct (decode_frames x EInitial (pk_frames p) now) as [[x1 o] ok].
          destruct FT as [F1 F2]. destruct ok; assumption.
        * destruct (num (li_st x) <? 14); apply told_refl.
    - unfold incoming_0rtt. destruct (match li_st x with ServerAlmostReady | ServerFalseStart => true | Ready => negb one | _ => false end).
      + specialize (FT x EZero). destruct (decode_frames x EZero (pk_frames p) now) as [[x1 o] ok].
        destruct FT as [F1 F2]. destruct ok; assumption.
      + apply told_refl.
    - destruct (li_client x) eqn:CL.
      + unfold server_handshake. destruct (num (li_st x) <? 14); [| apply told_refl].
        specialize (FT x EHandshake). destruct (decode_frames x EHandshake (pk_frames p) now) as [[x1 o] ok].
        destruct FT as [F1 F2]. destruct (ok && _); assumption.
      + destruct PR as [PR | PR]; [discriminate |].
        unfold client_handshake. destruct (num (li_st x) <? 12); [| destruct (num (li_st x) <=? 14); apply told_refl].
        pose proof (frames_failed x (pk_frames p) now) as FF.
        specialize (FT x EHandshake). destruct (decode_frames x EHandshake (pk_frames p) now) as [[x1 o] ok].
        destruct FT as [F1 F2]. destruct ok; [| assumption]. cbv zeta.
        destruct ((num (li_st (tls_process x1 (pk_tls p))) <? 14) && pk_complete p) eqn:ER; [| assumption].
        apply andb_prop in ER. destruct ER as [ER EC]. destruct (PR EC) as [P1 P2].
        set (y := tls_process x1 (pk_tls p)) in *.
        assert (NO : over (li_st y) = false).
        { unfold over. destruct (failed (li_st y)) eqn:EF.
          - exfalso. destruct (tls_failed _ _ EF) as [Q | [e Q]].
            + specialize (FF eq_refl Q). congruence.
            + cbn [tls_fails] in P2. rewrite Q in P2. discriminate.
          - destruct (li_st y); try reflexivity; discriminate. }
        destruct F2 as [A [B [C D]]].
        assert (NX : over (li_st x) = false).
        { destruct (over (li_st x)) eqn:E; [| reflexivity]. specialize (A eq_refl). congruence. }
        split; [intros Q; congruence |]. split; [| split; [intros Q; congruence | exact D]].
        intros _. right. destruct (B NX) as [Q | Q]; [congruence | exact Q].
    - unfold incoming_1rtt. destruct (_ || _); [apply told_refl |].
      destruct (15 <=? num (li_st x)) eqn:EN.
      + destruct (li_st x) eqn:ES; try discriminate; try apply told_refl;
          destruct (closing_frames (pk_frames p)) as [[|]|]; try apply told_refl; try destruct (li_client x) eqn:CL;
          unfold disconnect; rewrite ?ES; cbv beta iota; unfold told; cbn [li_st li_err li_client set_st set_ack]; rewrite ?ES; 
          repeat split; intros; try discriminate; auto.
      + specialize (FT x EOne). destruct (decode_frames x EOne (pk_frames p) now) as [[x1 o] ok].
        destruct FT as [F1 F2]. destruct ok; assumption. }
  unfold incoming.
  destruct (match pk_ep p with
    | EInitial => if li_client x then server_initial x p now else client_initial x p now
    | EHandshake => if li_client x then server_handshake x p now else client_handshake x p now
    | EZero => incoming_0rtt x p one now
    | EOne => incoming_1rtt x p now
    end) as [[x1 o] ok]. cbv zeta. cbn [fst].
  destruct (ok && _), (pk_ep p); try destruct ok; exact S.
Qed.
Lemma step_told c x e : li_client x = true \/ proper x e -> told x (fst (fst (lstep c x e))).
Proof.
  intros PR. destruct e as [a now|e f|p one now| | | |k1' k2'|tt_ ss_ mm_ ii_|g rto others|g|].
  3: { cbn [lstep fst]. exact (incoming_told x p one now PR). }
  all: clear PR; destruct x as [cl st er ae fr_ re k1 k2 hs ak pr rc se stt ti sm rm id];
    destruct st; try destruct a; cbv [told]; open_step; splits;
    repeat match goal with |- _ /\ _ => split end; vm_compute; intros; try discriminate; auto.
Qed.
Lemma no_way_back c l : forall x, li_client x = true \/ no_revival c x l -> told x (fst (lrun c x l)).
Proof.
  induction l as [| e r IH]; intros x H; [apply told_refl |].
  rewrite lrun_cons. cbn [fst].
  assert (S : told x (fst (fst (lstep c x e)))).
  { apply step_told. destruct H as [H | [H _]]; [left; exact H | right; exact H]. }
  refine (told_trans _ _ _ S (IH _ _)).
  destruct H as [H | [_ H]]; [left; rewrite <- H; apply S | right; exact H].
Qed.

(** A failed handshake. *)
Definition same (x x' : life) : Prop := li_st x' = li_st x /\ li_err x' = li_err x /\ li_aerr x' = li_aerr x.
Definition stuck (s : cstate) : bool := failed s || gone s.
Lemma frame_same x ep f now : match ep with EInitial | EHandshake => True | _ => False end ->
  stuck (li_st x) = true -> is_close_frame f = false ->
  match decode_frame x ep f now with (x', o, _) => same x x' /\ o = [] end.
Proof.
  destruct x as [cl st er ae fr_ re k1 k2 hs ak pr rc se stt ti sm rm id].
  intros EP E. destruct ep; try contradiction; clear EP; destruct st; try discriminate E; clear E;
  destruct f as [code | code | e t | [code |] | | | b]; try discriminate; intros _; try destruct cl; repeat split.
Qed.
Lemma frame_closes x ep f now : match ep with EInitial | EHandshake => True | _ => False end ->
  failed (li_st x) = true -> is_close_frame f = true ->
  match decode_frame x ep f now with
  | (x', o, ok) => (li_st x' = Disconnected \/ same x x') /\ Forall (fun z => is_sent z = false) o end.
Proof.
  destruct x as [cl st er ae fr_ re k1 k2 hs ak pr rc se stt ti sm rm id].
  intros EP E. destruct ep; try contradiction; clear EP; destruct st; try discriminate E; clear E;
  destruct f as [code | code | e t | [code |] | | | b]; try discriminate; intros _; try destruct k1;
  (split; [first [left; reflexivity | right; repeat split] | cbn; repeat (constructor; try reflexivity)]).
Qed.
Lemma same_trans x y z : same x y -> same y z -> same x z.
Proof. intros [A [B C]] [A2 [B2 C2]]. repeat split; congruence. Qed.
Lemma same_refl x : same x x.
Proof. repeat split. Qed.
Lemma list_same ep now l : match ep with EInitial | EHandshake => True | _ => False end ->
  forall x, stuck (li_st x) = true -> count is_close_frame l = 0 ->
  match decode_list x ep l now with (x', o, _) => same x x' /\ o = [] end.
Proof.
  intros EP. induction l as [| f r IH]; intros x S C; cbn [decode_list]; [split; [apply same_refl | reflexivity] |].
  rewrite count_cons in C. destruct (is_close_frame f) eqn:EF; [lia |].
  pose proof (frame_same x ep f now EP S EF) as H. destruct (decode_frame x ep f now) as [[x1 o1] ok].
  destruct H as [H ->]. destruct ok; [| split; [exact H | reflexivity]].
  specialize (IH x1). destruct (decode_list x1 ep r now) as [[x2 o2] ok2].
  destruct IH as [H2 ->]; [rewrite (proj1 H); exact S | lia |]. split; [exact (same_trans _ _ _ H H2) | reflexivity].
Qed.
Lemma list_closes ep now l : match ep with EInitial | EHandshake => True | _ => False end ->
  forall x, failed (li_st x) = true -> count is_close_frame l <= 1 ->
  match decode_list x ep l now with
  | (x', o, ok) => (li_st x' = Disconnected \/ same x x') /\ Forall (fun z => is_sent z = false) o end.
Proof.
  intros EP. induction l as [| f r IH]; intros x S C; cbn [decode_list]; [split; [right; apply same_refl | constructor] |].
  rewrite count_cons in C. destruct (is_close_frame f) eqn:EF.
  - pose proof (frame_closes x ep f now EP S EF) as H. destruct (decode_frame x ep f now) as [[x1 o1] ok].
    destruct ok; [| exact H]. destruct H as [H HO].
    assert (S1 : stuck (li_st x1) = true).
    { destruct H as [H | H]; [rewrite H; reflexivity | rewrite (proj1 H); unfold stuck; rewrite S; reflexivity]. }
    pose proof (list_same ep now r EP x1 S1 ltac:(lia)) as H2. destruct (decode_list x1 ep r now) as [[x2 o2] ok2].
    destruct H2 as [H2 ->]. rewrite app_nil_r. split; [| exact HO].
    destruct H as [H | H]; [left; rewrite (proj1 H2); exact H | right; exact (same_trans _ _ _ H H2)].
  - assert (S0 : stuck (li_st x) = true) by (unfold stuck; rewrite S; reflexivity).
    pose proof (frame_same x ep f now EP S0 EF) as H. destruct (decode_frame x ep f now) as [[x1 o1] ok].
    destruct H as [H ->]. destruct ok; [| split; [right; exact H | constructor]].
    specialize (IH x1). destruct (decode_list x1 ep r now) as [[x2 o2] ok2].
    destruct IH as [H2 HO]; [rewrite (proj1 H); exact S | lia |]. cbn [app]. split; [| exact HO].
    destruct H2 as [H2 | H2]; [left; exact H2 | right; exact (same_trans _ _ _ H H2)].
Qed.
Lemma frames_closes ep now l x : match ep with EInitial | EHandshake => True | _ => False end ->
  failed (li_st x) = true -> count is_close_frame l <= 1 ->
  match decode_frames x ep l now with
  | (x', o, ok) => (li_st x' = Disconnected \/ same x x') /\ Forall (fun z => is_sent z = false) o end.
Proof.
  intros EP S C. unfold decode_frames. pose proof (list_closes ep now l EP x S C) as H.
  destruct (decode_list x ep l now) as [[x1 o] ok]. cbv zeta.
  destruct (ok && existsb eliciting l); cbn [andb]; [| exact H]. destruct ep; exact H.
Qed.
Lemma tls_stuck x t : stuck (li_st x) = true -> same x (tls_process x t).
Proof.
  destruct x as [cl st er ae fr_ re k1 k2 hs ak pr rc se stt ti sm rm id].
  destruct st; try discriminate; intros _; destruct t; repeat split.
Qed.
Lemma incoming_failed x p one now : failed (li_st x) = true -> count is_close_frame (pk_frames p) <= 1 ->
  li_client x = true \/ proper x (LPacket p one now) ->
  (li_st (fst (incoming x p one now)) = Disconnected \/ same x (fst (incoming x p one now))) /\
  Forall (fun z => is_sent z = false) (snd (incoming x p one now)).
Proof.
  intros S C PR.
  assert (FT : forall ep, match ep with EInitial | EHandshake => True | _ => False end ->
    match decode_frames x ep (pk_frames p) now with
    | (x1, o, ok) => (li_st x1 = Disconnected \/ same x x1) /\
       (li_st (tls_process x1 (pk_tls p)) = Disconnected \/ same x (tls_process x1 (pk_tls p))) /\
       Forall (fun z => is_sent z = false) o end).
  { intros ep EP. pose proof (frames_closes ep now (pk_frames p) x EP S C) as H.
    destruct (decode_frames x ep (pk_frames p) now) as [[x1 o] ok]. destruct H as [H HO].
    split; [exact H |]. split; [| exact HO].
    assert (S1 : stuck (li_st x1) = true).
    { destruct H as [H | H]; [rewrite H; reflexivity | rewrite (proj1 H); unfold stuck; rewrite S; reflexivity]. }
    pose proof (tls_stuck x1 (pk_tls p) S1) as T.
    destruct H as [H | H]; [left; rewrite (proj1 T); exact H | right; exact (same_trans _ _ _ H T)]. }
  assert (Z : (li_st x = Disconnected \/ same x x) /\ Forall (fun z => is_sent z = false) (@nil lout)).
  { split; [right; apply same_refl | constructor]. }
  assert (R : match
    match pk_ep p with
    | EInitial => if li_client x then server_initial x p now else client_initial x p now
    | EHandshake => if li_client x then server_handshake x p now else client_handshake x p now
    | EZero => incoming_0rtt x p one now
    | EOne => incoming_1rtt x p now
    end with (x1, o, _) => (li_st x1 = Disconnected \/ same x x1) /\ Forall (fun z => is_sent z = false) o end).
  { destruct (pk_ep p).
    - destruct (li_client x) eqn:CL.
      + unfold server_initial. destruct (li_st x) eqn:ES; try discriminate S; rewrite ES; cbn [num]; nc; cbv beta iota;
          (split; [right; apply same_refl | constructor]).
      + unfold client_initial. specialize (FT EInitial I).
        destruct (decode_frames x EInitial (pk_frames p) now) as [[x1 o] ok]. destruct FT as [F1 [F2 F3]].
        destruct (num (li_st x) <? 12); [| destruct (num (li_st x) <? 14); exact Z].
        destruct ok; split; assumption.
    - unfold incoming_0rtt. destruct (li_st x) eqn:ES; try discriminate S; (split; [right; apply same_refl | constructor]).
    - destruct (li_client x) eqn:CL.
      + unfold server_handshake. specialize (FT EHandshake I).
        destruct (decode_frames x EHandshake (pk_frames p) now) as [[x1 o] ok]. destruct FT as [F1 [F2 F3]].
        destruct (num (li_st x) <? 14); [| exact Z]. destruct (ok && _); split; assumption.
      + destruct PR as [PR | PR]; [discriminate |].
        unfold client_handshake. specialize (FT EHandshake I).
        destruct (decode_frames x EHandshake (pk_frames p) now) as [[x1 o] ok]. destruct FT as [F1 [F2 F3]].
        destruct (num (li_st x) <? 12); [| destruct (num (li_st x) <=? 14); exact Z].
        destruct ok; [| split; assumption]. cbv zeta.
        destruct (pk_complete p) eqn:EC.
        * exfalso. destruct (PR EC) as [Q _]. congruence.
        * rewrite andb_false_r. split; assumption.
    - unfold incoming_1rtt. destruct (li_st x) eqn:ES; try discriminate S; cbn [num]; nc; cbn [orb]; (split; [right; apply same_refl | constructor]). }
  unfold incoming.
  destruct (match pk_ep p with
    | EInitial => if li_client x then server_initial x p now else client_initial x p now
    | EHandshake => if li_client x then server_handshake x p now else client_handshake x p now
    | EZero => incoming_0rtt x p one now
    | EOne => incoming_1rtt x p now
    end) as [[x1 o] ok]. cbv zeta. cbn [fst snd].
  destruct (ok && _), (pk_ep p); try destruct ok; exact R.
Qed.

Definition pot_failed (x : life) : N := match li_st x with HandshakeFailure => 2 | HandshakeFailureResend => 1 | _ => 0 end.
Definition failing (err aerr : N) (x : life) : Prop :=
  (failed (li_st x) = true /\ li_err x = err /\ li_aerr x = aerr) \/ li_st x = Disconnected.
Lemma failing_step c x e err aerr : failing err aerr x -> called e = false -> one_close e ->
  li_client x = true \/ proper x e ->
  failing err aerr (fst (fst (lstep c x e))) /\
  Forall (tells err aerr) (snd (fst (lstep c x e))) /\
  count is_sent (snd (fst (lstep c x e))) + pot_failed (fst (fst (lstep c x e))) <= pot_failed x.
Proof.
  intros [[F [E1 E2]] | G] CA O PR.
  - destruct e as [a now|e f|p one now| | | |k1' k2'|tt_ ss_ mm_ ii_|g rto others|g|]; [discriminate CA | | |..].
    2: { cbn [lstep fst snd one_close] in *. destruct (incoming_failed x p one now F O PR) as [H HO].
         assert (CZ : count is_sent (snd (incoming x p one now)) = 0).
         { unfold count. induction HO as [| z zs Hz HO IH]; [reflexivity |]. cbn [filter]. rewrite Hz. exact IH. }
         rewrite CZ. split; [| split].
         - destruct H as [H | [H1 [H2 H3]]]; [right; exact H | left; rewrite H1, H2, H3; auto].
         - refine (Forall_impl _ _ HO). intros z Hz. destruct z; try discriminate Hz; exact I.
         - unfold pot_failed. destruct H as [H | [H1 _]]; [rewrite H; lia | rewrite H1; lia]. }
    all: clear O PR CA; destruct x as [cl st er ae fr_ re k1 k2 hs ak pr rc se stt ti sm rm id];
      cbn [li_st li_err li_aerr] in F, E1, E2; subst er ae;
      destruct st; try discriminate F; clear F; cbv [failing pot_failed]; open_step; splits;
      (split; [first [right; reflexivity | left; repeat split; reflexivity] |]);
      (split; [repeat constructor; cbn [tells]; try split; try reflexivity; try (apply N.eqb_eq; assumption); try (apply N.eqb_neq; assumption)
              | vm_compute; discriminate]).
  - assert (D : down (li_st x) = true) by (rewrite G; reflexivity).
    pose proof (proj1 (down_step c x e D)) as L. rewrite G in L. apply later_gone in L.
    pose proof (quiet_step c x e ltac:(rewrite G; reflexivity)) as Q.
    split; [right; exact L |]. split.
    + refine (Forall_impl _ _ Q). intros z Hz. destruct z; try discriminate Hz; exact I.
    + assert (CZ : count is_sent (snd (fst (lstep c x e))) = 0).
      { unfold count. induction Q as [| z zs Hz HO IH]; [reflexivity |]. cbn [filter]. rewrite Hz. exact IH. }
      rewrite CZ. unfold pot_failed. rewrite L. lia.
Qed.
Lemma failing_run c err aerr l : forall x, failing err aerr x ->
  Forall (fun e => called e = false /\ one_close e) l ->
  li_client x = true \/ no_revival c x l ->
  Forall (tells err aerr) (snd (lrun c x l)) /\
  count is_sent (snd (lrun c x l)) + pot_failed (fst (lrun c x l)) <= pot_failed x.
Proof.
  induction l as [| e r IH]; intros x K F H.
  - cbn [lrun fst snd]. split; [constructor | rewrite count_nil; lia].
  - inversion F as [| ? ? [F1 F2] Fr]; subst. rewrite lrun_cons. cbn [fst snd].
    assert (P : li_client x = true \/ proper x e) by (destruct H as [H | [H _]]; [left | right]; exact H).
    destruct (failing_step c x e err aerr K F1 F2 P) as [K1 [T1 C1]].
    destruct (IH _ K1 Fr) as [T2 C2].
    { destruct H as [H | [_ H]]; [left | right; exact H]. rewrite <- H. apply (step_told c x e P). }
    split; [apply Forall_app; split; assumption |]. rewrite count_app. lia.
Qed.
Lemma failed_ends c l x : failed (li_st x) = true ->
  Forall (fun e => called e = false /\ one_close e) l -> li_client x = true \/ no_revival c x l ->
  Forall (tells (li_err x) (li_aerr x)) (snd (lrun c x l)) /\ count is_sent (snd (lrun c x l)) <= 2.
Proof.
  intros F FA H. destruct (failing_run c (li_err x) (li_aerr x) l x) as [T C]; try assumption.
  - left. auto.
  - split; [exact T |]. unfold pot_failed in C at 2. destruct (li_st x); try discriminate F; lia.
Qed.

(** Errors and calls are heard. *)
Lemma error_heard x e f :
  let x' := connection_error x e f in
  (running (li_st x) = true -> li_st x' = Disconnecting) /\
  (in_handshake (li_st x) = true -> li_st x' = HandshakeFailure) /\
  (running (li_st x) || in_handshake (li_st x) = true -> li_err x' = (if 1024 <? e then 1 else e) /\ li_frame x' = f).
Proof.
  destruct x as [cl st er ae fr_ re k1 k2 hs ak pr rc se stt ti sm rm id].
  destruct st; repeat split; intros; try discriminate; reflexivity.
Qed.
Lemma close_heard x code :
  let x' := app_close x code in
  (running (li_st x) = true -> li_st x' = Disconnecting /\ li_aerr x' = code /\ li_err x' = li_err x) /\
  (in_handshake (li_st x) = true \/ li_st x = ServerAlmostReady -> li_st x' = HandshakeFailure /\ li_err x' = 12).
Proof.
  destruct x as [cl st er ae fr_ re k1 k2 hs ak pr rc se stt ti sm rm id].
  destruct st; repeat split; intros; try discriminate; try (destruct H; discriminate); reflexivity.
Qed.
(** The reason given for an error. *)
Lemma tells_says e a l : 0 < e -> Forall (tells e a) l -> Forall (says e) l.
Proof.
  intros P H. refine (Forall_impl _ _ H). intros z Hz. destruct z; cbn in *; try exact I; try contradiction; destruct Hz; lia.
Qed.
Lemma error_told c x e f l : running (li_st x) = true -> 0 < e -> e <= 1024 ->
  Forall (says e) (snd (lrun c x (LError e f :: l))).
Proof.
  intros R P B. rewrite lrun_cons. cbn [lstep fst snd app].
  destruct (error_heard x e f) as [H1 [_ H3]]. specialize (H1 R).
  destruct H3 as [H3 _]; [rewrite R; reflexivity |].
  rewrite (proj2 (N.ltb_ge _ _) B) in H3.
  refine (tells_says e _ _ P (tells_run c l _ e _ _ eq_refl)).
  unfold keeps_err. rewrite H1. exact H3.
Qed.
Lemma failure_told c x e f l : in_handshake (li_st x) = true -> 0 < e -> e <= 1024 ->
  Forall (fun e => called e = false /\ one_close e) l -> li_client x = true \/ no_revival c x (LError e f :: l) ->
  Forall (says e) (snd (lrun c x (LError e f :: l))) /\ count is_sent (snd (lrun c x (LError e f :: l))) <= 2.
Proof.
  intros R P B F H. rewrite lrun_cons. cbn [lstep fst snd app].
  destruct (error_heard x e f) as [_ [H2 H3]]. specialize (H2 R).
  destruct H3 as [H3 _]; [rewrite R; apply orb_true_r |].
  rewrite (proj2 (N.ltb_ge _ _) B) in H3.
  destruct (failed_ends c l (connection_error x e f)) as [T C].
  - rewrite H2. reflexivity.
  - exact F.
  - destruct H as [H | [_ H]]; [left | right; exact H]. rewrite <- H. apply (step_told c x (LError e f) (or_introl H)).
  - split; [| exact C]. rewrite H3 in T. exact (tells_says e _ _ P T).
Qed.
Lemma close_told c x code now l : running (li_st x) = true -> li_err x = 0 ->
  Forall (app_says code) (snd (lrun c x (LCall (AClose code) now :: l))).
Proof.
  intros R Z. rewrite lrun_cons. cbn [lstep fst snd app app_call].
  destruct (close_heard x code) as [H _]. destruct (H R) as [H1 [H2 H3]].
  assert (T : Forall (tells 0 code) (snd (lrun c (app_close x code) l))).
  { apply tells_run; [| exact H2]. unfold keeps_err. rewrite H1. congruence. }
  refine (Forall_impl _ _ T). intros z Hz. destruct z; cbn in *; try exact I; try contradiction; destruct Hz; congruence.
Qed.
Lemma no_error_yet c client t0 l : client = true \/ no_revival c (life0 client t0) l ->
  running (li_st (fst (lrun c (life0 client t0) l))) = true -> li_err (fst (lrun c (life0 client t0) l)) = 0.
Proof.
  intros H R. destruct (no_way_back c l (life0 client t0)) as [A [B _]].
  - destruct H as [-> | H]; [left; reflexivity | right; exact H].
  - destruct B as [B | B].
    + destruct client; reflexivity.
    + exfalso. destruct (li_st (fst (lrun c (life0 client t0) l))); discriminate.
    + rewrite B. reflexivity.
Qed.
Lemma close_told_run c client t0 l1 code now l2 :
  client = true \/ no_revival c (life0 client t0) l1 ->
  running (li_st (fst (lrun c (life0 client t0) l1))) = true ->
  Forall (app_says code) (snd (lrun c (fst (lrun c (life0 client t0) l1)) (LCall (AClose code) now :: l2))).
Proof. intros H R. apply close_told; [exact R | exact (no_error_yet c client t0 l1 H R)]. Qed.

Lemma received_step c x e : li_st x = ClosingReceived \/ later Draining (li_st x) = true ->
  (li_st (fst (fst (lstep c x e))) = ClosingReceived \/ later Draining (li_st (fst (fst (lstep c x e)))) = true) /\
  count is_sent (snd (fst (lstep c x e))) + pot (fst (fst (lstep c x e))) <= pot x + 0.
Proof.
  destruct x as [cl st er ae fr_ re k1 k2 hs ak pr rc se stt ti sm rm id].
  destruct st; intros [H | H]; try discriminate H; clear H; events e; cbv [pot]; open_step; splits;
    (split; [first [left; reflexivity | right; reflexivity] | vm_compute; discriminate]).
Qed.
Lemma few_received c l x : li_st x = ClosingReceived -> count is_sent (snd (lrun c x l)) <= 1.
Proof.
  intros S.
  pose proof (lrun_pot (fun y => li_st y = ClosingReceived \/ later Draining (li_st y) = true) (fun _ => True) pot is_sent (fun _ => false) c) as H.
  specialize (H (fun y e Hy _ => received_step c y e Hy) l x (or_introl S) (forall_true _)).
  assert (Z : count (fun _ : lev => false) l = 0).
  { clear. induction l as [| a r IH]; [reflexivity |]. rewrite count_cons. exact IH. }
  rewrite Z in H. unfold pot in H at 2. rewrite S in H. lia.
Qed.
Lemma few_closing c l x : li_st x = Disconnecting \/ li_st x = Closing ->
  count is_sent (snd (lrun c x l)) <= 1 + count is_one_rtt l.
Proof.
  intros S. pose proof (few c l x) as H. specialize (H ltac:(destruct S as [-> | ->]; reflexivity)).
  unfold pot in H. destruct S as [S | S]; rewrite S in H; [exact H |]. destruct (li_ack x); lia.
Qed.
Lemma stays_over c l x : li_client x = true \/ no_revival c x l ->
  failed (li_st x) = true -> failed (li_st (fst (lrun c x l))) = true \/ down (li_st (fst (lrun c x l))) = true.
Proof.
  intros H F. destruct (no_way_back c l x H) as [_ [_ [A _]]]. specialize (A F). unfold over in A.
  apply orb_prop in A. destruct A; [right | left]; assumption.
Qed.
