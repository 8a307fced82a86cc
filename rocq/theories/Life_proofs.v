(** Proofs about the end of connections: states from disconnecting on. *)
From Verif Require Import Base Tac Life_model Life_spec.

Ltac nc :=
  repeat match goal with
  | |- context [N.ltb ?a ?b] =>
    lazymatch a with N0 => idtac | Npos _ => idtac end; lazymatch b with N0 => idtac | Npos _ => idtac end;
    let r := eval vm_compute in (N.ltb a b) in change (N.ltb a b) with r
  | |- context [N.leb ?a ?b] =>
    lazymatch a with N0 => idtac | Npos _ => idtac end; lazymatch b with N0 => idtac | Npos _ => idtac end;
    let r := eval vm_compute in (N.leb a b) in change (N.leb a b) with r
  end.
Ltac open_step :=
  cbv [fst snd lstep close_packet app_call app_close close_immediate connection_error incoming client_initial server_initial server_handshake
    client_handshake incoming_0rtt incoming_1rtt stateless_reset version_negotiation retry poll prepare_segment
    prepare_closing disconnect num li_client li_st li_err li_aerr li_frame li_rerr li_k1 li_k2 li_hs li_ack li_progress
    li_receive li_sent li_start li_timer li_smoothed li_rttmin li_idle set_st set_err set_aerr set_frame set_rerr
    set_keys set_hs set_ack set_progress set_receive set_sent set_path set_idle ready_transition advance negb orb andb];
  nc; cbv beta iota.
Ltac splits :=
  repeat (cbv beta iota; match goal with
  | |- context [match ?t with _ => _ end] =>
    lazymatch t with
    | context [match _ with _ => _ end] => fail
    | _ => let E := fresh "E" in destruct t eqn:E
    end
  end).

(** Runs. *)
Lemma lrun_cons c x e r : lrun c x (e :: r) =
  (fst (lrun c (fst (fst (lstep c x e))) r), snd (fst (lstep c x e)) ++ snd (lrun c (fst (fst (lstep c x e))) r)).
Proof.
  cbn [lrun]. destruct (lstep c x e) as [[x1 o] w]. cbn [fst snd]. destruct (lrun c x1 r) as [x2 o2]. reflexivity.
Qed.
Lemma lrun_app c x l1 l2 : lrun c x (l1 ++ l2) =
  (fst (lrun c (fst (lrun c x l1)) l2), snd (lrun c x l1) ++ snd (lrun c (fst (lrun c x l1)) l2)).
Proof.
  revert x. induction l1 as [| e r IH]; intros x.
  - cbn [app lrun fst snd]. destruct (lrun c x l2). reflexivity.
  - rewrite <- app_comm_cons, !lrun_cons, IH. cbn [fst snd]. rewrite app_assoc. reflexivity.
Qed.
(** An invariant that holds at each step, and what it says about the outputs. *)
Lemma lrun_inv (I : life -> Prop) (Q : lout -> Prop) (P : lev -> Prop) c :
  (forall x e, I x -> P e -> I (fst (fst (lstep c x e))) /\ Forall Q (snd (fst (lstep c x e)))) ->
  forall l x, I x -> Forall P l -> I (fst (lrun c x l)) /\ Forall Q (snd (lrun c x l)).
Proof.
  intros S l. induction l as [| e r IH]; intros x Ix F.
  - cbn [lrun fst snd]. split; [exact Ix | constructor].
  - rewrite lrun_cons. cbn [fst snd]. inversion F as [| ? ? Pe Fr]; subst.
    destruct (S x e Ix Pe) as [I1 Q1]. destruct (IH _ I1 Fr) as [I2 Q2].
    split; [exact I2 |]. apply Forall_app. split; [exact Q1 | exact Q2].
Qed.
(** Counting with a potential. *)
Lemma count_app {A} (f : A -> bool) l1 l2 : count f (l1 ++ l2) = count f l1 + count f l2.
Proof. unfold count. rewrite filter_app, app_length. lia. Qed.
Lemma count_cons {A} (f : A -> bool) a l : count f (a :: l) = (if f a then 1 else 0) + count f l.
Proof. unfold count. cbn [filter]. destruct (f a); cbn [length]; lia. Qed.
Lemma count_nil {A} (f : A -> bool) : count f [] = 0.
Proof. reflexivity. Qed.
Lemma lrun_pot (I : life -> Prop) (P : lev -> Prop) (pot : life -> N) (f : lout -> bool) (g : lev -> bool) c :
  (forall x e, I x -> P e -> I (fst (fst (lstep c x e))) /\
     count f (snd (fst (lstep c x e))) + pot (fst (fst (lstep c x e))) <= pot x + (if g e then 1 else 0)) ->
  forall l x, I x -> Forall P l -> count f (snd (lrun c x l)) + pot (fst (lrun c x l)) <= pot x + count g l.
Proof.
  intros S l. induction l as [| e r IH]; intros x Ix F.
  - cbn [lrun fst snd]. rewrite !count_nil. lia.
  - rewrite lrun_cons, count_cons. cbn [fst snd]. inversion F as [| ? ? Pe Fr]; subst.
    destruct (S x e Ix Pe) as [I1 Q1]. specialize (IH _ I1 Fr). rewrite count_app. lia.
Qed.
Lemma forall_true {A} (l : list A) : Forall (fun _ => True) l.
Proof. apply Forall_forall. intros; exact I. Qed.

(** All the ways in which a connection being closed can change. *)
Ltac brute :=
  let x := fresh "x" in intros x;
  destruct x as [cl st er ae fr_ re k1 k2 hs ak pr rc se stt ti sm rm id].
Ltac events e :=
  destruct e as [[code|] now|e f|[ep frs tl co] one now| | | |k1' k2'|tt_ ss_ mm_ ii_|g rto others|g|];
  try destruct ep.

Lemma down_step c x e : down (li_st x) = true ->
    later (li_st x) (li_st (fst (fst (lstep c x e)))) = true /\ li_aerr (fst (fst (lstep c x e))) = li_aerr x /\
    li_timer (fst (fst (lstep c x e))) = li_timer x /\ li_smoothed (fst (fst (lstep c x e))) = li_smoothed x /\
    li_idle (fst (fst (lstep c x e))) = li_idle x.
Proof.
  destruct x as [cl st er ae fr_ re k1 k2 hs ak pr rc se stt ti sm rm id].
  destruct st; try discriminate; intros _; events e; open_step; splits; repeat split; reflexivity.
Qed.

Lemma later_refl s : down s = true -> later s s = true.
Proof. destruct s; try discriminate; reflexivity. Qed.
Lemma later_trans a b c : later a b = true -> later b c = true -> later a c = true.
Proof. destruct a, b; try discriminate; destruct c; try discriminate; reflexivity. Qed.
Lemma later_down a b : later a b = true -> down b = true.
Proof. destruct a, b; try discriminate; reflexivity. Qed.

Lemma forward c l x : down (li_st x) = true -> later (li_st x) (li_st (fst (lrun c x l))) = true.
Proof.
  intros D.
  pose proof (lrun_inv (fun y => later (li_st x) (li_st y) = true) (fun _ => True) (fun _ => True) c) as H.
  refine (proj1 (H _ l x (later_refl _ D) (forall_true _))).
  intros y e L _. split; [| apply forall_true].
  exact (later_trans _ _ _ L (proj1 (down_step c y e (later_down _ _ L)))).
Qed.

(** Nothing is sent in draining or once disconnected. *)
Lemma quiet_step c x e : later Draining (li_st x) = true ->
  Forall (fun o => is_sent o = false) (snd (fst (lstep c x e))).
Proof.
  destruct x as [cl st er ae fr_ re k1 k2 hs ak pr rc se stt ti sm rm id].
  destruct st; try discriminate; intros _; events e; open_step; splits;
    repeat (constructor; [reflexivity |]); constructor.
Qed.
Lemma quiet c l x : later Draining (li_st x) = true -> Forall (fun o => is_sent o = false) (snd (lrun c x l)).
Proof.
  intros D. refine (proj2 (lrun_inv (fun y => later Draining (li_st y) = true) _ (fun _ => True) c _ l x D (forall_true _))).
  intros y e L _. split; [| exact (quiet_step c y e L)].
  exact (later_trans _ _ _ L (proj1 (down_step c y e (later_down _ _ L)))).
Qed.

(** The number of close packets. *)
Definition pot (x : life) : N :=
  match li_st x with
  | Disconnecting | ClosingReceived => 1
  | Closing => if li_ack x then 1 else 0
  | _ => 0
  end.
Lemma few_step c x e : down (li_st x) = true ->
  count is_sent (snd (fst (lstep c x e))) + pot (fst (fst (lstep c x e))) <= pot x + (if is_one_rtt e then 1 else 0).
Proof.
  destruct x as [cl st er ae fr_ re k1 k2 hs ak pr rc se stt ti sm rm id].
  destruct st; try discriminate; intros _; events e; cbv [pot is_one_rtt close_packet pk_ep]; open_step; splits;
    vm_compute; discriminate.
Qed.
Lemma few c l x : down (li_st x) = true ->
  count is_sent (snd (lrun c x l)) <= pot x + count is_one_rtt l.
Proof.
  intros D.
  pose proof (lrun_pot (fun y => down (li_st y) = true) (fun _ => True) pot is_sent is_one_rtt c) as H.
  assert (S : forall y e, down (li_st y) = true -> True -> down (li_st (fst (fst (lstep c y e)))) = true /\
     count is_sent (snd (fst (lstep c y e))) + pot (fst (fst (lstep c y e))) <= pot y + (if is_one_rtt e then 1 else 0)).
  { intros y e Dy _. split; [| exact (few_step c y e Dy)]. exact (later_down _ _ (proj1 (down_step c y e Dy))). }
  specialize (H S l x D (forall_true _)). lia.
Qed.

(** What the packets say. *)
Definition keeps_err (err : N) (x : life) : Prop :=
  match li_st x with
  | Disconnecting | Closing => li_err x = err
  | Draining | Disconnected => True
  | _ => False
  end.
Lemma tells_step c x e err aerr : keeps_err err x -> li_aerr x = aerr ->
  (keeps_err err (fst (fst (lstep c x e))) /\ li_aerr (fst (fst (lstep c x e))) = aerr) /\
  Forall (tells err aerr) (snd (fst (lstep c x e))).
Proof.
  destruct x as [cl st er ae fr_ re k1 k2 hs ak pr rc se stt ti sm rm id].
  destruct st; cbv [keeps_err li_st li_aerr li_err]; try contradiction; intros K A; subst aerr; try subst er;
    events e; cbv [close_packet]; open_step; splits;
    repeat match goal with |- _ /\ _ => split end;
    repeat first [exact I | reflexivity | constructor]; cbn [tells]; try apply N.eqb_eq; try apply N.eqb_neq; assumption.
Qed.
Lemma tells_run c l x err aerr : keeps_err err x -> li_aerr x = aerr -> Forall (tells err aerr) (snd (lrun c x l)).
Proof.
  intros K A.
  refine (proj2 (lrun_inv (fun y => keeps_err err y /\ li_aerr y = aerr) _ (fun _ => True) c _ l x (conj K A) (forall_true _))).
  intros y e [Ky Ay] _. exact (tells_step c y e err aerr Ky Ay).
Qed.
