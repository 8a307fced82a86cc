(** Lemmas about the loops over the pending packets. *)
From Verif Require Import Base Tac Rtt_model Ack_model Ack_spec Loss_model Loss_spec Loss_proofs.
From Coq Require Import Sorting.Sorted.

Definition before (a b : packet) : Prop := pk_seq a < pk_seq b /\ pk_time a <= pk_time b.
Definition queue_ok (l : list packet) : Prop := StronglySorted before l.

(** A list split in two, both in order. *)
Inductive thin : list packet -> list packet -> list packet -> Prop :=
| thin_nil : thin [] [] []
| thin_keep : forall p l g k, thin l g k -> thin (p :: l) g (p :: k)
| thin_drop : forall p l g k, thin l g k -> thin (p :: l) (p :: g) k.

Lemma thin_all : forall l, thin l [] l.
Proof. induction l; constructor; assumption. Qed.

Lemma thin_kept : forall l g k, thin l g k -> forall p, In p k -> In p l.
Proof.
  induction 1; intros q Hq; [destruct Hq| |right; apply IHthin; exact Hq].
  destruct Hq as [-> |Hq]; [left; reflexivity|right; apply IHthin; exact Hq].
Qed.

Lemma thin_gone : forall l g k, thin l g k -> forall p, In p g -> In p l.
Proof.
  induction 1; intros q Hq; [destruct Hq|right; apply IHthin; exact Hq|].
  destruct Hq as [-> |Hq]; [left; reflexivity|right; apply IHthin; exact Hq].
Qed.

Lemma thin_in : forall l g k, thin l g k -> forall p, In p l -> In p g \/ In p k.
Proof.
  induction 1; intros q Hq; [destruct Hq| |].
  - destruct Hq as [-> |Hq]; [right; left; reflexivity|]. apply IHthin in Hq. cbn [In]. tauto.
  - destruct Hq as [-> |Hq]; [left; left; reflexivity|]. apply IHthin in Hq. cbn [In]. tauto.
Qed.

Lemma thin_count : forall f l g k, thin l g k ->
  length (filter f l) = (length (filter f g) + length (filter f k))%nat.
Proof. induction 1; cbn [filter]; try destruct (f p); cbn [length]; lia. Qed.

Lemma thin_sorted : forall l g k, thin l g k -> queue_ok l -> queue_ok k.
Proof.
  induction 1; intros Hs.
  - constructor.
  - apply StronglySorted_inv in Hs. destruct Hs as [Hs Hp]. constructor; [apply IHthin; exact Hs|].
    rewrite Forall_forall in *. intros q Hq. apply Hp. apply (thin_kept _ _ _ H). exact Hq.
  - apply StronglySorted_inv in Hs. apply IHthin. tauto.
Qed.

(** The last packet is the same from every suffix. *)
Lemma last_default : forall (l : list packet) d d', l <> [] -> last l d = last l d'.
Proof.
  induction l as [|x l IH]; intros d d' H; [congruence|]. destruct l as [|y l]; [reflexivity|].
  change (last (x :: y :: l) d) with (last (y :: l) d). change (last (x :: y :: l) d') with (last (y :: l) d').
  apply IH. discriminate.
Qed.

Lemma last_cons : forall (l : list packet) p d, last (p :: l) d = last l p.
Proof.
  intros l p d. destruct l as [|x l]; [reflexivity|]. change (last (p :: x :: l) d) with (last (x :: l) d).
  apply last_default. discriminate.
Qed.

Lemma last_suffix : forall l1 l2 (p d : packet), last (l1 ++ p :: l2) d = last l2 p.
Proof.
  induction l1 as [|x l1 IH]; intros l2 p d; cbn [app]; [apply last_cons|].
  rewrite last_cons. apply IH.
Qed.

Lemma last_time_suffix : forall l1 l2 p d, last_time (l1 ++ p :: l2) d = last_time l2 p.
Proof. intros. unfold last_time. rewrite last_suffix. reflexivity. Qed.

Lemma last_time_any : forall l p d, In p l -> last_time l d = last_time l p.
Proof.
  intros l p d H. unfold last_time. f_equal. apply last_default. intros ->. destruct H.
Qed.

Lemma last_in : forall (l : list packet) p, In (last l p) (p :: l).
Proof.
  induction l as [|x l IH]; intros p; [left; reflexivity|]. rewrite last_cons.
  destruct (IH x) as [H|H]; [rewrite <- H; right; left; reflexivity|right; right; exact H].
Qed.

Lemma last_after : forall l p, queue_ok l -> In p l -> pk_time p <= last_time l p.
Proof.
  intros l p Hs Hp. apply in_split in Hp. destruct Hp as (l1 & l2 & ->). rewrite last_time_suffix.
  unfold last_time. destruct (last_in l2 p) as [H|H]; [rewrite <- H; apply N.le_refl|].
  assert (Hs2 : queue_ok (p :: l2)).
  { clear -Hs. induction l1 as [|x l1 IH]; [exact Hs|]. apply StronglySorted_inv in Hs. apply IH. tauto. }
  apply StronglySorted_inv in Hs2. destruct Hs2 as [_ Hs2]. rewrite Forall_forall in Hs2. apply Hs2 in H. apply H.
Qed.

Lemma sorted_suffix : forall l1 l2, queue_ok (l1 ++ l2) -> queue_ok l2.
Proof. induction l1 as [|x l1 IH]; intros l2 H; [exact H|]. apply StronglySorted_inv in H. apply IH. tauto. Qed.

(** What is known of the loop, for each packet that leaves. *)
Definition gone_for (cf : config) (sp : space) (now : N) (l : list packet) (g : packet * why) : Prop :=
  exists l1 l2, l = l1 ++ fst g :: l2 /\
  match snd g with
  | WTrap => pk_trap (fst g) = true
  | WLost => pk_trap (fst g) = false /\
      exists t e, probably_lost cf sp (last_time l2 (fst g)) (fst g) now = (true, e, t)
  | WTimer => pk_trap (fst g) = false /\ pk_elicit (fst g) = true /\
      exists t, probably_lost cf sp (last_time l2 (fst g)) (fst g) now = (false, true, t)
  | WNoAck => pk_trap (fst g) = false /\ pk_elicit (fst g) = false /\
      exists t, probably_lost cf sp (last_time l2 (fst g)) (fst g) now = (false, true, t)
  end.

Lemma gone_for_cons : forall cf sp now l p g, gone_for cf sp now l g -> gone_for cf sp now (p :: l) g.
Proof. intros cf sp now l p g (l1 & l2 & -> & H). exists (p :: l1), l2. split; [reflexivity|exact H]. Qed.

(** The packet that stopped the loop. *)
Definition stopped (cf : config) (sp : space) (same : bool) (now wake : N) (l : list packet) (r : result) : Prop :=
  match r_stop r with
  | SEnd => r_path r = sp_path sp /\ r_wake r = wake /\ Forall (fun p => pk_zero p = true /\ pk_trap p = false) (r_kept r)
  | SQuiet => r_path r = sp_path sp /\
      exists l1 k p l2 t, l = l1 ++ p :: l2 /\ r_kept r = k ++ p :: l2 /\
        Forall (fun q => pk_zero q = true /\ pk_trap q = false) k /\
        pk_zero p = false /\ pk_trap p = false /\
        probably_lost cf sp (last_time l2 p) p now = (false, false, t) /\ r_wake r = N.min t wake
  | SPending => pa_pto (sp_path sp) && same = true /\ r_path r = sp_path sp
  | SCopied => r_gone r <> [] /\ r_path r = sp_path sp
  | STimeout _ => r_gone r <> []
  end.

Lemma stopped_keep : forall cf sp same now wake l r p, pk_zero p = true -> pk_trap p = false ->
  stopped cf sp same now wake l r -> stopped cf sp same now wake (p :: l) (r_keep p r).
Proof.
  intros cf sp same now wake l r p Hz Ht H. unfold stopped, r_keep in *. cbn [r_stop r_path r_wake r_kept r_gone] in *.
  destruct (r_stop r); try exact H.
  - destruct H as (H1 & H2 & H3). split; [exact H1|]. split; [exact H2|]. constructor; [split; assumption|exact H3].
  - destruct H as (H0 & l1 & k & q & l2 & t & -> & H1 & H2 & H3). split; [exact H0|]. exists (p :: l1), (p :: k), q, l2, t.
    split; [reflexivity|]. split; [rewrite H1; reflexivity|]. split; [constructor; [split; assumption|exact H2]|exact H3].
Qed.

Lemma stopped_drop : forall cf sp same now wake l r p w,
  stopped cf sp same now wake l r -> stopped cf sp same now wake (p :: l) (r_drop p w r).
Proof.
  intros cf sp same now wake l r p w H. unfold stopped, r_drop in *. cbn [r_stop r_path r_wake r_kept r_gone] in *.
  destruct (r_stop r); try exact H.
  - destruct H as (H0 & l1 & k & q & l2 & t & -> & H1). split; [exact H0|]. exists (p :: l1), k, q, l2, t.
    split; [reflexivity|exact H1].
  - destruct H as [_ H]. split; [discriminate|exact H].
  - discriminate.
Qed.

Definition loop_facts (cf : config) (sp : space) (same : bool) (now wake : N) (l : list packet) (r : result) : Prop :=
  thin l (map fst (r_gone r)) (r_kept r) /\
  (queue_ok l -> forall d p, In d (map fst (r_gone r)) -> In p (r_kept r) -> pk_zero p = false -> pk_seq d < pk_seq p) /\
  Forall (gone_for cf sp now l) (r_gone r) /\
  stopped cf sp same now wake l r.

Lemma drop_facts : forall cf sp same now wake l r p w, loop_facts cf sp same now wake l r ->
  gone_for cf sp now (p :: l) (p, w) ->
  loop_facts cf sp same now wake (p :: l) (r_drop p w r).
Proof.
  intros cf sp same now wake l r p w (F1 & F2 & F3 & F4) Hg. split; [|split; [|split]].
  - cbn [r_drop r_gone r_kept map fst]. constructor. exact F1.
  - intros Hs d q Hd Hq Hz. apply StronglySorted_inv in Hs. destruct Hs as [Hs Hp].
    cbn [r_drop r_gone r_kept map fst] in Hd, Hq. destruct Hd as [<- |Hd].
    + rewrite Forall_forall in Hp. apply (thin_kept _ _ _ F1) in Hq. apply Hp in Hq. apply Hq.
    + apply (F2 Hs); assumption.
  - cbn [r_drop r_gone]. constructor; [exact Hg|]. rewrite Forall_forall in *. intros g Hin.
    apply gone_for_cons. apply F3. exact Hin.
  - apply stopped_drop. exact F4.
Qed.

Lemma keep_facts : forall cf sp same now wake l r p, loop_facts cf sp same now wake l r ->
  pk_zero p = true -> pk_trap p = false ->
  loop_facts cf sp same now wake (p :: l) (r_keep p r).
Proof.
  intros cf sp same now wake l r p (F1 & F2 & F3 & F4) Hz Ht. split; [|split; [|split]].
  - cbn [r_keep r_gone r_kept]. constructor. exact F1.
  - intros Hs d q Hd Hq Hzq. apply StronglySorted_inv in Hs. destruct Hs as [Hs Hp].
    cbn [r_keep r_gone r_kept] in Hd, Hq. destruct Hq as [<- |Hq]; [congruence|].
    apply (F2 Hs); assumption.
  - cbn [r_keep r_gone]. rewrite Forall_forall in *. intros g Hin.
    apply gone_for_cons. apply F3. exact Hin.
  - apply stopped_keep; assumption.
Qed.

Lemma one_gone : forall cf sp same now wake l p w pa wk st,
  gone_for cf sp now (p :: l) (p, w) -> (st = SCopied /\ pa = sp_path sp \/ exists c, st = STimeout c) ->
  loop_facts cf sp same now wake (p :: l) (mk_result l [(p, w)] pa wk st).
Proof.
  intros cf sp same now wake l p w pa wk st Hg Hst. split; [|split; [|split]]; cbn [r_gone r_kept map fst].
  - constructor. apply thin_all.
  - intros Hs d q Hd Hq _. destruct Hd as [<- |[]]. apply StronglySorted_inv in Hs. destruct Hs as [_ Hs].
    rewrite Forall_forall in Hs. apply Hs in Hq. apply Hq.
  - constructor; [exact Hg|constructor].
  - unfold stopped. cbn [r_stop r_gone r_path]. destruct Hst as [[-> ->]|(c & ->)]; [split; [discriminate|reflexivity]|discriminate].
Qed.

Lemma loop_ok : forall cf sp same rep now wake l,
  loop_facts cf sp same now wake l (needed_loop cf sp same rep now wake l).
Proof.
  intros cf sp same rep now wake. induction l as [|p l IH].
  - cbn [needed_loop]. split; [constructor|]. split; [intros _ d p []|]. split; [constructor|].
    unfold stopped. cbn. repeat split. constructor.
  - cbn [needed_loop]. cbv zeta.
    destruct (rep (pk_seq p)) as [pure copied].
    destruct (pk_trap p) eqn:Etrap.
    { apply drop_facts; [exact IH|]. exists [], l. split; [reflexivity|exact Etrap]. }
    destruct (probably_lost cf sp (last_time l p) p now) as [[lost expired] time] eqn:Epl.
    destruct lost.
    { assert (Hg : gone_for cf sp now (p :: l) (p, WLost)).
      { exists [], l. split; [reflexivity|]. cbn [fst snd]. split; [exact Etrap|]. exists time, expired. exact Epl. }
      destruct (pure || negb copied).
      - apply drop_facts; assumption.
      - apply one_gone; [exact Hg|]. left. split; reflexivity. }
    destruct expired; cbn [negb].
    2: { destruct (pk_zero p) eqn:Ez.
      - apply keep_facts; assumption.
      - split; [|split; [|split]]; cbn [r_gone r_kept map].
        + apply thin_all.
        + intros _ d q [].
        + constructor.
        + unfold stopped. cbn [r_stop r_path r_kept r_wake]. split; [reflexivity|].
          exists [], [], p, l, time. repeat (split; [reflexivity || assumption || constructor|]). reflexivity. }
    destruct (pk_elicit p) eqn:Ee; cbn [negb].
    2: { apply drop_facts; [exact IH|]. exists [], l. split; [reflexivity|]. cbn [fst snd].
         split; [exact Etrap|]. split; [exact Ee|]. exists time. exact Epl. }
    destruct (pa_pto (sp_path sp) && same) eqn:Epto.
    { split; [|split; [|split]]; cbn [r_gone r_kept map].
      - apply thin_all.
      - intros _ d q [].
      - constructor.
      - unfold stopped. cbn [r_stop r_path]. split; [exact Epto|reflexivity]. }
    assert (Hg : gone_for cf sp now (p :: l) (p, WTimer)).
    { exists [], l. split; [reflexivity|]. cbn [fst snd]. split; [exact Etrap|]. split; [exact Ee|]. exists time. exact Epl. }
    destruct pure.
    + apply drop_facts; assumption.
    + apply one_gone; [exact Hg|]. right. exists copied. reflexivity.
Qed.

Lemma on_ack_ok : forall cf sp now l g k, on_ack cf sp now l = (g, k) ->
  (exists l1, l = l1 ++ k /\ l1 = map fst g) /\
  Forall (fun x => snd x = WTrap \/ snd x = WLost) g /\
  Forall (gone_for cf sp now l) g.
Proof.
  intros cf sp now. induction l as [|p l IH]; intros g k H; cbn [on_ack] in H.
  - inversion H; subst. split; [exists []; split; reflexivity|]. split; constructor.
  - destruct (on_ack cf sp now l) as [g1 k1] eqn:E. destruct (IH _ _ eq_refl) as ((l1 & I1 & I2) & I3 & I4).
    destruct (pk_trap p) eqn:Et.
    + inversion H; subst. split; [exists (p :: map fst g1); split; reflexivity|]. split.
      * constructor; [left; reflexivity|exact I3].
      * constructor; [exists [], (map fst g1 ++ k); split; [reflexivity|exact Et]|].
        rewrite Forall_forall in *. intros x Hx. apply gone_for_cons. apply I4. exact Hx.
    + destruct (probably_lost cf sp (last_time l p) p now) as [[lost e] t] eqn:Ep. destruct lost.
      * inversion H; subst. split; [exists (p :: map fst g1); split; reflexivity|]. split.
        -- constructor; [right; reflexivity|exact I3].
        -- constructor.
           ++ exists [], (map fst g1 ++ k). split; [reflexivity|]. cbn [fst snd]. split; [exact Et|]. exists t, e. exact Ep.
           ++ rewrite Forall_forall in *. intros x Hx. apply gone_for_cons. apply I4. exact Hx.
      * inversion H; subst. split; [exists []; split; reflexivity|]. split; constructor.
Qed.

Lemma thin_prefix : forall l k, thin (l ++ k) l k.
Proof. induction l as [|x l IH]; intros k; cbn [app]; [apply thin_all|]. constructor. apply IH. Qed.
