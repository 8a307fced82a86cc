(** Lemmas about the hash table. *)
From Verif Require Import Base Hash_model Hash_spec.

Section Hash.
Context {K : Type} (hash : K -> N) (eqk : K -> K -> bool).
Hypothesis Hc : hash_compatible hash eqk.

Definition in_bin (t : htable K) (b : N) (p : N * K) : bool := bin_of t (hash (snd p)) =? b.

Definition item_of (p : N * K) : hitem K := mk_hitem (fst p) (hash (snd p)) (snd p).

(** The bins are the live items, split by bin in the same order. *)
Definition repr (t : htable K) (l : list (N * K)) : Prop :=
  NoDup (map fst l) /\ ht_count t = N.of_nat (length l) /\
  forall b, ht_bins t b = map item_of (filter (in_bin t b) l).

Lemma bin_set : forall (t : htable K) b l c h, bin_of (set_bin t b l c) h = bin_of t h.
Proof. reflexivity. Qed.

Lemma in_bin_set : forall (t : htable K) b l c b', in_bin (set_bin t b l c) b' = in_bin t b'.
Proof. reflexivity. Qed.

Lemma find_map_item : forall f l, List.find (fun it => f (hi_key it)) (map item_of l) =
  option_map item_of (List.find (fun p => f (snd p)) l).
Proof.
  intros f. induction l as [|p l IH]; [reflexivity|]. cbn [map List.find].
  change (hi_key (item_of p)) with (snd p). destruct (f (snd p)); [reflexivity|exact IH].
Qed.

Lemma find_filter : forall (A : Type) (f g : A -> bool) l, (forall x, f x = true -> g x = true) ->
  List.find f (filter g l) = List.find f l.
Proof.
  intros A f g l H. induction l as [|x l IH]; [reflexivity|]. cbn [filter List.find].
  destruct (g x) eqn:E; cbn [List.find].
  - destruct (f x); [reflexivity|exact IH].
  - destruct (f x) eqn:F; [apply H in F; congruence|exact IH].
Qed.

Lemma retrieve_repr : forall t l key, repr t l ->
  hash_retrieve hash eqk t key = option_map item_of (List.find (fun p => eqk key (snd p)) l).
Proof.
  intros t l key (_ & _ & Hb). unfold hash_retrieve. rewrite Hb.
  rewrite (find_map_item (fun k => eqk key k)). f_equal.
  apply find_filter. intros p Hp. unfold in_bin. destruct Hc as (_ & _ & _ & Hh).
  rewrite (Hh key (snd p) Hp). apply N.eqb_refl.
Qed.

Lemma insert_repr : forall t l id key, repr t l -> ~ In id (map fst l) ->
  repr (hash_insert hash t id key) ((id, key) :: l).
Proof.
  intros t l id key (Hn & Hs & Hb) Hf. unfold hash_insert.
  split; [cbn [map fst]; constructor; assumption|].
  split; [cbn [set_bin ht_count length]; lia|].
  intros b. cbn [set_bin ht_bins]. rewrite (in_bin_set t).
  cbn [filter]. unfold in_bin at 1. cbn [snd].
  rewrite (N.eqb_sym (bin_of t (hash key)) b).
  destruct (N.eqb_spec b (bin_of t (hash key))) as [->|_]; [|apply Hb].
  cbn [map]. rewrite Hb. reflexivity.
Qed.

Lemma unlink_map : forall id l, NoDup (map fst l) ->
  unlink id (map item_of l) =
  if existsb (fun p => fst p =? id) l then Some (map item_of (filter (fun p => negb (fst p =? id)) l)) else None.
Proof.
  intros id. induction l as [|p l IH]; intros Hn; [reflexivity|]. cbn [map] in Hn.
  inversion Hn as [|? ? Hni Hn']; subst. cbn [map unlink existsb filter].
  change (hi_id (item_of p)) with (fst p). destruct (N.eqb_spec (fst p) id) as [E|E]; cbn [negb orb].
  - f_equal. f_equal. rewrite <- E. clear IH Hn E. induction l as [|q l IH]; [reflexivity|].
    cbn [filter map] in *. inversion Hn'; subst. destruct (N.eqb_spec (fst q) (fst p)) as [E|E].
    + exfalso. apply Hni. left. exact E.
    + cbn [negb]. f_equal. apply IH; [intros Hi; apply Hni; right; exact Hi|assumption].
  - rewrite IH by exact Hn'. destruct (existsb (fun p0 => fst p0 =? id) l); reflexivity.
Qed.

Lemma NoDup_map_filter : forall (f : N * K -> bool) l, NoDup (map fst l) -> NoDup (map fst (filter f l)).
Proof.
  intros f. induction l as [|p l IH]; intros H; [constructor|]. cbn [map filter] in *. inversion H; subst.
  destruct (f p); [|apply IH; assumption]. cbn [map]. constructor; [|apply IH; assumption].
  intros Hi. apply H2. apply in_map_iff in Hi. destruct Hi as (q & Hq & Hi). apply filter_In in Hi.
  apply in_map_iff. exists q. tauto.
Qed.

Lemma filter_comm : forall (A : Type) (f g : A -> bool) l, filter f (filter g l) = filter g (filter f l).
Proof.
  intros A f g. induction l as [|x l IH]; [reflexivity|]. cbn [filter].
  destruct (f x) eqn:F, (g x) eqn:G; cbn [filter]; rewrite ?F, ?G, IH; reflexivity.
Qed.

Lemma filter_id : forall (A : Type) (f : A -> bool) l, (forall x, In x l -> f x = true) -> filter f l = l.
Proof.
  intros A f. induction l as [|x l IH]; intros H; [reflexivity|]. cbn [filter].
  rewrite (H x (or_introl eq_refl)). f_equal. apply IH. intros y Hy. apply H. right. exact Hy.
Qed.

Lemma length_filter_one : forall id l, NoDup (map fst l) -> In id (map fst l) ->
  S (length (filter (fun p : N * K => negb (fst p =? id)) l)) = length l.
Proof.
  intros id. induction l as [|p l IH]; intros Hn Hi; [contradiction|]. cbn [map] in *. inversion Hn; subst.
  cbn [filter length]. destruct (N.eqb_spec (fst p) id) as [E|E]; cbn [negb].
  - f_equal. rewrite filter_id; [reflexivity|]. intros q Hq. destruct (N.eqb_spec (fst q) id) as [E2|]; [|reflexivity].
    exfalso. apply H1. rewrite E, <- E2. apply in_map. exact Hq.
  - cbn [length]. f_equal. apply IH; [assumption|]. destruct Hi as [Hi|Hi]; [contradiction|exact Hi].
Qed.

Lemma delete_repr : forall t l id key, repr t l -> In (id, key) l ->
  repr (hash_delete_item t (mk_hitem id (hash key) key)) (filter (fun p => negb (fst p =? id)) l).
Proof.
  intros t l id key (Hn & Hs & Hb) Hi. unfold hash_delete_item. cbn [hi_hash hi_id].
  rewrite Hb, unlink_map by (apply NoDup_map_filter; exact Hn).
  assert (He : existsb (fun p => fst p =? id) (filter (in_bin t (bin_of t (hash key))) l) = true).
  { apply existsb_exists. exists (id, key). split; [|cbn [fst]; apply N.eqb_refl].
    apply filter_In. split; [exact Hi|]. unfold in_bin. cbn [snd]. apply N.eqb_refl. }
  rewrite He. split; [apply NoDup_map_filter; exact Hn|].
  assert (Hid : In id (map fst l)) by (apply (in_map fst) in Hi; exact Hi).
  split.
  { cbn [set_bin ht_count]. rewrite Hs, <- (length_filter_one id l Hn Hid). lia. }
  intros b. cbn [set_bin ht_bins]. rewrite (in_bin_set t).
  rewrite (filter_comm _ (in_bin t b)).
  destruct (N.eqb_spec b (bin_of t (hash key))) as [->|E]; [reflexivity|]. rewrite Hb. f_equal.
  symmetry. apply filter_id. intros p Hp. apply filter_In in Hp. destruct Hp as [Hp1 Hp2].
  destruct (N.eqb_spec (fst p) id) as [E2|]; [|reflexivity]. exfalso. apply E.
  assert (p = (id, key)).
  { clear - Hn Hi Hp1 E2. induction l as [|q l IH]; [contradiction|]. cbn [map] in Hn. inversion Hn; subst.
    destruct Hi as [Hi|Hi], Hp1 as [Hp|Hp].
    - congruence.
    - exfalso. apply H1. rewrite Hi. cbn [fst]. apply in_map. exact Hp.
    - exfalso. apply H1. subst q. apply (in_map fst) in Hi. cbn [fst] in Hi. exact Hi.
    - apply IH; assumption. }
  subst p. unfold in_bin in Hp2. cbn [snd] in Hp2. apply N.eqb_eq in Hp2. congruence.
Qed.

Lemma step_repr : forall t l o, repr t l -> legal l o -> repr (hash_step hash eqk t o) (live_step eqk l o).
Proof.
  intros t l o H Hl. destruct o as [id key|id key|key]; cbn [hash_step live_step legal] in *.
  - apply insert_repr; assumption.
  - apply delete_repr; assumption.
  - unfold hash_delete_key. rewrite (retrieve_repr t l key H).
    destruct (List.find (fun p => eqk key (snd p)) l) as [[id k]|] eqn:E; cbn [option_map]; [|exact H].
    unfold item_of. cbn [fst snd]. apply delete_repr; [exact H|]. apply find_some in E. apply E.
Qed.

Lemma run_repr : forall ops t l, repr t l -> legal_run eqk l ops ->
  repr (hash_run hash eqk t ops) (fold_left (live_step eqk) ops l).
Proof.
  induction ops as [|o ops IH]; intros t l H Hl; [exact H|]. cbn [hash_run fold_left]. destruct Hl as [H1 H2].
  apply IH; [apply step_repr; assumption|exact H2].
Qed.

Lemma create_repr : forall nb, repr (hash_create nb) [].
Proof. intros nb. split; [constructor|]. split; reflexivity. Qed.

(** Lookups after any legal history. *)
Lemma hash_map_like : forall nb ops key, legal_run eqk [] ops ->
  hash_retrieve hash eqk (hash_run hash eqk (hash_create nb) ops) key =
  option_map (fun p => mk_hitem (fst p) (hash (snd p)) (snd p)) (List.find (fun p => eqk key (snd p)) (live eqk ops)) /\
  ht_count (hash_run hash eqk (hash_create nb) ops) = N.of_nat (length (live eqk ops)).
Proof.
  intros nb ops key Hl. pose proof (run_repr ops _ _ (create_repr nb) Hl) as H.
  split; [apply (retrieve_repr _ _ key H)|apply H].
Qed.

Lemma hash_found_iff : forall nb ops key, legal_run eqk [] ops ->
  ((exists it, hash_retrieve hash eqk (hash_run hash eqk (hash_create nb) ops) key = Some it /\
     In (hi_id it, hi_key it) (live eqk ops) /\ eqk key (hi_key it) = true) <->
   exists p, In p (live eqk ops) /\ eqk key (snd p) = true) /\
  (hash_retrieve hash eqk (hash_run hash eqk (hash_create nb) ops) key = None <->
   forall p, In p (live eqk ops) -> eqk key (snd p) = false).
Proof.
  intros nb ops key Hl. destruct (hash_map_like nb ops key Hl) as [-> _].
  destruct (List.find (fun p => eqk key (snd p)) (live eqk ops)) as [p|] eqn:E; cbn [option_map].
  - pose proof (find_some _ _ E) as [H1 H2]. cbn beta in H2. split; split.
    + intros _. exists p. auto.
    + intros _. eexists. split; [reflexivity|]. cbn [hi_id hi_key]. destruct p; auto.
    + discriminate.
    + intros H. apply H in H1. congruence.
  - pose proof (find_none _ _ E) as H. cbn beta in H. split; split.
    + intros (it & Hit & _). discriminate.
    + intros (p & H1 & H2). apply H in H1. congruence.
    + intros _. exact H.
    + reflexivity.
Qed.
End Hash.

(** Identities are those inserted: the live list is what was inserted and not
    deleted. *)
Lemma live_inserted : forall K (eqk : K -> K -> bool) ops p, In p (live eqk ops) ->
  In (HInsert (fst p) (snd p)) ops.
Proof.
  intros K eqk ops p. unfold live.
  assert (H : forall ops l, In p (fold_left (live_step eqk) ops l) -> In p l \/ In (HInsert (fst p) (snd p)) ops).
  { clear ops. induction ops as [|o ops IH]; intros l Hp; [left; exact Hp|]. cbn [fold_left] in Hp.
    apply IH in Hp. destruct Hp as [Hp|Hp]; [|right; right; exact Hp].
    destruct o as [id key|id key|key]; cbn [live_step] in Hp.
    - destruct Hp as [<-|Hp]; [right; left; reflexivity|left; exact Hp].
    - apply filter_In in Hp. left. apply Hp.
    - destruct (List.find (fun p0 => eqk key (snd p0)) l) as [[id k]|]; [apply filter_In in Hp|]; left; apply Hp. }
  intros Hp. apply H in Hp. destruct Hp as [[]|Hp]. exact Hp.
Qed.
