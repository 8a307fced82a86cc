(** Stream scheduling: no stream with something to send is forgotten. *)
From Coq Require Import Sorting.Sorted.
From Verif Require Import Base Tac Varint_model Stream_model Send_model Send_spec Sched_spec
  Send_proofs Send2_proofs Send3_proofs Send4_proofs Send5_proofs Send7_proofs Sched_proofs Sched2_proofs Sched3_proofs.

(** Every unexhausted stream is listed, or is above the limit. *)
Definition kept (c : snd_cnx) : Prop := forall i s, w_lookup c i = Some s -> exhausted s = false ->
  In i (n_out c) \/ (above_limit c i = true /\ 4 <= i).
(** Streams above the limit: none is missing, none has ended. *)
Definition dense (c : snd_cnx) : Prop := forall i, above_limit c i = true -> i < n_next c (i mod 4) -> exst c i.
Definition fresh (c : snd_cnx) : Prop := forall i s, w_lookup c i = Some s -> above_limit c i = true -> over s = false.
(** The first stream of each type is below the limit. *)
Definition first_ok (c : snd_cnx) : Prop := forall i, above_limit c i = true -> 4 <= i.
(** No stream was deleted; none of this side has ended. *)
Definition all_there (c : snd_cnx) : Prop := forall i, i < n_next c (i mod 4) -> exst c i.
Definition all_fresh (c : snd_cnx) : Prop := forall i s, w_lookup c i = Some s -> is_local_id i (n_client c) = true -> over s = false.

Lemma above_local c i : above_limit c i = true -> is_local_id i (n_client c) = true.
Proof.
  unfold above_limit, is_client_id, is_local_id. intro H. apply andb_true_iff in H. destruct H as [H _].
  destruct (i mod 2 =? 0), (n_client c); cbn in *; congruence.
Qed.

Lemma lims_prim a c c' : prim a false c c' -> lims c' = lims c.
Proof.
  intro P. destruct P as [c s s' L E1 E2 E3 E4 E5 | c s p L | c s err L | c s L | c s L X | c t Ht | c s Q L X |
    c c' M1 M2 M3 M4 M5 M6 | c | c m b u Q]; try discriminate; try reflexivity.
  - apply (reorder_same (w_put c (w_set_prio s p)) (w_set_prio s p)).
  - apply (insert_same (w_put c (w_set_stop s true (w_stop_sent s) err)) (w_set_stop s true (w_stop_sent s) err)).
  - apply insert_same.
  - apply create_streams.
  - unfold lims. congruence.
Qed.

Lemma kept_same c c' : lims c' = lims c -> n_streams c' = n_streams c -> incl (n_out c) (n_out c') -> kept c -> kept c'.
Proof.
  intros E1 E2 E3 K i s L X. unfold w_lookup in L. rewrite E2 in L. rewrite (above_lims _ _ _ E1).
  destruct (K i s L X); auto.
Qed.

Lemma insert_in c s : first_ok c -> In (w_id s) (n_out (insert_output c s)) \/ (above_limit c (w_id s) = true /\ 4 <= w_id s).
Proof.
  intro F. unfold insert_output. destruct (is_out c (w_id s)) eqn:E; [left; apply is_out_in, E |].
  destruct (above_limit c (w_id s)) eqn:Ea; [right; auto |]. left. cbn [n_out n_set_streams]. apply in_out_place. auto.
Qed.
Lemma insert_incl c s : incl (n_out c) (n_out (insert_output c s)).
Proof.
  intros x Hx. unfold insert_output. destruct (is_out _ _); [exact Hx |]. destruct (above_limit _ _); [exact Hx |].
  cbn [n_out n_set_streams]. apply in_out_place. auto.
Qed.

Lemma kept_put c s s' : w_lookup c (w_id s) = Some s -> w_id s' = w_id s ->
  (exhausted s = true -> exhausted s' = true) -> kept c -> kept (w_put c s').
Proof.
  intros L E1 E2 K i x. rewrite lookup_put, E1. destruct (N.eqb_spec (w_id s) i) as [<- | Q]; [| apply K].
  rewrite L. intros H X. apply some_inj in H. subst x. apply (K _ s L).
  destruct (exhausted s); [rewrite E2 in X by reflexivity; discriminate | reflexivity].
Qed.

Lemma create_kind c id : new_output c id = false -> (exhausted (new_wstream c id) = true) \/ above_limit c id = true.
Proof.
  unfold new_output, new_wstream, exhausted, above_limit, is_client_id. cbn [w_fin_req w_fin_sent w_rst_req w_rst_sent w_stop_req w_stop_sent].
  assert (E : Bool.eqb (id mod 2 =? 0) (n_client c) = is_local_id id (n_client c)).
  { unfold is_local_id. destruct (id mod 2 =? 0), (n_client c); reflexivity. }
  rewrite E. destruct (is_local_id id (n_client c)), (is_bidir_id id); cbn; try discriminate; auto.
  - intro H. apply N.leb_gt in H. right. apply N.ltb_lt, H.
  - intro H. apply N.leb_gt in H. right. apply N.ltb_lt, H.
Qed.

Lemma kept_prim a c c' : prim a false c c' -> base c -> first_ok c -> kept c -> kept c'.
Proof.
  intros P B F K. assert (EL := lims_prim _ _ _ P).
  destruct P as [c s s' L E1 E2 E3 E4 E5 | c s p L | c s err L | c s L | c s L X | c t Ht | c s Q L X |
    c c' M1 M2 M3 M4 M5 M6 | c | c m b u Q]; try discriminate.
  - eapply kept_put; eassumption.
  - set (s' := w_set_prio s p). assert (K1 : kept (w_put c s')) by (eapply kept_put; [exact L | reflexivity | auto | exact K]).
    set (c1 := w_put c s') in *. assert (F1 : first_ok c1) by exact F. clearbody c1.
    unfold reorder_output. destruct (is_out c1 (w_id s')); [| exact K1].
    match goal with |- context [if ?b then _ else _] => destruct b end; [| exact K1].
    destruct (insert_same (remove_output c1 (w_id s')) s') as (R1 & _ & R3).
    intros i x Lx Xx. unfold w_lookup in Lx. rewrite R1 in Lx. rewrite (above_lims _ _ _ R3).
    change (above_limit (remove_output c1 (w_id s')) i) with (above_limit c1 i).
    destruct (N.eq_dec i (w_id s')) as [-> | Q].
    + apply (insert_in (remove_output c1 (w_id s')) s'). exact F1.
    + destruct (K1 i x Lx Xx) as [H | H]; [| auto]. left. apply insert_incl. cbn [remove_output n_out n_set_streams].
      apply filter_In. split; [exact H |]. apply negb_true_iff, N.eqb_neq, Q.
  - set (s' := w_set_stop s true (w_stop_sent s) err). set (c1 := w_put c s').
    destruct (insert_same c1 s') as (R1 & _ & R3). intros i x Lx Xx. unfold w_lookup in Lx. rewrite R1 in Lx.
    rewrite (above_lims _ _ _ R3). destruct (N.eq_dec i (w_id s')) as [-> | Q].
    + apply insert_in. exact F.
    + assert (Lc : w_lookup c i = Some x).
      { revert Lx. change (w_lookup c1 i = Some x -> w_lookup c i = Some x). unfold c1. rewrite lookup_put.
        destruct (N.eqb_spec (w_id s') i); [congruence | auto]. }
      destruct (K i x Lc Xx) as [H | H]; [| auto]. left. apply insert_incl. exact H.
  - destruct (insert_same c s) as (R1 & _ & R3). eapply kept_same; [exact R3 | exact R1 | apply insert_incl | exact K].
  - intros i x Lx Xx. destruct (N.eq_dec i (w_id s)) as [-> | Q].
    + change (w_lookup c (w_id s) = Some x) in Lx. rewrite L in Lx. apply some_inj in Lx. congruence.
    + destruct (K i x Lx Xx) as [H | H]; [| auto]. left. cbn [remove_output n_out n_set_streams].
      apply filter_In. split; [exact H |]. apply negb_true_iff, N.eqb_neq, Q.
  - pose proof (fresh_next c t B Ht) as Hf. intros i x Lx Xx. rewrite (above_lims _ _ _ EL).
    destruct (create_streams c (n_next c t)) as (R1 & _ & _). unfold w_lookup in Lx. rewrite R1 in Lx.
    change (w_lookup (n_set_streams c (n_streams c ++ [new_wstream c (n_next c t)]) (n_out c)) i = Some x) in Lx.
    rewrite lookup_new in Lx by exact Hf. cbn [w_id new_wstream] in Lx.
    unfold w_create. cbv zeta. set (s := new_wstream c (n_next c t)) in *.
    set (c1 := n_set_streams c (n_streams c ++ [s]) (n_out c)).
    cbn [n_set_next n_out].
    destruct (N.eqb_spec (n_next c t) i) as [<- | Q].
    + apply some_inj in Lx. subst x. destruct (new_output c (n_next c t)) eqn:En.
      * exact (insert_in c1 s F).
      * destruct (create_kind _ _ En) as [H | H]; [fold s in H; congruence |]. right. auto.
    + destruct (K i x Lx Xx) as [H | H]; [| auto]. left. destruct (new_output c (n_next c t)); [apply insert_incl |]; exact H.
  - intros i x Lx Xx. unfold w_lookup in Lx. rewrite M2 in Lx. rewrite M3, (above_lims _ _ _ EL). exact (K i x Lx Xx).
  - intros i x Lx Xx. rewrite raise_lookup in Lx. destruct (w_lookup c i) as [y |] eqn:Ly; [| discriminate].
    apply some_inj in Lx. apply (K i y Ly). subst x. revert Xx. destruct (_ || _); [destruct (_ <? _) |]; auto.
Qed.

Lemma exst_create c t i : t < 4 -> base c -> exst (w_create c (n_next c t)) i <-> exst c i \/ i = n_next c t.
Proof.
  intros Ht B. pose proof (fresh_next c t B Ht) as Hf. destruct (create_streams c (n_next c t)) as (R1 & _ & _).
  unfold exst at 1. unfold w_lookup. rewrite R1.
  change ((exists s, w_lookup (n_set_streams c (n_streams c ++ [new_wstream c (n_next c t)]) (n_out c)) i = Some s) <->
    exst c i \/ i = n_next c t).
  rewrite lookup_new by exact Hf. cbn [w_id new_wstream]. unfold exst.
  destruct (N.eqb_spec (n_next c t) i) as [<- | Q]; [| intuition congruence].
  split; [auto | intros _; eauto].
Qed.

(** What exists, for changes without deletion. *)
Lemma exst_prim a c c' : prim a false c c' -> base c ->
  (forall i, exst c i -> exst c' i) /\
  (forall i, i < n_next c' (i mod 4) -> i < n_next c (i mod 4) \/ exst c' i).
Proof.
  intros P B.
  assert (Put : forall s', (forall i, exst c i -> exst (w_put c s') i)) by (intros; apply exst_put; assumption).
  destruct P as [c s s' L E1 E2 E3 E4 E5 | c s p L | c s err L | c s L | c s L X | c t Ht | c s Q L X |
    c c' M1 M2 M3 M4 M5 M6 | c | c m b u Q]; try discriminate.
  - split; [apply Put | auto].
  - destruct (reorder_same (w_put c (w_set_prio s p)) (w_set_prio s p)) as (R1 & R2 & _).
    split; [| rewrite R2; auto]. intros i H. apply (Put (w_set_prio s p)) in H. unfold exst, w_lookup in *. rewrite R1. exact H.
  - set (s' := w_set_stop s true (w_stop_sent s) err). destruct (insert_same (w_put c s') s') as (R1 & R2 & _).
    split; [| rewrite R2; auto]. intros i H. apply (Put s') in H. unfold exst, w_lookup in *. rewrite R1. exact H.
  - destruct (insert_same c s) as (R1 & R2 & _). split; [| rewrite R2; auto].
    intros i H. unfold exst, w_lookup in *. rewrite R1. exact H.
  - split; auto.
  - destruct (create_streams c (n_next c t)) as (_ & R2 & _). split.
    + intros i H. apply exst_create; auto.
    + intros i. rewrite R2. unfold stream_type. destruct B as (B1 & B2 & B3). rewrite (B2 t Ht).
      destruct (N.eqb_spec (i mod 4) t) as [E | E]; [| auto]. intro H.
      destruct (N.lt_ge_cases i (n_next c t)) as [Q | Q]; [left; rewrite E; exact Q |]. right.
      apply exst_create; [exact Ht | split; [exact B1 | split; assumption] |]. right. specialize (B2 t Ht). lia.
  - split; [intros i H; unfold exst, w_lookup in *; rewrite M2; exact H | intros i; rewrite M4; auto].
  - split; [| auto]. intros i [x Hx]. unfold exst. rewrite raise_lookup, Hx. eauto.
Qed.

Lemma dense_prim a c c' : prim a false c c' -> base c -> dense c -> dense c'.
Proof.
  intros P B D i Ha Hn. rewrite (above_lims _ _ _ (lims_prim _ _ _ P)) in Ha.
  destruct (exst_prim _ _ _ P B) as [E1 E2]. destruct (E2 i Hn) as [H | H]; [apply E1, D; assumption | exact H].
Qed.
Lemma there_prim a c c' : prim a false c c' -> base c -> all_there c -> all_there c'.
Proof.
  intros P B D i Hn. destruct (exst_prim _ _ _ P B) as [E1 E2].
  destruct (E2 i Hn) as [H | H]; [apply E1, D; assumption | exact H].
Qed.

Lemma new_fresh c id : is_local_id id (n_client c) = true -> over (new_wstream c id) = false.
Proof. unfold over, new_wstream. cbn. intros ->. rewrite andb_false_r. reflexivity. Qed.

(** How the flags of ended streams change. *)
Lemma over_prim a c c' : prim a false c c' -> base c -> forall i s', w_lookup c' i = Some s' -> over s' = true ->
  (exists s, w_lookup c i = Some s /\ (over s = true \/ (a = false /\ above_limit c i = false))) \/
  is_local_id i (n_client c) = false.
Proof.
  intros P B i x.
  assert (Put : forall s s', w_lookup c (w_id s) = Some s -> w_id s' = w_id s -> over s' = over s ->
    w_lookup (w_put c s') i = Some x -> over x = true ->
    (exists s, w_lookup c i = Some s /\ (over s = true \/ (a = false /\ above_limit c i = false))) \/ is_local_id i (n_client c) = false).
  { intros s s' L E1 E2. rewrite lookup_put, E1. destruct (N.eqb_spec (w_id s) i) as [<- | Q]; [| left; eauto].
    rewrite L. intros H X. apply some_inj in H. subst x. left. exists s. split; [reflexivity |]. left. congruence. }
  destruct P as [c s s' L E1 E2 E3 E4 E5 | c s p L | c s err L | c s L | c s L X | c t Ht | c s Q L X |
    c c' M1 M2 M3 M4 M5 M6 | c | c m b u Q]; try discriminate.
  - rewrite lookup_put, E1. destruct (N.eqb_spec (w_id s) i) as [<- | Q]; [| left; eauto].
    rewrite L. intros H X. apply some_inj in H. subst x. left. exists s. split; [reflexivity |]. auto.
  - destruct (reorder_same (w_put c (w_set_prio s p)) (w_set_prio s p)) as (R1 & _ & _).
    unfold w_lookup at 1. rewrite R1. apply (Put s); [exact L | reflexivity | reflexivity].
  - set (s' := w_set_stop s true (w_stop_sent s) err). destruct (insert_same (w_put c s') s') as (R1 & _ & _).
    unfold w_lookup at 1. rewrite R1. apply (Put s); [exact L | reflexivity | reflexivity].
  - destruct (insert_same c s) as (R1 & _ & _). unfold w_lookup at 1. rewrite R1. left. eauto.
  - intros H1 H2. left. eauto.
  - pose proof (fresh_next c t B Ht) as Hf. destruct (create_streams c (n_next c t)) as (R1 & _ & _).
    unfold w_lookup at 1. rewrite R1.
    change (w_lookup (n_set_streams c (n_streams c ++ [new_wstream c (n_next c t)]) (n_out c)) i = Some x -> over x = true ->
      (exists s, w_lookup c i = Some s /\ (over s = true \/ (a = false /\ above_limit c i = false))) \/ is_local_id i (n_client c) = false).
    rewrite lookup_new by exact Hf. cbn [w_id new_wstream].
    destruct (N.eqb_spec (n_next c t) i) as [<- | Q]; [| left; eauto].
    intros H X. apply some_inj in H. subst x. right. destruct (is_local_id (n_next c t) (n_client c)) eqn:El; [| reflexivity].
    rewrite new_fresh in X by exact El. discriminate.
  - unfold w_lookup at 1. rewrite M2. left. eauto.
  - rewrite raise_lookup. destruct (w_lookup c i) as [y |] eqn:Ly; [| discriminate]. intros H X.
    apply some_inj in H. left. exists y. split; [reflexivity |]. left. revert X. subst x.
    destruct (_ || _); [destruct (_ <? _) |]; auto.
Qed.

Lemma fresh_prim a c c' : prim a false c c' -> base c -> fresh c -> fresh c'.
Proof.
  intros P B F i x Lx Ha. rewrite (above_lims _ _ _ (lims_prim _ _ _ P)) in Ha.
  destruct (over x) eqn:Eo; [| reflexivity]. exfalso.
  destruct (over_prim _ _ _ P B i x Lx Eo) as [(s & Ls & [H | [_ H]]) | H].
  - rewrite (F i s Ls Ha) in H. discriminate.
  - congruence.
  - rewrite (above_local _ _ Ha) in H. discriminate.
Qed.
Lemma all_fresh_prim c c' : prim true false c c' -> base c -> all_fresh c -> all_fresh c'.
Proof.
  intros P B F i x Lx Ha. assert (EL := lims_prim _ _ _ P). unfold lims in EL. injection EL as EC _ _. rewrite EC in Ha.
  destruct (over x) eqn:Eo; [| reflexivity]. exfalso.
  destruct (over_prim _ _ _ P B i x Lx Eo) as [(s & Ls & [H | [H _]]) | H].
  - rewrite (F i s Ls Ha) in H. discriminate.
  - discriminate.
  - congruence.
Qed.
Lemma first_lims c c' : lims c' = lims c -> first_ok c -> first_ok c'.
Proof. intros E F i H. rewrite (above_lims _ _ _ E) in H. auto. Qed.

Lemma prims_lims a c c' : prims a false c c' -> lims c' = lims c.
Proof. induction 1 as [| x y z P E IH]; [reflexivity |]. rewrite IH. eapply lims_prim, P. Qed.

(** ** The limits *)
Definition ty (cl b : bool) : N := (if b then 0 else 2) + (if cl then 0 else 1).
Definition lim (c : snd_cnx) (b : bool) : N := if b then n_max_bidi c else n_max_uni c.
Definition set_lim (c : snd_cnx) (b : bool) (v : N) : snd_cnx :=
  if b then n_set_limits c (n_max c) v (n_max_uni c) else n_set_limits c (n_max c) (n_max_bidi c) v.
Definition typed (cl b : bool) (m : N) : Prop := m mod 4 = ty cl b /\ m < two64.

Lemma mod4_cases i : let m := i mod 4 in m < 4 /\ i mod 2 = m mod 2 /\ (i / 2) mod 2 = m / 2.
Proof.
  cbv zeta. split; [apply N.mod_lt; lia |]. pose proof (N.div_mod i 4). pose proof (N.mod_lt i 4).
  set (q := i / 4) in *. set (m := i mod 4) in *. assert (i = 4 * q + m) by lia. clearbody q m. subst i. split.
  - replace (4 * q + m) with (m + 2 * q * 2) by lia. apply N.mod_add. lia.
  - replace (4 * q + m) with (m + 2 * q * 2) by lia. rewrite N.div_add by lia.
    replace (m / 2 + 2 * q) with (m / 2 + q * 2) by lia. rewrite N.mod_add by lia.
    apply N.mod_small. apply N.div_lt_upper_bound; lia.
Qed.

Lemma kind_local cl i b : i mod 4 = ty cl b -> is_bidir_id i = b /\ is_client_id i = cl /\ is_local_id i cl = true.
Proof.
  intro E. destruct (mod4_cases i) as (_ & H2 & H3). rewrite E in *.
  unfold is_bidir_id, is_client_id, is_local_id. rewrite H2, H3.
  destruct cl, b; cbn; auto.
Qed.
Lemma local_kind cl i : is_client_id i = cl -> i mod 4 = ty cl (is_bidir_id i).
Proof.
  destruct (mod4_cases i) as (H1 & H2 & H3). unfold is_bidir_id, is_client_id. rewrite H2, H3.
  generalize dependent (i mod 4). intros m Hm _ _ E.
  assert (m = 0 \/ m = 1 \/ m = 2 \/ m = 3) as [-> | [-> | [-> | ->]]] by lia; cbn in E; subst cl; reflexivity.
Qed.

Lemma above_kind c i : above_limit c i = true -> i mod 4 = ty (n_client c) (is_bidir_id i) /\ lim c (is_bidir_id i) < i.
Proof.
  unfold above_limit. rewrite andb_true_iff, N.ltb_lt. intros [E H]. apply Bool.eqb_prop in E.
  split; [apply local_kind, E | exact H].
Qed.
Lemma kind_above c i b : i mod 4 = ty (n_client c) b -> above_limit c i = (lim c b <? i).
Proof.
  intro E. destruct (kind_local _ _ _ E) as (H1 & H2 & _). unfold above_limit. rewrite H1, H2, eqb_reflx. reflexivity.
Qed.

Lemma id_of_rank_typed v cl uni : typed cl (negb uni) (id_of_rank v cl uni).
Proof.
  unfold typed, id_of_rank, ty. set (x := (v + (two64 - 1)) mod two64).
  assert (Q : exists q, (x * 4) mod two64 = 4 * q /\ q < 4611686018427387904).
  { exists (x mod 4611686018427387904). split.
    - replace two64 with (4611686018427387904 * 4) by reflexivity. rewrite N.mul_mod_distr_r by lia. lia.
    - apply N.mod_lt. lia. }
  destruct Q as (q & -> & Hq).
  assert (M : forall k, k < 4 -> (4 * q + k) mod 4 = k).
  { intros k Hk. replace (4 * q + k) with (k + q * 4) by lia. rewrite N.mod_add by lia. apply N.mod_small, Hk. }
  split; [| unfold two64; destruct uni, cl; lia].
  rewrite <- N.add_assoc. destruct uni, cl; cbn [negb]; apply M; lia.
Qed.

Lemma id_of_rank_sane v cl uni : sane_count v = true -> id_of_rank v cl uni = (v - 1) * 4 + ty cl (negb uni).
Proof.
  unfold sane_count. rewrite !andb_true_iff, !N.ltb_lt. intros [[H1 H2] _]. unfold id_of_rank, ty.
  replace ((v + (two64 - 1)) mod two64) with (v - 1).
  - rewrite N.mod_small by (unfold two64; lia). destruct uni, cl; cbn [negb]; lia.
  - replace (v + (two64 - 1)) with (v - 1 + 1 * two64) by (unfold two64; lia).
    rewrite N.mod_add by (unfold two64; lia). symmetry. apply N.mod_small. unfold two64. lia.
Qed.

(** The stream from which the search starts. *)
Lemma first_id old cl b : old + 4 < two64 ->
  id_of_rank (u64 (rank_of_id old + 1)) cl (negb b) = (old / 4 + 1) * 4 + ty cl b.
Proof.
  intro H. unfold rank_of_id, u64. rewrite (N.mod_small (old + 4)) by lia.
  replace (old + 4) with (old + 1 * 4) by lia. rewrite N.div_add by lia.
  assert (old / 4 * 4 <= old) by (rewrite N.mul_comm; apply N.mul_div_le; lia).
  set (q := old / 4) in *. clearbody q.
  rewrite N.mod_small by lia. unfold id_of_rank, ty.
  replace (q + 1 + 1 + (two64 - 1)) with (q + 1 + 1 * two64) by (unfold two64; lia).
  rewrite N.mod_add by (unfold two64; lia). rewrite (N.mod_small (q + 1)) by lia.
  rewrite N.mod_small by lia. destruct b, cl; cbn [negb]; lia.
Qed.

Lemma typed_first c : typed (n_client c) true (n_max_bidi c) -> typed (n_client c) false (n_max_uni c) -> first_ok c.
Proof.
  intros [T1 _] [T2 _] i H. apply above_kind in H. destruct H as [H1 H2].
  assert (lim c (is_bidir_id i) mod 4 = i mod 4) by (unfold lim; destruct (is_bidir_id i); congruence).
  set (m := lim c (is_bidir_id i)) in *. clearbody m.
  pose proof (N.div_mod i 4). pose proof (N.div_mod m 4). pose proof (N.mod_lt i 4).
  set (a := i / 4) in *. set (d := m / 4) in *. lia.
Qed.

(** ** Raising a limit *)
Lemma in_id_insert x y l : In y (id_insert x l) <-> y = x \/ In y l.
Proof.
  induction l as [| z l IH]; cbn [id_insert In]; [intuition |]. destruct (x <=? z); cbn [In]; [intuition |].
  rewrite IH. intuition.
Qed.
Lemma ss_id_insert x l : StronglySorted N.le l -> StronglySorted N.le (id_insert x l).
Proof.
  induction 1 as [| z l S IH F]; cbn [id_insert]; [constructor; constructor |]. destruct (N.leb_spec x z).
  - constructor; [constructor; assumption |]. constructor; [assumption |]. eapply Forall_impl; [| exact F]. cbn. intros. lia.
  - constructor; [exact IH |]. apply Forall_forall. intros y Hy. apply in_id_insert in Hy. destruct Hy as [-> | Hy]; [lia |].
    rewrite Forall_forall in F. auto.
Qed.
Lemma in_sorted l y : In y (sorted_ids l) <-> In y l.
Proof. induction l as [| z l IH]; cbn [sorted_ids fold_right In]; [tauto |]. rewrite in_id_insert. fold (sorted_ids l). rewrite IH. intuition. Qed.
Lemma ss_sorted l : StronglySorted N.le (sorted_ids l).
Proof. induction l as [| z l IH]; cbn [sorted_ids fold_right]; [constructor |]. apply ss_id_insert, IH. Qed.
Lemma in_ids_from l id : forall acc y, In y (ids_from l id acc) <-> In y acc \/ (id <= y /\ In y (map w_id l)).
Proof.
  induction l as [| s l IH]; intros acc y; cbn [ids_from map In]; [tauto |].
  destruct (N.leb_spec id (w_id s)); rewrite IH; cbn [In]; [intuition (subst; auto) |]. intuition (subst; lia).
Qed.

Lemma loop_same l old new b : forall c, n_streams (add_out_loop c l old new b) = n_streams c /\
  n_next (add_out_loop c l old new b) = n_next c /\ lims (add_out_loop c l old new b) = lims c /\
  incl (n_out c) (n_out (add_out_loop c l old new b)).
Proof.
  assert (R : forall c, n_streams c = n_streams c /\ n_next c = n_next c /\ lims c = lims c /\ incl (n_out c) (n_out c)).
  { intro c. repeat (split; [reflexivity |]). apply incl_refl. }
  induction l as [| id l IH]; intro c; cbn [add_out_loop]; [apply R |].
  destruct (old <? id); [| apply IH]. destruct (new <? id); [apply R |].
  destruct (is_local_id id (n_client c) && Bool.eqb (is_bidir_id id) b); [| apply IH].
  destruct (w_lookup c id) as [s |]; [| apply R].
  destruct (IH (insert_output c s)) as (I1 & I2 & I3 & I4). destruct (insert_same c s) as (J1 & J2 & J3).
  rewrite I1, I2, I3. repeat (split; [assumption |]). eapply incl_tran; [apply insert_incl | exact I4].
Qed.

Lemma loop_in l old new b i : StronglySorted N.le l -> forall c,
  (forall x, In x l -> exst c x) -> In i l -> i mod 4 = ty (n_client c) b -> old < i -> i <= new ->
  above_limit c i = false -> In i (n_out (add_out_loop c l old new b)).
Proof.
  induction 1 as [| id l S IH F]; intros c Ex Hi Ht H1 H2 Ha; [contradiction |]. cbn [add_out_loop].
  rewrite Forall_forall in F. destruct (kind_local _ _ _ Ht) as (K1 & _ & K3).
  destruct Hi as [-> | Hi].
  - apply N.ltb_lt in H1. rewrite H1. rewrite (proj2 (N.ltb_ge _ _) H2), K3, K1, eqb_reflx. cbn [andb].
    destruct (Ex i (or_introl eq_refl)) as [s Ls]. rewrite Ls. apply loop_same.
    assert (E : w_id s = i) by exact (lookup_id _ _ _ Ls).
    unfold insert_output. rewrite E. destruct (is_out c i) eqn:Eo; [apply is_out_in, Eo |]. rewrite Ha.
    cbn [n_out n_set_streams]. apply in_out_place. auto.
  - assert (Ex' : forall x, In x l -> exst c x) by (intros; apply Ex; right; assumption).
    assert (Hle := F i Hi). destruct (old <? id); [| apply IH; assumption].
    destruct (N.ltb_spec new id); [lia |].
    destruct (is_local_id id (n_client c) && Bool.eqb (is_bidir_id id) b); [| apply IH; assumption].
    destruct (Ex id (or_introl eq_refl)) as [s Ls]. rewrite Ls.
    destruct (insert_same c s) as (J1 & J2 & J3). assert (JC : n_client (insert_output c s) = n_client c) by (unfold lims in J3; congruence).
    apply IH; try assumption.
    + intros x Hx. destruct (Ex' x Hx) as [y Ly]. exists y. unfold w_lookup in *. rewrite J1. exact Ly.
    + rewrite JC. exact Ht.
    + rewrite (above_lims _ _ _ J3). exact Ha.
Qed.

Lemma add_same c old new b : n_streams (add_output_streams c old new b) = n_streams c /\
  n_next (add_output_streams c old new b) = n_next c /\ lims (add_output_streams c old new b) = lims c /\
  incl (n_out c) (n_out (add_output_streams c old new b)).
Proof.
  unfold add_output_streams. cbv zeta. destruct (w_lookup c _); [apply loop_same |].
  repeat (split; [reflexivity |]). apply incl_refl.
Qed.

Lemma exst_in c i : exst c i <-> In i (map w_id (n_streams c)).
Proof. unfold exst. rewrite lookup_some_iff. reflexivity. Qed.

Lemma set_lim_lim c b v x : lim (set_lim c b v) x = if Bool.eqb x b then v else lim c x.
Proof. destruct b, x; reflexivity. Qed.

(** A stream waiting above the old limit enters the list when the limit passes it. *)
Lemma raise_in c b new i : base c -> (lim c b = 0 \/ typed (n_client c) b (lim c b)) -> typed (n_client c) b new ->
  (forall j, j mod 4 = ty (n_client c) b -> 4 <= j -> lim c b < j -> j < n_next c (j mod 4) -> exst c j) ->
  i mod 4 = ty (n_client c) b -> 4 <= i -> lim c b < i -> i <= new -> exst c i ->
  In i (n_out (add_output_streams (set_lim c b new) (lim c b) new b)).
Proof.
  intros B To [Tn Bn] D Ti H4 Ho Hn Ei.
  set (c1 := set_lim c b new).
  assert (EC : n_client c1 = n_client c) by (destruct b; reflexivity).
  assert (ES : n_streams c1 = n_streams c) by (destruct b; reflexivity).
  set (old := lim c b) in *. set (f := (old / 4 + 1) * 4 + ty (n_client c) b).
  assert (Ht : ty (n_client c) b < 4) by (unfold ty; destruct b, (n_client c); lia).
  pose proof (N.div_mod i 4). pose proof (N.div_mod old 4). pose proof (N.mod_lt old 4). pose proof (N.div_mod new 4).
  assert (Hf : f <= i /\ old < f /\ 4 <= f /\ f mod 4 = ty (n_client c) b).
  { unfold f. set (q := old / 4) in *. set (a := i / 4) in *. set (t := ty (n_client c) b) in *. split; [| split; [lia | split; [lia |]]].
    - destruct To as [To | [To _]]; [rewrite To in *; assert (q = 0) by (unfold q; rewrite To; reflexivity); lia | lia].
    - replace ((q + 1) * 4 + t) with (t + (q + 1) * 4) by lia. rewrite N.mod_add by lia. apply N.mod_small, Ht. }
  destruct Hf as (F1 & F2 & F3 & F4).
  assert (F6 : old + 4 < two64).
  { destruct To as [To | [To _]]; [rewrite To; reflexivity |].
    unfold f in F1. set (q := old / 4) in *. set (t := ty (n_client c) b) in *. lia. }
  assert (Ef : exst c f).
  { apply D; try assumption. rewrite F4, <- Ti. destruct B as (_ & _ & B3).
    destruct (N.lt_ge_cases i (n_next c (i mod 4))) as [Q | Q]; [lia |]. exfalso. apply (B3 i Q), exst_in, Ei. }
  unfold add_output_streams. cbv zeta. rewrite EC, first_id by exact F6. fold f.
  destruct Ef as [x Lx]. unfold w_lookup in *. rewrite ES, Lx.
  apply loop_in; try assumption.
  - apply ss_sorted.
  - intros y Hy. apply in_sorted, in_ids_from in Hy. destruct Hy as [[] | [_ Hy]]. apply exst_in. rewrite ES. exact Hy.
  - apply in_sorted, in_ids_from. right. split; [exact F1 |]. apply exst_in in Ei. exact Ei.
  - rewrite EC. exact Ti.
  - rewrite (kind_above c1 i b) by (rewrite EC; exact Ti). unfold c1. rewrite set_lim_lim, eqb_reflx. apply N.ltb_ge, Hn.
Qed.

Definition loose (cl b : bool) (m : N) : Prop := m = 0 \/ typed cl b m.

Lemma raise_kept c b new : base c -> loose (n_client c) b (lim c b) -> typed (n_client c) b new ->
  (forall j, j mod 4 = ty (n_client c) b -> 4 <= j -> lim c b < j -> j < n_next c (j mod 4) -> exst c j) ->
  kept c -> kept (add_output_streams (set_lim c b new) (lim c b) new b).
Proof.
  intros B To Tn D K i s. destruct (add_same (set_lim c b new) (lim c b) new b) as (A1 & A2 & A3 & A4).
  set (c2 := add_output_streams (set_lim c b new) (lim c b) new b) in *.
  assert (ES : n_streams c2 = n_streams c) by (rewrite A1; destruct b; reflexivity).
  assert (EC : n_client c2 = n_client c) by (transitivity (n_client (set_lim c b new)); [unfold lims in A3; congruence | destruct b; reflexivity]).
  assert (EL : forall k, lim c2 k = lim (set_lim c b new) k).
  { intro k. unfold lims in A3. injection A3 as Q1 Q2 Q3. unfold lim. destruct k; assumption. }
  intros L X. unfold w_lookup in L. rewrite ES in L. change (w_lookup c i = Some s) in L.
  destruct (K i s L X) as [H | [Ha H4]].
  - left. apply A4. destruct b; exact H.
  - destruct (above_kind _ _ Ha) as [T O]. set (k := is_bidir_id i) in *.
    assert (Ab : above_limit c2 i = (lim (set_lim c b new) k <? i)) by (rewrite <- EL; apply kind_above; rewrite EC; exact T).
    rewrite Ab, set_lim_lim. destruct (Bool.eqb k b) eqn:Ek.
    + apply Bool.eqb_prop in Ek. rewrite Ek in *. destruct (N.ltb_spec new i) as [Q | Q]; [right; auto |].
      left. apply raise_in; try assumption. exists s. exact L.
    + right. split; [apply N.ltb_lt, O | exact H4].
Qed.

(** The limits of a connection in its normal life. *)
Definition limits_ok (c : snd_cnx) : Prop :=
  typed (n_client c) true (n_max_bidi c) /\ typed (n_client c) false (n_max_uni c).
Definition normal (c : snd_cnx) : Prop := base c /\ limits_ok c /\ kept c /\ dense c /\ fresh c.

Lemma limits_lims c c' : lims c' = lims c -> limits_ok c -> limits_ok c'.
Proof. unfold lims, limits_ok. intros E. injection E as -> -> ->. auto. Qed.

Lemma normal_prims a c c' : prims a false c c' -> normal c -> normal c'.
Proof.
  apply prims_ind2. clear. intros c c' P (B & T & K & D & F).
  assert (E := lims_prim _ _ _ P). split; [eapply base_prim; eassumption |].
  split; [eapply limits_lims; eassumption |].
  split; [eapply kept_prim; try eassumption; apply typed_first; apply T |].
  split; [eapply dense_prim; eassumption | eapply fresh_prim; eassumption].
Qed.

Lemma normal_max_streams c uni v : normal c -> normal (recv_max_streams c uni v).
Proof.
  intros (B & T & K & D & F).
  assert (G : forall b new, typed (n_client c) b new -> lim c b < new ->
    normal (add_output_streams (set_lim c b new) (lim c b) new b)).
  { intros b new Tn Hn. assert (Tb : typed (n_client c) b (lim c b)) by (destruct b; apply T).
    destruct (add_same (set_lim c b new) (lim c b) new b) as (A1 & A2 & A3 & A4).
    assert (Ab : forall i, above_limit (set_lim c b new) i = true -> above_limit c i = true).
    { intros i H. destruct (above_kind _ _ H) as [H1 H2]. assert (EC : n_client (set_lim c b new) = n_client c) by (destruct b; reflexivity).
      rewrite EC in H1. rewrite (kind_above _ _ _ H1). apply N.ltb_lt. rewrite set_lim_lim in H2.
      destruct (Bool.eqb (is_bidir_id i) b) eqn:Eb; [apply Bool.eqb_prop in Eb; rewrite Eb; lia | exact H2]. }
    assert (KK : kept (add_output_streams (set_lim c b new) (lim c b) new b)).
    { apply raise_kept; [exact B | right; exact Tb | exact Tn | | exact K]. intros j J1 J2 J3 J4. apply D; [| exact J4].
      rewrite (kind_above _ _ _ J1). apply N.ltb_lt, J3. }
    set (c2 := add_output_streams (set_lim c b new) (lim c b) new b) in *.
    assert (ES : n_streams c2 = n_streams c) by (rewrite A1; destruct b; reflexivity).
    assert (EN : n_next c2 = n_next c) by (rewrite A2; destruct b; reflexivity).
    split; [unfold base; rewrite ES, EN; exact B |]. split.
    { eapply limits_lims; [exact A3 |]. destruct T as [T1 T2]. destruct b; split; assumption. }
    split; [exact KK |]. split.
    - intros i H1 H2. rewrite (above_lims _ _ _ A3) in H1. rewrite EN in H2.
      assert (Q := D i (Ab i H1) H2). unfold exst, w_lookup in *. rewrite ES. exact Q.
    - intros i s H1 H2. rewrite (above_lims _ _ _ A3) in H2. unfold w_lookup in H1. rewrite ES in H1. exact (F i s H1 (Ab i H2)). }
  assert (Same : normal c) by (split; [exact B |]; auto).
  unfold recv_max_streams. cbv zeta. destruct uni.
  - destruct (N.ltb_spec (n_max_uni c) (id_of_rank v (n_client c) true)) as [Q | Q]; [| exact Same].
    apply (G false); [apply (id_of_rank_typed v (n_client c) true) | exact Q].
  - destruct (N.ltb_spec (n_max_bidi c) (id_of_rank v (n_client c) false)) as [Q | Q]; [| exact Same].
    apply (G true); [apply (id_of_rank_typed v (n_client c) false) | exact Q].
Qed.

Lemma normal_delete c s : w_lookup c (w_id s) = Some s -> over s = true -> normal c ->
  normal (n_set_streams c (filter (fun x => negb (w_id x =? w_id s)) (n_streams c)) (filter (fun x => negb (x =? w_id s)) (n_out c))).
Proof.
  intros L O (B & T & K & D & F). set (c' := n_set_streams _ _ _).
  assert (P : prim false true c c') by (apply p_delete; [reflexivity | exact L | exact O]).
  assert (Lk : forall i, i <> w_id s -> w_lookup c' i = w_lookup c i) by (intros i Hi; apply delete_lookup, Hi).
  assert (Ln : w_lookup c' (w_id s) = None).
  { destruct (w_lookup c' (w_id s)) as [x |] eqn:E; [| reflexivity]. exfalso.
    assert (Q : exst c' (w_id s)) by (exists x; exact E). apply exst_in, in_map_iff in Q. destruct Q as (y & Q1 & Q2).
    cbn [c' n_streams n_set_streams] in Q2. apply filter_In in Q2. destruct Q2 as [_ Q2].
    rewrite Q1, N.eqb_refl in Q2. discriminate. }
  split; [eapply base_prim; eassumption |]. split; [exact T |]. split; [| split].
  - intros i x Lx Xx. destruct (N.eq_dec i (w_id s)) as [-> | Q]; [congruence |]. rewrite Lk in Lx by exact Q.
    destruct (K i x Lx Xx) as [H | H]; [| auto]. left. cbn [c' n_out n_set_streams]. apply filter_In.
    split; [exact H |]. apply negb_true_iff, N.eqb_neq, Q.
  - intros i Ha Hn. destruct (D i Ha Hn) as [x Lx]. destruct (N.eq_dec i (w_id s)) as [-> | Q].
    + rewrite L in Lx. apply some_inj in Lx. subst x. assert (Z := F _ _ L Ha). congruence.
    + exists x. rewrite Lk by exact Q. exact Lx.
  - intros i x Lx Ha. destruct (N.eq_dec i (w_id s)) as [-> | Q]; [congruence |]. rewrite Lk in Lx by exact Q. exact (F i x Lx Ha).
Qed.

Lemma normal_step c e c' its : late e = true -> snd_step c e = Some (c', its) -> normal c -> normal c'.
Proof.
  intros Hl E N0. destruct (special e) eqn:Es.
  - destruct e; try discriminate; cbn [snd_step] in E.
    + inv_pair E. apply normal_max_streams, N0.
    + inv_pair E. destruct (w_lookup c id) as [s |] eqn:Ls; [| exact N0].
      assert (id = w_id s) as -> by (symmetry; exact (lookup_id _ _ _ Ls)).
      destruct (w_fin_req s && w_fin_sent s || w_rst_req s && w_rst_sent s) eqn:Eo; [| exact N0].
      apply normal_delete; [exact Ls | | exact N0].
      unfold over. destruct (w_fin_sent s), (w_rst_sent s); try reflexivity. rewrite !andb_false_r in Eo. discriminate.
  - apply ps_step in E. rewrite Es in E. eapply normal_prims; eassumption.
Qed.

(** ** Before the transport parameters *)
Definition opened (cl strict : bool) (c : snd_cnx) : Prop :=
  n_client c = cl /\ base c /\ kept c /\ all_there c /\ fresh c /\ (strict = true -> all_fresh c).

Lemma opened_prims cl a c c' : prims a false c c' -> limits_ok c -> opened cl a c -> opened cl a c'.
Proof.
  intros P. induction P as [| x y z P1 P2 IH]; [auto |]. intros T (C & B & K & A & F & G).
  assert (E := lims_prim _ _ _ P1).
  apply IH; [eapply limits_lims; eassumption |].
  split; [unfold lims in E; congruence |]. split; [eapply base_prim; eassumption |].
  split; [eapply kept_prim; try eassumption; apply typed_first; apply T |].
  split; [eapply there_prim; eassumption |]. split; [eapply fresh_prim; eassumption |].
  intros ->. eapply all_fresh_prim; [exact P1 | exact B | apply G; reflexivity].
Qed.
Lemma prim_weak f c c' : prim true f c c' -> prim false f c c'.
Proof.
  intro P. destruct P as [c s s' L E1 E2 E3 E4 E5 | c s p L | c s err L | c s L | c s L X | c t Ht | c s Q L X |
    c c' M1 M2 M3 M4 M5 M6 | c | c m b u Q].
  - eapply p_put; try eassumption; [discriminate |]. intro O. destruct (E5 O) as [H | [H _]]; [auto | discriminate].
  - apply p_prio; assumption.
  - apply p_stop; assumption.
  - apply p_insert; assumption.
  - apply p_remove; assumption.
  - apply p_create; assumption.
  - apply p_delete; assumption.
  - apply p_misc; assumption.
  - apply p_raise.
  - apply p_limits; assumption.
Qed.
Lemma prims_weak f c c' : prims true f c c' -> prims false f c c'.
Proof. induction 1; [apply ps_nil | eapply ps_cons; [apply prim_weak; eassumption | assumption]]. Qed.

Lemma opened_run cl strict evs : forall c c' log,
  Forall (fun e => early e = true) evs -> (strict = true -> Forall (fun e => not_fill e = true) evs) ->
  snd_run c evs = Some (c', log) -> limits_ok c -> opened cl strict c ->
  lims c' = lims c /\ opened cl strict c'.
Proof.
  induction evs as [| e evs IH]; intros c c' log He Hs; cbn [snd_run].
  - intro E. inv_pair E. auto.
  - destruct (snd_step c e) as [[c1 i1] |] eqn:E1; [| discriminate].
    destruct (snd_run c1 evs) as [[c2 i2] |] eqn:E2; [| discriminate]. intro E. inv_pair E. intros T O.
    inversion He as [| ? ? H1 H2]; subst. apply ps_step in E1.
    assert (S : special e = false) by (destruct e; try discriminate; reflexivity). rewrite S in E1.
    assert (P : prims strict false c c1).
    { destruct strict.
      - specialize (Hs eq_refl). inversion Hs as [| ? ? Q1 Q2]; subst. rewrite Q1 in E1. exact E1.
      - destruct (not_fill e); [apply prims_weak |]; exact E1. }
    assert (L := prims_lims _ _ _ P).
    destruct (IH c1 c' i2) as [J1 J2]; try assumption.
    + intros ->. specialize (Hs eq_refl). inversion Hs; assumption.
    + eapply limits_lims; eassumption.
    + eapply opened_prims; eassumption.
    + split; [congruence | exact J2].
Qed.

Lemma opened_init cl strict c : n_client c = cl -> n_streams c = [] -> n_next c = (fun t => t) -> base c -> opened cl strict c.
Proof.
  intros C S N B. split; [exact C |]. split; [exact B |].
  assert (L : forall i s, w_lookup c i = Some s -> False) by (intros i s; unfold w_lookup; rewrite S; discriminate).
  split; [intros i s H; destruct (L i s H) |]. split.
  - intros i H. rewrite N in H. pose proof (N.mod_le i 4). lia.
  - split; [intros i s H; destruct (L i s H) |]. intros _ i s H. destruct (L i s H).
Qed.

(** ** The transport parameters *)
Definition key (b : bool) : tp := if b then TpStreamsBidi else TpStreamsUni.
Definition limit_of (cl b : bool) (v : N) : N := id_of_rank (if v =? 4294967295 then 0 else v) cl (negb b).

Definition flags (c c' : snd_cnx) : Prop := forall i s', w_lookup c' i = Some s' ->
  exists s, w_lookup c i = Some s /\ over s = over s'.
Definition grown (c c' : snd_cnx) : Prop :=
  n_client c' = n_client c /\ base c' /\ kept c' /\ all_there c' /\ flags c c'.

Lemma grown_same_lims c c' : prims true false c c' -> n_streams c' = n_streams c \/ c' = raise_initial c ->
  base c -> kept c' -> all_there c -> grown c c'.
Proof.
  intros P S B K A. assert (E := prims_lims _ _ _ P). split; [unfold lims in E; congruence |].
  assert (G : forall x y, prims true false x y -> base x -> all_there x -> base y /\ all_there y).
  { clear. induction 1 as [| x y z P1 P2 IH]; [auto |]. intros B A. apply IH; [eapply base_prim | eapply there_prim]; eassumption. }
  destruct (G _ _ P B A) as [B' A']. split; [exact B' |]. split; [exact K |]. split; [exact A' |].
  intros i s' L. destruct S as [S | S].
  - exists s'. unfold w_lookup in *. rewrite S in L. auto.
  - subst c'. rewrite raise_lookup in L. destruct (w_lookup c i) as [x |]; [| discriminate]. apply some_inj in L.
    exists x. split; [reflexivity |]. subst s'. destruct (_ || _); [destruct (_ <? _) |]; reflexivity.
Qed.

Lemma kept_raise c : kept c -> kept (raise_initial c).
Proof.
  intros K i x Lx Xx. rewrite raise_lookup in Lx. destruct (w_lookup c i) as [y |] eqn:Ly; [| discriminate].
  apply some_inj in Lx. apply (K i y Ly). subst x. revert Xx. destruct (_ || _); [destruct (_ <? _) |]; auto.
Qed.

Lemma tp_grown c k v : base c -> kept c -> all_there c -> (forall b, k = key b -> lim c b = 0) ->
  grown c (recv_tp c (k, v)) /\
  forall b, lim (recv_tp c (k, v)) b = match k, b with
    | TpStreamsBidi, true => limit_of (n_client c) true v
    | TpStreamsUni, false => limit_of (n_client c) false v
    | _, _ => lim c b end.
Proof.
  intros B K A Z.
  assert (Raise : forall cr, grown c (raise_initial (n_set_cr c cr))).
  { intro cr. assert (P1 : prims true false (n_set_cr c cr) (raise_initial (n_set_cr c cr))) by (apply ps_one, p_raise).
    apply grown_same_lims in P1; [exact P1 | right; reflexivity | exact B | apply kept_raise, K | exact A]. }
  assert (Lim : forall b, lim c b = 0 -> grown c (add_output_streams (set_lim c b (limit_of (n_client c) b v)) (lim c b) (limit_of (n_client c) b v) b) /\
    forall x, lim (add_output_streams (set_lim c b (limit_of (n_client c) b v)) (lim c b) (limit_of (n_client c) b v) b) x =
      if Bool.eqb x b then limit_of (n_client c) b v else lim c x).
  { intros b Hb. set (new := limit_of (n_client c) b v).
    assert (Tn : typed (n_client c) b new).
    { unfold new, limit_of. pose proof (id_of_rank_typed (if v =? 4294967295 then 0 else v) (n_client c) (negb b)) as Q.
      rewrite negb_involutive in Q. exact Q. }
    destruct (add_same (set_lim c b new) (lim c b) new b) as (A1 & A2 & A3 & A4).
    assert (KK : kept (add_output_streams (set_lim c b new) (lim c b) new b)).
    { apply raise_kept; [exact B | left; exact Hb | exact Tn | | exact K]. intros j _ _ _ J. apply A, J. }
    set (c2 := add_output_streams (set_lim c b new) (lim c b) new b) in *.
    assert (ES : n_streams c2 = n_streams c) by (rewrite A1; destruct b; reflexivity).
    assert (EN : n_next c2 = n_next c) by (rewrite A2; destruct b; reflexivity).
    unfold lims in A3. injection A3 as Q1 Q2 Q3. split.
    - split; [rewrite Q1; destruct b; reflexivity |]. split; [unfold base; rewrite ES, EN; exact B |].
      split; [exact KK |]. split.
      + intros i Hi. rewrite EN in Hi. apply A in Hi. unfold exst, w_lookup in *. rewrite ES. exact Hi.
      + intros i s L. exists s. unfold w_lookup in *. rewrite ES in L. auto.
    - intro x. rewrite <- set_lim_lim. unfold lim. destruct x; assumption. }
  destruct k; cbn [recv_tp fst snd]; cbv zeta.
  1-3: (split; [apply Raise | intros []; reflexivity]).
  - split; [| intros []; reflexivity]. split; [reflexivity |]. split; [exact B |]. split; [exact K |]. split; [exact A |].
    intros i s L. exists s. auto.
  - destruct (Lim true (Z true eq_refl)) as [G1 G2]. split; [exact G1 |]. intro b. specialize (G2 b).
    destruct b; exact G2.
  - destruct (Lim false (Z false eq_refl)) as [G1 G2]. split; [exact G1 |]. intro b. specialize (G2 b).
    destruct b; exact G2.
Qed.

Lemma values_cons b k v l : values (key b) ((k, v) :: l) =
  match k, b with
  | TpStreamsBidi, true => v :: values (key b) l
  | TpStreamsUni, false => v :: values (key b) l
  | _, _ => values (key b) l end.
Proof. destruct k, b; reflexivity. Qed.

Lemma fold_grown l : forall c, base c -> kept c -> all_there c ->
  (forall b, lim c b = 0 \/ values (key b) l = []) -> (forall b, (length (values (key b) l) <= 1)%nat) ->
  grown c (fold_left recv_tp l c) /\
  forall b, lim (fold_left recv_tp l c) b = match values (key b) l with [] => lim c b | v :: _ => limit_of (n_client c) b v end.
Proof.
  induction l as [| [k v] l IH]; intros c B K A Z One; cbn [fold_left].
  - split; [| reflexivity]. split; [reflexivity |]. split; [exact B |]. split; [exact K |]. split; [exact A |].
    intros i s L. eauto.
  - assert (Zk : forall b, k = key b -> lim c b = 0).
    { intros b ->. destruct (Z b) as [H | H]; [exact H |]. rewrite values_cons in H. destruct b; discriminate. }
    destruct (tp_grown c k v B K A Zk) as [(G1 & G2 & G3 & G4 & G5) GL].
    assert (One' : forall b, (length (values (key b) l) <= 1)%nat).
    { intro b. specialize (One b). rewrite values_cons in One. destruct k, b; cbn [length] in One; lia. }
    destruct (IH (recv_tp c (k, v))) as [(I1 & I2 & I3 & I4 & I5) IL]; try assumption.
    { intro b. specialize (Z b). specialize (One b). rewrite values_cons in Z, One. rewrite GL.
      destruct k, b; cbn [length] in One; try exact Z;
        (right; match goal with |- ?x = [] => destruct x; [reflexivity | cbn in One; lia] end). }
    split.
    + split; [congruence |]. split; [exact I2 |]. split; [exact I3 |]. split; [exact I4 |].
      intros i s L. destruct (I5 i s L) as (t & L1 & E1). destruct (G5 i t L1) as (u & L2 & E2). exists u. split; [exact L2 | congruence].
    + intro b. rewrite IL, values_cons, GL, G1. specialize (One b). rewrite values_cons in One.
      destruct k, b; cbn [length] in One; try reflexivity;
        (match goal with |- match ?x with _ => _ end = _ => destruct x; [reflexivity | cbn in One; lia] end).
Qed.

Lemma limit_of_typed cl b v : typed cl b (limit_of cl b v).
Proof. unfold limit_of. pose proof (id_of_rank_typed (if v =? 4294967295 then 0 else v) cl (negb b)) as Q. rewrite negb_involutive in Q. exact Q. Qed.

Lemma transport_normal cl strict c l vb vu : opened cl strict c ->
  values TpStreamsBidi l = [vb] -> values TpStreamsUni l = [vu] ->
  strict = true \/ (n_max_bidi c <= limit_of cl true vb /\ n_max_uni c <= limit_of cl false vu) ->
  normal (recv_transport c l).
Proof.
  intros (C & B & K & A & F & G) Vb Vu H. unfold recv_transport.
  assert (Kc : kept (clear_tp c)).
  { intros i s L X. destruct (K i s L X) as [Q | [Q1 Q2]]; [left; exact Q |]. right. split; [| exact Q2].
    destruct (above_kind _ _ Q1) as [T _]. rewrite (kind_above (clear_tp c) i (is_bidir_id i)) by exact T.
    apply N.ltb_lt. unfold lim, clear_tp, n_set_limits. cbn [n_max_bidi n_max_uni]. destruct (is_bidir_id i); lia. }
  destruct (fold_grown l (clear_tp c)) as [(G1 & G2 & G3 & G4 & G5) GL]; try assumption.
  { intros []; left; reflexivity. }
  { intros []; cbn [key]; rewrite ?Vb, ?Vu; cbn; lia. }
  set (y := fold_left recv_tp l (clear_tp c)) in *.
  assert (Yb : n_max_bidi y = limit_of cl true vb).
  { pose proof (GL true) as Q. cbn [key lim] in Q. rewrite Vb in Q. rewrite <- C. exact Q. }
  assert (Yu : n_max_uni y = limit_of cl false vu).
  { pose proof (GL false) as Q. cbn [key lim] in Q. rewrite Vu in Q. rewrite <- C. exact Q. }
  assert (Yc : n_client y = cl) by (rewrite <- C; exact G1).
  split; [exact G2 |]. split; [split; rewrite ?Yb, ?Yu, Yc; apply limit_of_typed |].
  split; [exact G3 |]. split; [intros i _ Hi; apply G4, Hi |].
  intros i s' L Ha. destruct (G5 i s' L) as (s & Ls & <-). change (w_lookup c i = Some s) in Ls.
  destruct (above_kind _ _ Ha) as [T O]. rewrite Yc in T. destruct H as [-> | [H1 H2]].
  - apply (G eq_refl i s Ls). rewrite C. apply kind_local in T. tauto.
  - apply (F i s Ls). rewrite (kind_above c i (is_bidir_id i)) by (rewrite C; exact T). apply N.ltb_lt.
    revert O. unfold lim. destruct (is_bidir_id i); rewrite ?Yb, ?Yu; lia.
Qed.

Lemma normal_run evs : forall c c' log, Forall (fun e => late e = true) evs -> snd_run c evs = Some (c', log) -> normal c -> normal c'.
Proof.
  induction evs as [| e evs IH]; intros c c' log F; cbn [snd_run].
  - intro E. inv_pair E. auto.
  - destruct (snd_step c e) as [[c1 i1] |] eqn:E1; [| discriminate].
    destruct (snd_run c1 evs) as [[c2 i2] |] eqn:E2; [| discriminate]. intro E. inv_pair E. intro H.
    inversion F; subst. eapply IH; [eassumption | exact E2 |]. eapply normal_step; eassumption.
Qed.

Lemma run_app evs1 : forall evs2 c c' log, snd_run c (evs1 ++ evs2) = Some (c', log) ->
  exists c1 l1 l2, snd_run c evs1 = Some (c1, l1) /\ snd_run c1 evs2 = Some (c', l2).
Proof.
  induction evs1 as [| e evs1 IH]; intros evs2 c c' log; cbn [app snd_run]; [eauto |].
  destruct (snd_step c e) as [[c1 i1] |]; [| discriminate].
  destruct (snd_run c1 (evs1 ++ evs2)) as [[c2 i2] |] eqn:E2; [| discriminate]. intro E. inv_pair E.
  destruct (IH _ _ _ _ E2) as (c3 & l1 & l2 & R1 & R2). rewrite R1. eauto.
Qed.

Lemma connection_normal cl p evs c log : connection_order cl evs -> snd_run (snd0 cl p) evs = Some (c, log) -> normal c.
Proof.
  intros (pre & l & post & vb & vu & -> & Vb & Vu & Op & Po) R.
  destruct (run_app _ _ _ _ _ R) as (c1 & l1 & l2 & R1 & R2). cbn [snd_run] in R2.
  cbn [snd_step] in R2. destruct (snd_run (recv_transport c1 l) post) as [[c2 i2] |] eqn:R3; [| discriminate]. inv_pair R2.
  eapply normal_run; [exact Po | exact R3 |]. clear R R3 Po post. unfold opening in Op. destruct cl.
  - destruct Op as (cr & m & sb & su & rest & -> & He & Hc). cbn [snd_run snd_step] in R1.
    set (c0 := start_client (snd0 true p) cr m sb su) in *.
    destruct (snd_run c0 rest) as [[c3 i3] |] eqn:R4; [| discriminate]. inv_pair R1.
    assert (T0 : limits_ok c0).
    { split; [apply (id_of_rank_typed sb true false) | apply (id_of_rank_typed su true true)]. }
    assert (O0 : forall st, opened true st c0).
    { intro st. apply opened_init; try reflexivity. exact (proj1 (good_init true p)). }
    destruct Hc as [(S1 & S2 & S3 & S4 & S5 & S6) | Hn].
    + destruct (opened_run true false rest c0 c1 i3 He) as [J1 J2]; try assumption; [discriminate | apply O0 |].
      eapply (transport_normal true false); [exact J2 | exact Vb | exact Vu |]. right.
      unfold lims in J1. injection J1 as _ -> ->.
      assert (NE : forall v, sane_count v = true -> (if v =? 4294967295 then 0 else v) = v).
      { intros v Hv. unfold sane_count in Hv. rewrite !andb_true_iff, negb_true_iff in Hv. destruct Hv as [_ ->]. reflexivity. }
      unfold limit_of. rewrite !NE by assumption. unfold c0, start_client. cbn [n_set_limits n_max_bidi n_max_uni n_set_cr n_client snd0].
      cbn [negb]. rewrite !id_of_rank_sane by assumption. cbn [negb ty]. lia.
    + destruct (opened_run true true rest c0 c1 i3 He (fun _ => Hn) R4 T0 (O0 true)) as [J1 J2].
      eapply (transport_normal true true); [exact J2 | exact Vb | exact Vu | left; reflexivity].
  - subst pre. cbn [snd_run] in R1. inv_pair R1.
    eapply (transport_normal false true); [| exact Vb | exact Vu | left; reflexivity].
    apply opened_init; try reflexivity. exact (proj1 (good_init false p)).
Qed.

Lemma unfinished_live s : unfinished s -> exhausted s = false.
Proof.
  unfold unfinished, exhausted. intros [(H1 & H2 & _) | (H1 & H2)].
  - rewrite H1, H2. destruct (w_fin_req s), (w_rst_req s), (w_stop_req s), (w_stop_sent s); reflexivity.
  - rewrite H1, H2. apply andb_false_r.
Qed.

Lemma not_forgotten cl p evs c log i s : connection_order cl evs -> snd_run (snd0 cl p) evs = Some (c, log) ->
  w_lookup c i = Some s -> unfinished s -> permitted c i -> In i (n_out c).
Proof.
  intros O R L U P. destruct (connection_normal _ _ _ _ _ O R) as (_ & _ & K & _ & _).
  destruct (K i s L (unfinished_live _ U)) as [H | [H _]]; [exact H |]. apply above_permitted in P. congruence.
Qed.

Lemma sends_if_any cl p evs c log c' i s : connection_order cl evs -> snd_run (snd0 cl p) evs = Some (c, log) ->
  find_ready c = (c', None) -> w_lookup c i = Some s -> unfinished s -> permitted c i -> ~ sendable c s.
Proof.
  intros O R F L U P. eapply no_choice; [exact R | exact F | eapply not_forgotten; eassumption | exact L].
Qed.

(** ** Counter-examples *)
(** The parameters of the peer say nothing about streams (the default is zero);
    the first stream is written and a MAX_STREAMS frame allows it. *)
Definition first_forgotten : list sev :=
  [STransport [(TpMaxData, 10000); (TpBidiRemote, 1000)]; SAdd 1 [1; 2; 3] true; SMaxStreams false 3].
Lemma first_is_forgotten : exists c log s,
  snd_run (snd0 false 9) first_forgotten = Some (c, log) /\ w_lookup c 1 = Some s /\
  unfinished s /\ permitted c 1 /\ sendable c s /\ ~ In 1 (n_out c) /\ find_ready c = (c, None).
Proof.
  eexists _, _, _. split; [vm_compute; reflexivity |]. split; [reflexivity |]. split; [| split; [| split; [| split]]].
  - left. split; [reflexivity |]. split; [reflexivity |]. left. right. left. eexists _, _, _. split; reflexivity.
  - intros _. vm_compute. discriminate.
  - right. split; [right; left; eexists _, _, _; split; reflexivity |]. split; [reflexivity |]. split; [reflexivity |].
    intros _ _. vm_compute. discriminate.
  - intros [].
  - reflexivity.
Qed.

(** All the credit of the stream is used; then the application ends the stream. *)
Definition end_blocked : list sev :=
  [SStart (mk_cr 0 0 0) 0 0 0;
   STransport [(TpMaxData, 10000); (TpBidiRemote, 3); (TpStreamsBidi, 5); (TpStreamsUni, 5)];
   SAdd 0 [1; 2; 3] false; SFill 100 1200 5 18446744073709551615 (fun _ => ReplyNone); SAdd 0 [] true].
Lemma end_is_blocked : connection_order true end_blocked /\ exists c log s,
  snd_run (snd0 true 9) end_blocked = Some (c, log) /\ w_lookup c 0 = Some s /\ permitted c 0 /\ In 0 (n_out c) /\
  w_queue s = [] /\ w_fin_req s = true /\ w_fin_sent s = false /\ w_rst_req s = false /\
  find_ready c = (c, None).
Proof.
  split.
  - exists [SStart (mk_cr 0 0 0) 0 0 0], [(TpMaxData, 10000); (TpBidiRemote, 3); (TpStreamsBidi, 5); (TpStreamsUni, 5)].
    eexists _, 5, 5. split; [reflexivity |]. split; [reflexivity |]. split; [reflexivity |]. split.
    + exists (mk_cr 0 0 0), 0, 0, 0, []. split; [reflexivity |]. split; [constructor |]. right. constructor.
    + repeat constructor.
  - eexists _, _, _. split; [vm_compute; reflexivity |]. split; [reflexivity |]. repeat split; try reflexivity; [intros _; vm_compute; discriminate | left; reflexivity].
Qed.
