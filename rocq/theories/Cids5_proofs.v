(** Proofs about the stored connection ids: the steps of a connection without multipath. *)
From Verif Require Import Base Tac Mem Varint_model Varint_proofs Cids_model Cids_spec Cids_proofs Cids2_proofs Cids3_proofs Cids4_proofs.
From Coq Require Import Lia Permutation.

(* A connection without multipath. *)
Definition single (limit mx : N) (ml mr : bool) (nx : N) (b : N) (l : list rcid) (ts : list tuple) (dm ab : bool) (r : list (N * N)) : conn :=
  mk_conn false limit mx ml mr nx [mk_stash 0 b l] [mk_path 0 ts dm ab] r.

Definition all_cids (ts : list tuple) : Prop := forall t, In t ts -> exists a, tu_cid t = Some a.

Inductive ninv (h : list event) : conn -> Prop :=
| mk_ninv limit mx ml mr nx b l ts dm ab r :
  ts <> [] -> all_cids ts -> kinv l (tused ts) r h -> NoDup (tused ts) -> (forall e, In e l -> blen (rc_id e) <> 0) ->
  ninv h (single limit mx ml mr nx b l ts dm ab r).

Lemma ninv_more h e cn : ninv h cn -> ninv (h ++ [e]) cn.
Proof. intros [limit mx ml mr nx b l ts dm ab r H1 H2 H3 H4 H5]. constructor; auto. apply kinv_more. exact H3. Qed.

Lemma rcid_at_single limit mx ml mr nx b l ts dm ab r a : 
  rcid_at (single limit mx ml mr nx b l ts dm ab r) a = find (fun e => rc_addr e =? a) l.
Proof. unfold rcid_at, single. cbn [cn_stashes flat_map sh_list]. rewrite app_nil_r. reflexivity. Qed.

Lemma find_addr l e : NoDup (map rc_addr l) -> In e l -> find (fun x => rc_addr x =? rc_addr e) l = Some e.
Proof.
  intros Hn He. destruct (find (fun x => rc_addr x =? rc_addr e) l) as [x |] eqn:E.
  - apply find_some in E. destruct E as (E1 & E2). apply N.eqb_eq in E2. rewrite (nodup_inj rc_addr l x e Hn E1 He E2). reflexivity.
  - pose proof (find_none _ _ E e He) as H. cbv beta in H. rewrite N.eqb_refl in H. discriminate H.
Qed.

(* Changing the id of the first tuple. *)
Lemma renew_single h limit mx ml mr nx b l t ts dm ab r a ea :
  kinv l (tused (t :: ts)) r h -> (forall e, In e l -> blen (rc_id e) <> 0) ->
  tu_cid t = Some a -> In ea l -> rc_addr ea = a -> rc_sent ea = false ->
  let cn := single limit mx ml mr nx b l (t :: ts) dm ab r in
  renew_path cn 0 = Some (false, cn) \/
  exists e, In e l /\ rc_refs e = 0 /\ rc_removal e = false /\
  renew_path cn 0 = Some (true, single limit mx ml mr nx b (map (bump (rc_addr e)) (map (give a) l)) (set_cid (Some (rc_addr e)) t :: ts) dm ab (r ++ [(0, rc_seq ea)])).
Proof.
  intros K Hne Ht Hea Ha Hs cn. pose proof (k_addr _ _ _ _ K) as Hn.
  assert (A1 : nth_error (cn_paths cn) 0 = Some (mk_path 0 (t :: ts) dm ab)) by reflexivity.
  assert (A2 : first_tuple (mk_path 0 (t :: ts) dm ab) = Some t) by reflexivity.
  assert (A3 : cn_mp cn = false) by reflexivity.
  assert (A4 : find_stash cn 0 = Some (mk_stash 0 b l)) by reflexivity.
  assert (A5 : rcid_at cn a = Some ea) by (unfold cn; rewrite rcid_at_single, <- Ha; exact (find_addr l ea Hn Hea)).
  unfold renew_path. rewrite A1. cbn [obind]. rewrite A2. cbn [obind]. rewrite A3, A4, Ht, A5. cbn [obind].
  match goal with |- context[if ?c then Some (false, cn) else _] => destruct c; [left; reflexivity |] end. cbn [sh_list].
  destruct (get_cnxid l) as [e |] eqn:Eg; [| left; reflexivity].
  destruct (rc_seq e =? rc_seq ea); [left; reflexivity |]. right. exists e.
  destruct (get_cnxid_spec _ _ Eg) as (G1 & G2). destruct G2 as [G2 | (G2 & G3)]; [exfalso; exact (Hne e G1 G2) |].
  split; [exact G1 | split; [exact G2 | split; [exact G3 |]]].
  unfold dereference. rewrite A1. cbn [obind]. rewrite A2. cbn [obind]. rewrite Ht, A5. cbn [obind].
  assert (R1 : rc_refs ea = 1).
  { pose proof (k_refs _ _ _ _ K ea Hea). assert (1 <= rc_refs ea); [| lia]. apply (k_used _ _ _ _ K ea Hea). cbn [tused flat_map]. rewrite Ht, <- Ha. left. reflexivity. }
  rewrite R1. change (1 <=? 1) with true. cbv iota. rewrite (k_acked _ _ _ _ K ea Hea), Hs, A3. reflexivity.
Qed.

Lemma bump_ids a g l : (forall e, In e l -> blen (rc_id e) <> 0) -> (forall e, rc_id (g e) = rc_id e) -> forall e, In e (map (bump a) (map g l)) -> blen (rc_id e) <> 0.
Proof.
  intros H Hg e He. apply in_map_iff in He. destruct He as (x & <- & Hx). apply in_map_iff in Hx. destruct Hx as (y & <- & Hy).
  unfold bump. destruct (_ =? _); cbn [set_refs rc_id]; rewrite Hg; exact (H y Hy).
Qed.

Lemma ninv_renewed h limit mx ml mr nx b l t ts dm ab r a ea e :
  kinv l (tused (t :: ts)) r h -> NoDup (tused (t :: ts)) -> (forall e, In e l -> blen (rc_id e) <> 0) -> all_cids (t :: ts) ->
  tu_cid t = Some a -> In ea l -> rc_addr ea = a -> In e l -> rc_refs e = 0 -> rc_removal e = false ->
  ninv h (single limit mx ml mr nx b (map (bump (rc_addr e)) (map (give a) l)) (set_cid (Some (rc_addr e)) t :: ts) dm ab (r ++ [(0, rc_seq ea)])).
Proof.
  intros K Hd Hne Hall Ht Hea Ha He R0 Rm.
  assert (Hus : tused (t :: ts) = a :: tused ts) by (cbn [tused flat_map]; rewrite Ht; reflexivity). rewrite Hus in K, Hd.
  assert (Hnu : ~ In (rc_addr e) (a :: tused ts)) by (intros Hc; pose proof (k_used _ _ _ _ K e He Hc); lia).
  inversion Hd as [| z m Hz Hm]; subst z m.
  assert (Ra : rc_refs ea = 1).
  { pose proof (k_refs _ _ _ _ K ea Hea). assert (1 <= rc_refs ea); [| lia]. apply (k_used _ _ _ _ K ea Hea). rewrite Ha. left. reflexivity. }
  constructor.
  - discriminate.
  - intros x [<- | Hx]; [exists (rc_addr e); reflexivity | apply Hall; right; exact Hx].
  - cbn [tused flat_map set_cid tu_cid app]. fold (tused ts).
    assert (Hg : give a e = e) by (unfold give; destruct (N.eqb_spec (rc_addr e) a) as [E | E]; [exfalso; apply Hnu; left; congruence | reflexivity]).
    assert (Kg : kinv (map (give a) l) (tused ts) (r ++ [(0, rc_seq ea)]) h).
    { rewrite <- Ha. apply kinv_give; auto. 
      - apply (kinv_used _ (a :: tused ts)); [exact K | intros x Hx; right; exact Hx].
      - rewrite Ha. exact Hz. }
    apply (kinv_bump _ _ _ _ e Kg); auto. rewrite <- Hg. apply in_map. exact He.
  - cbn [tused flat_map set_cid tu_cid app]. fold (tused ts). constructor; [intros Hc; apply Hnu; right; exact Hc | exact Hm].
  - apply bump_ids; [exact Hne |]. intros x. unfold give. destruct (_ =? _); reflexivity.
Qed.

Lemma first_alive h l t ts r : kinv l (tused (t :: ts)) r h -> all_cids (t :: ts) ->
  exists a ea, tu_cid t = Some a /\ In ea l /\ rc_addr ea = a /\ rc_sent ea = false.
Proof.
  intros K Hall. destruct (Hall t (or_introl eq_refl)) as (a & Ha).
  destruct (k_alive _ _ _ _ K a) as (ea & E1 & E2 & E3); [cbn [tused flat_map]; rewrite Ha; left; reflexivity |].
  exists a, ea. auto.
Qed.

Lemma ninv_renew h cn : ninv h cn -> exists ok cn', renew_path cn 0 = Some (ok, cn') /\ ninv h cn'.
Proof.
  intros [limit mx ml mr nx b l ts dm ab r H1 H2 H3 H4 H5]. destruct ts as [| t ts]; [contradiction |].
  destruct (first_alive _ _ _ _ _ H3 H2) as (a & ea & F1 & F2 & F3 & F4).
  destruct (renew_single h limit mx ml mr nx b l t ts dm ab r a ea H3 H5 F1 F2 F3 F4) as [E | (e & E1 & E2 & E3 & E)].
  - exists false, (single limit mx ml mr nx b l (t :: ts) dm ab r). split; [exact E | constructor; auto].
  - eexists true, _. split; [exact E |]. apply ninv_renewed; auto.
Qed.

Lemma add_retires_single limit mx ml mr nx b l ts dm ab q : forall r,
  fold_left (fun cn x => add_retire cn 0 x) q (single limit mx ml mr nx b l ts dm ab r) = single limit mx ml mr nx b l ts dm ab (r ++ map (pair 0) q).
Proof.
  induction q as [| x q IH]; intros r; cbn [fold_left map]; [rewrite app_nil_r; reflexivity |].
  change (add_retire (single limit mx ml mr nx b l ts dm ab r) 0 x) with (single limit mx ml mr nx b l ts dm ab (r ++ [(0, x)])).
  rewrite IH, <- app_assoc. reflexivity.
Qed.

(* Ids below a number are marked, and the first tuple changes its id if needed. *)
Lemma remove_single h limit mx ml mr nx b l t ts dm ab r before :
  kinv l (tused (t :: ts)) r h -> NoDup (tused (t :: ts)) -> (forall e, In e l -> blen (rc_id e) <> 0) -> all_cids (t :: ts) ->
  exists err cn', remove_not_before (single limit mx ml mr nx b l (t :: ts) dm ab r) 0 before = Some (err, cn') /\ ninv h cn' /\
  (err = 0 ->
   (forall e, In e (flat cn') -> rc_seq e < before -> rc_removal e = true /\ (rc_sent e = true \/ 1 <= rc_refs e)) /\
   (dm = false -> exists e, path_rcid cn' 0 = Some e /\ before <= rc_seq e)).
Proof.
  intros K Hd Hne Hall. set (cn := single limit mx ml mr nx b l (t :: ts) dm ab r).
  assert (A1 : find_stash cn 0 = Some (mk_stash 0 b l)) by reflexivity.
  unfold remove_not_before. rewrite A1. cbn [sh_list]. rewrite (retire_below_eq l before (k_acked _ _ _ _ K)). cbv zeta.
  set (l2 := map (mark before) l). set (q := map rc_seq (filter (fresh_retire before) l)).
  change (map_stash 0 (fun s => mk_stash (sh_path s) (sh_before s) l2) cn) with (single limit mx ml mr nx b l2 (t :: ts) dm ab r).
  rewrite add_retires_single. set (r2 := r ++ map (pair 0) q).
  pose proof (kinv_mark _ _ _ _ before K) as K2. fold l2 in K2. fold q in K2. fold r2 in K2.
  assert (Hne2 : forall e, In e l2 -> blen (rc_id e) <> 0).
  { intros e He. unfold l2 in He. apply in_map_iff in He. destruct He as (x & <- & Hx).
    assert (Hi : rc_id (mark before x) = rc_id x) by (unfold mark; destruct (rc_seq x <? before); cbn [set_removal rc_removal rc_refs]; destruct (_ && _); reflexivity).
    rewrite Hi. exact (Hne x Hx). }
  assert (Hm : forall e, In e l2 -> rc_seq e < before -> rc_removal e = true /\ (rc_sent e = true \/ 1 <= rc_refs e)).
  { intros e He L. unfold l2 in He. apply in_map_iff in He. destruct He as (x & <- & Hx).
    destruct (mark_same before x) as (M1 & M2 & M3 & M4 & M5 & M6 & M7 & M8). rewrite M2 in L. destruct (M8 L) as (N1 & N2).
    split; [exact N1 |]. destruct (N.eq_dec (rc_refs x) 0) as [Z | Z]; [left; exact (N2 Z) | right; rewrite M3; lia]. }
  destruct (first_alive _ _ _ _ _ K2 Hall) as (a & ea & F1 & F2 & F3 & F4).
  set (cn2 := single limit mx ml mr nx b l2 (t :: ts) dm ab r2).
  assert (A2 : cn_mp cn2 = false) by reflexivity. rewrite A2.
  assert (A3 : length (cn_paths cn2) = 1%nat) by reflexivity. rewrite A3. cbn [renew_all]. rewrite A3. cbn [Nat.leb].
  unfold renew_below.
  assert (A4 : nth_error (cn_paths cn2) 0 = Some (mk_path 0 (t :: ts) dm ab)) by reflexivity. rewrite A4. cbn [obind].
  assert (A5 : path_rcid cn2 0 = Some ea).
  { unfold path_rcid. rewrite A4. cbn [obind first_tuple pa_tuples nth_error]. rewrite F1. cbn [obind]. unfold cn2. rewrite rcid_at_single, <- F3.
    exact (find_addr l2 ea (k_addr _ _ _ _ K2) F2). }
  rewrite A5. cbn [obind pa_demoted].
  assert (N2 : ninv h cn2) by (constructor; auto; discriminate).
  assert (Hflat : flat cn2 = l2) by (unfold flat, cn2; cbn; apply app_nil_r).
  assert (L0 : (0 <? blen (rc_id ea)) = true) by (apply N.ltb_lt; specialize (Hne2 ea F2); lia). rewrite L0, Bool.andb_true_r.
  destruct (N.ltb_spec (rc_seq ea) before) as [L | L]; cbn [andb].
  - destruct dm; cbn [negb].
    + exists 0, cn2. split; [reflexivity |]. split; [exact N2 |]. intros _. split; [| discriminate]. rewrite Hflat. exact Hm.
    + destruct (renew_single h limit mx ml mr nx b l2 t ts false ab r2 a ea K2 Hne2 F1 F2 F3 F4) as [E | (e & E1 & E2 & E3 & E)]; fold cn2 in E; rewrite E; cbn [obind].
      * exists 10, cn2. split; [reflexivity |]. split; [exact N2 |]. discriminate.
      * set (cn3 := single limit mx ml mr nx b (map (bump (rc_addr e)) (map (give a) l2)) (set_cid (Some (rc_addr e)) t :: ts) false ab (r2 ++ [(0, rc_seq ea)])) in *.
        cbn [N.eqb].
        exists 0, cn3. split; [reflexivity |]. split; [apply ninv_renewed; auto |].
        intros _. split.
        -- intros x Hx Lx. unfold flat, cn3 in Hx. cbn in Hx. rewrite app_nil_r in Hx. apply in_map_iff in Hx. destruct Hx as (y & <- & Hy).
           apply in_map_iff in Hy. destruct Hy as (z & <- & Hz).
           assert (Hb : forall w, rc_seq (bump (rc_addr e) w) = rc_seq w /\ rc_removal (bump (rc_addr e) w) = rc_removal w /\ rc_sent (bump (rc_addr e) w) = rc_sent w /\ rc_refs w <= rc_refs (bump (rc_addr e) w))
             by (intros w; unfold bump; destruct (_ =? _); cbn; repeat split; lia).
           assert (Hg : forall w, rc_seq (give a w) = rc_seq w /\ rc_removal (give a w) = rc_removal w /\ (rc_sent w = true -> rc_sent (give a w) = true) /\ rc_refs w = rc_refs (give a w))
             by (intros w; unfold give; destruct (_ =? _); cbn; repeat split; auto).
           destruct (Hb (give a z)) as (B1 & B2 & B3 & B4). destruct (Hg z) as (G1 & G2 & G3 & G4).
           rewrite B1, G1 in Lx. destruct (Hm z Hz Lx) as (M1 & M2). split; [congruence |]. destruct M2 as [M2 | M2]; [left; rewrite B3; auto | right; lia].
        -- intros _. assert (Le : before <= rc_seq e).
           { destruct (N.lt_ge_cases (rc_seq e) before) as [Lt | Ge]; [| exact Ge]. destruct (Hm e E1 Lt). congruence. }
           exists (bump (rc_addr e) (give a e)).
           assert (Hba : rc_addr (bump (rc_addr e) (give a e)) = rc_addr e) by (unfold bump, give; destruct (rc_addr e =? a); cbn; destruct (_ =? _); reflexivity).
           assert (Hbs : rc_seq (bump (rc_addr e) (give a e)) = rc_seq e) by (unfold bump, give; destruct (rc_addr e =? a); cbn; destruct (_ =? _); reflexivity).
           split; [| rewrite Hbs; exact Le].
           unfold path_rcid. assert (P3 : nth_error (cn_paths cn3) 0 = Some (mk_path 0 (set_cid (Some (rc_addr e)) t :: ts) false ab)) by reflexivity.
           rewrite P3. cbn [obind first_tuple pa_tuples nth_error set_cid tu_cid]. unfold cn3. rewrite rcid_at_single.
           assert (N3 : ninv h cn3) by (apply ninv_renewed; auto).
           assert (Ha3 : NoDup (map rc_addr (map (bump (rc_addr e)) (map (give a) l2)))) by (inversion N3; subst; match goal with K3 : kinv _ _ _ _ |- _ => first [exact (k_addr _ _ _ _ K3)] end).
           pose proof (find_addr _ _ Ha3 (in_map (bump (rc_addr e)) _ _ (in_map (give a) _ _ E1))) as Q. rewrite Hba in Q. exact Q.
  - exists 0, cn2. split; [reflexivity |]. split; [exact N2 |]. intros _. rewrite Hflat. split; [exact Hm |]. intros _. exists ea. auto.
Qed.
