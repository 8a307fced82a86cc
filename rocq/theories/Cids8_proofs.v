(** Proofs about the stored connection ids: the statements of C31, and their limits. *)
From Verif Require Import Base Tac Mem Varint_model Cids_model Cids_spec Cids_proofs Cids2_proofs Cids3_proofs Cids7_proofs.
From Coq Require Import Lia.

Lemma issued_prefix a b p seq id secret : issued a p seq id secret -> issued (a ++ b) p seq id secret.
Proof. intros (m & x & H). exists m, x. apply in_app_iff. left. exact H. Qed.

Lemma path_inj l (x y : stash) : NoDup (map sh_path l) -> In x l -> In y l -> sh_path x = sh_path y -> x = y.
Proof.
  induction l as [| z l IH]; cbn [map]; intros Hn Hx Hy E; [contradiction |]. inversion Hn as [| w m Hw Hm]; subst.
  destruct Hx as [-> | Hx], Hy as [-> | Hy]; [reflexivity | | | exact (IH Hm Hx Hy E)].
  - exfalso. apply Hw. rewrite E. apply in_map. exact Hy.
  - exfalso. apply Hw. rewrite <- E. apply in_map. exact Hx.
Qed.

Lemma reaches_consistent mp limit mx ml mr id secret chal evs cn out :
  1 <= limit -> reaches mp limit mx ml mr id secret chal evs cn out ->
  (forall p e1 e2, stored cn p e1 -> stored cn p e2 -> rc_seq e1 = rc_seq e2 \/ rc_id e1 = rc_id e2 \/ rc_secret e1 = rc_secret e2 -> e1 = e2) /\
  (forall p e, stored cn p e -> (p = 0 /\ rc_seq e = 0 /\ rc_id e = id /\ rc_secret e = secret) \/ issued evs p (rc_seq e) (rc_id e) (rc_secret e)).
Proof.
  intros Hl R. destruct (reaches_sinv _ _ _ _ _ _ _ _ _ _ _ Hl R) as (h1 & h2 & -> & I). split.
  - intros p e1 e2 (s1 & A1 & A2 & A3) (s2 & B1 & B2 & B3) H.
    assert (Es : s1 = s2) by (apply (path_inj (cn_stashes cn)); [exact (si_paths _ _ _ _ _ I) | exact A1 | exact B1 | congruence]).
    subst s2. destruct (si_cons _ _ _ _ _ I s1 A1) as (C1 & C2 & C3).
    destruct H as [H | [H | H]]; [exact (nodup_inj rc_seq _ _ _ C1 A3 B3 H) | exact (nodup_inj rc_id _ _ _ C2 A3 B3 H) | exact (nodup_inj rc_secret _ _ _ C3 A3 B3 H)].
  - intros p e (s & A1 & A2 & A3). destruct (si_from _ _ _ _ _ I s e A1 A3) as [H | (H & _)]; [left; rewrite <- A2; exact H | right].
    rewrite <- A2. apply issued_prefix. exact H.
Qed.

Lemma reaches_limit mp limit mx ml mr id secret chal evs cn out s :
  1 <= limit -> reaches mp limit mx ml mr id secret chal evs cn out -> In s (cn_stashes cn) ->
  N.of_nat (length (sh_list s)) <= 2 * limit /\ N.of_nat (length (active s)) <= limit.
Proof.
  intros Hl R Hs. destruct (reaches_sinv _ _ _ _ _ _ _ _ _ _ _ Hl R) as (h1 & h2 & -> & I). exact (si_len _ _ _ _ _ I s Hs).
Qed.

Lemma reaches_frame mp limit mx ml mr id0 secret0 chal evs cn out is_mp p seq before id secret e0 s :
  1 <= limit -> reaches mp limit mx ml mr id0 secret0 chal evs cn out -> path_rcid cn 0 = Some e0 -> blen (rc_id e0) <> 0 ->
  well_formed cn is_mp p seq before id -> In s (cn_stashes cn) -> sh_path s = p ->
  let e := ENew is_mp p seq before id secret in
  (forall x, stored cn p x -> conflicts x seq id secret -> exists cn', step cn e = Some (cn', [OError 10])) /\
  (forall x, stored cn p x -> repeated x seq id secret -> before <= sh_before s -> step cn e = Some (cn, [])) /\
  ((forall x, stored cn p x -> ~ conflicts x seq id secret /\ ~ repeated x seq id secret) ->
   let room := N.of_nat (length (sh_list s)) < 2 * limit /\ N.of_nat (length (filter (fun x => negb ((rc_seq x <? N.max before (sh_before s)) || rc_sent x)) (sh_list s))) < limit in
   (~ room -> exists cn', step cn e = Some (cn', [OError 9])) /\
   (room -> before <= sh_before s -> exists cn', step cn e = Some (cn', []) /\ exists x, stored cn' p x /\ repeated x seq id secret)).
Proof.
  intros Hl R E0 L0 W Hs Hp e. destruct (reaches_sinv _ _ _ _ _ _ _ _ _ _ _ Hl R) as (h1 & h2 & -> & I).
  assert (Es : stash_of cn p = s).
  { unfold stash_of. destruct (find_stash cn p) as [s' |] eqn:Ef.
    - destruct (find_stash_in _ _ _ Ef) as (F1 & F2). apply (path_inj (cn_stashes cn)); [exact (si_paths _ _ _ _ _ I) | exact F1 | exact Hs | congruence].
    - exfalso. pose proof (find_none _ _ Ef s Hs) as H. cbv beta in H. rewrite Hp, N.eqb_refl in H. discriminate H. }
  destruct (frame_outcome limit id0 secret0 h1 cn is_mp p seq before id secret e0 I E0 L0 W) as (F1 & F2 & F3). rewrite Es in F2, F3.
  split; [| split].
  - intros x Hx Hc. destruct (F1 x Hx Hc) as (cn' & H & _). exists cn'. exact H.
  - exact F2.
  - intros Hn room. destruct (F3 Hn) as (G1 & G2). split.
    + intros Hr. destruct (G1 Hr) as (cn' & H & _). exists cn'. exact H.
    + intros Hr Hb. destruct (G2 Hr Hb) as (cn' & H & _ & Hx). exists cn'. split; [exact H | exact Hx].
Qed.

Lemma reaches_one_tuple mp limit mx ml mr id secret chal evs cn out :
  1 <= limit -> 1 <= blen id -> reaches mp limit mx ml mr id secret chal evs cn out -> NoDup (used cn).
Proof. intros Hl Hid R. exact (proj1 (reaches_uinv _ _ _ _ _ _ _ _ _ _ _ Hl Hid R)). Qed.

(* Examples. *)
Definition ex_id0 : list N := [10;10;10;10].
Definition ex_secret0 : list N := repeat 1 16.
Definition ex_new (is_mp : bool) (p n b : N) : event := ENew is_mp p n b [10 + n; p; n; n] (repeat (50 + n + 10 * p) 16).
Definition ex_cn (mp ml : bool) (limit : N) : conn := init_conn mp limit 3 ml false ex_id0 ex_secret0 (1, 2, 3).
