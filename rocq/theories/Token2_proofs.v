(** Proofs about histories of the token store. *)
From Verif Require Import Base Tac Varint_model Varint_proofs Token_model Token_spec Token_proofs.

Lemma same_bytes_eq : forall a b, same_bytes a b = true <-> a = b.
Proof.
  induction a as [| x a IH]; intros [| y b]; cbn; try (split; congruence).
  rewrite andb_true_iff, N.eqb_eq, IH. split; [intros [-> ->]; reflexivity | intros [= -> ->]; auto].
Qed.
Lemma eqb_bytes_eq a b : eqb_bytes a b = true <-> a = b.
Proof. unfold eqb_bytes. destruct (list_eq_dec N.eq_dec a b); split; congruence. Qed.
Lemma same_eqb a b : same_bytes a b = eqb_bytes a b.
Proof. apply eq_true_iff_eq. rewrite same_bytes_eq, eqb_bytes_eq. reflexivity. Qed.

(** ** Choice of the token *)
Definition test (now : N) (sni : list N) (t : token) : bool :=
  (now <? tk_valid t) && same_bytes (tk_sni t) sni && negb (tk_used t).

Lemma test_usable now sni t : test now sni t = true <-> usable now sni [] t.
Proof.
  unfold test, usable. rewrite !andb_true_iff, N.ltb_lt, same_bytes_eq, negb_true_iff. intuition congruence.
Qed.

Lemma blen_pos_ip ip : (0 <? blen ip) = true <-> ip <> [].
Proof. destruct ip; unfold blen; cbn; [split; [discriminate | congruence] | split; [discriminate | reflexivity]]. Qed.

Lemma best_sound now sni ip : forall l i best j t, best_match now sni ip l i best = Some (j, t) ->
  best = Some (j, t) \/ exists k, j = (i + k)%nat /\ nth_error l k = Some t /\ usable now sni ip t.
Proof.
  induction l as [| x l IH]; intros i best j t E; cbn [best_match] in E; [left; exact E |].
  assert (K : forall best', best_match now sni ip l (S i) best' = Some (j, t) ->
    best' = Some (j, t) \/ exists k, j = (i + k)%nat /\ nth_error (x :: l) k = Some t /\ usable now sni ip t).
  { intros best' F. destruct (IH _ _ _ _ F) as [H | (k & -> & N & U)]; [left; exact H | right].
    exists (S k). split; [lia |]. split; assumption. }
  fold (test now sni x) in E. destruct (test now sni x) eqn:T; [| apply K, E].
  apply test_usable in T. destruct (0 <? blen ip) eqn:B.
  - destruct (same_bytes (tk_ip x) ip) eqn:I; [| apply K, E]. injection E as <- <-. right. exists 0%nat.
    split; [lia |]. split; [reflexivity |]. apply same_bytes_eq in I. destruct T as (T1 & T2 & T3 & _). repeat split; auto.
  - assert (NI : ip = []) by (destruct ip; [reflexivity | discriminate]).
    assert (S : best_match now sni ip l (S i) (Some (i, x)) = Some (j, t) ->
      best = Some (j, t) \/ exists k, j = (i + k)%nat /\ nth_error (x :: l) k = Some t /\ usable now sni ip t).
    { intros F. destruct (K _ F) as [[= <- <-] | H]; [| right; exact H]. right. exists 0%nat. rewrite NI.
      split; [lia |]. split; [reflexivity | exact T]. }
    destruct best as [[jb b] |]; [destruct (tk_valid b <? tk_valid x) |]; auto.
Qed.

Lemma best_complete now sni ip : forall l i best, best_match now sni ip l i best = None ->
  best = None /\ forall t, In t l -> ~ usable now sni ip t.
Proof.
  induction l as [| x l IH]; intros i best E; cbn [best_match] in E; [split; [exact E | intros t []] |].
  fold (test now sni x) in E. destruct (test now sni x) eqn:T.
  - destruct (0 <? blen ip) eqn:B.
    + destruct (same_bytes (tk_ip x) ip) eqn:I; [discriminate |]. destruct (IH _ _ E) as (H1 & H2). split; [exact H1 |].
      intros t [<- | Ht]; [| apply H2, Ht]. intros (_ & _ & _ & U). apply blen_pos_ip in B. apply U in B.
      apply same_bytes_eq in B. congruence.
    + destruct best as [[jb b] |]; [destruct (tk_valid b <? tk_valid x) |]; destruct (IH _ _ E); discriminate.
  - destruct (IH _ _ E) as (H1 & H2). split; [exact H1 |]. intros t [<- | Ht]; [| apply H2, Ht].
    intros (U1 & U2 & U3 & _). assert (test now sni x = true) by (apply test_usable; repeat split; congruence || auto). congruence.
Qed.

Lemma best_latest now sni : forall l i best j t, best_match now sni [] l i best = Some (j, t) ->
  (forall u, In u l -> usable now sni [] u -> tk_valid u <= tk_valid t) /\
  (forall k b, best = Some (k, b) -> tk_valid b <= tk_valid t).
Proof.
  induction l as [| x l IH]; intros i best j t E; cbn [best_match] in E.
  - split; [intros u [] | intros k b H; rewrite E in H; injection H as _ <-; lia].
  - fold (test now sni x) in E. change (0 <? blen []) with false in E. cbv iota in E.
    destruct (test now sni x) eqn:T.
    + destruct best as [[jb b] |]; [destruct (N.ltb_spec (tk_valid b) (tk_valid x)) |]; destruct (IH _ _ _ _ E) as (H1 & H2).
      * pose proof (H2 _ _ eq_refl). split; [intros u [<- | Hu] U; [assumption | apply H1; assumption] | intros k b' [= _ <-]; lia].
      * pose proof (H2 _ _ eq_refl). split; [intros u [<- | Hu] U; [lia | apply H1; assumption] | intros k b' [= _ <-]; lia].
      * pose proof (H2 _ _ eq_refl). split; [intros u [<- | Hu] U; [assumption | apply H1; assumption] | discriminate].
    + destruct (IH _ _ _ _ E) as (H1 & H2). split; [| exact H2]. intros u [<- | Hu] U; [| apply H1; assumption].
      apply test_usable in U. congruence.
Qed.

(** The get operation, exactly. *)
Lemma get_exact now sni ip mark l l' r : (forall t, In t l -> tk_tok t <> []) -> get_token now sni ip mark l = (l', r) ->
  match r with
  | None => l' = l /\ forall t, In t l -> ~ usable now sni ip t
  | Some tok => exists l1 t l2, l = l1 ++ t :: l2 /\ l' = l1 ++ set_used t mark :: l2 /\ tk_tok t = tok /\
      usable now sni ip t /\ (ip = [] -> forall u, In u l -> usable now sni ip u -> tk_valid u <= tk_valid t)
  end.
Proof.
  intros NE E. unfold get_token in E. destruct (best_match now sni ip l 0 None) as [[i t] |] eqn:B.
  - destruct (best_sound _ _ _ _ _ _ _ _ B) as [H | (k & -> & Hn & U)]; [discriminate |]. cbn [Nat.add] in *.
    pose proof (nth_error_In _ _ Hn) as Hi.
    destruct (N.eqb_spec (blen (tk_tok t)) 0) as [Z | Z]; [exfalso; apply (NE t Hi), blen_zero, Z |].
    injection E as <- <-. destruct (nth_error_split _ _ Hn) as (l1 & l2 & -> & <-). exists l1, t, l2.
    split; [reflexivity |]. split.
    { clear. induction l1 as [| x l1 IH]; cbn; [reflexivity |]. f_equal. exact IH. }
    split; [reflexivity |]. split; [exact U |]. intros -> u Hu Uu.
    exact (proj1 (best_latest _ _ _ _ _ _ _ B) u Hu Uu).
  - injection E as <- <-. split; [reflexivity |]. exact (proj2 (best_complete _ _ _ _ _ _ B)).
Qed.

(** ** Counting *)
Definition fits (sni tok : list N) (t : token) : bool :=
  negb (tk_used t) && eqb_bytes (tk_sni t) sni && eqb_bytes (tk_tok t) tok.
Definition cnt (sni tok : list N) (l : list token) : N := N.of_nat (length (filter (fits sni tok) l)).

Lemma cnt_app sni tok a b : cnt sni tok (a ++ b) = cnt sni tok a + cnt sni tok b.
Proof. unfold cnt. rewrite filter_app, app_length. lia. Qed.
Lemma cnt_cons sni tok t l : cnt sni tok (t :: l) = (if fits sni tok t then 1 else 0) + cnt sni tok l.
Proof. unfold cnt. cbn [filter]. destruct (fits sni tok t); cbn [length]; lia. Qed.
Lemma cnt_filter sni tok P l : cnt sni tok (filter P l) <= cnt sni tok l.
Proof.
  induction l as [| t l IH]; cbn [filter]; [lia |]. destruct (P t); rewrite ?cnt_cons; lia.
Qed.

Lemma stored_app sni tok a b : times_stored sni tok (a ++ b) = times_stored sni tok a + times_stored sni tok b.
Proof. induction a as [| [[] []] a IH]; cbn [times_stored app]; rewrite ?IH; lia. Qed.
Lemma used_app sni tok a b : times_used sni tok (a ++ b) = times_used sni tok a + times_used sni tok b.
Proof. induction a as [| [[? ? ? ? | ? ? ? [] | ? | ? |] []] a IH]; cbn [times_used app]; rewrite ?IH; lia. Qed.

(** ** Where tokens come from *)
Definition origin (log : list (tev * tout)) (t : token) : Prop :=
  sane_token t /\ tk_sni t <> [] /\ tk_tok t <> [] /\
  exists t0, In (EvStore t0 (tk_sni t) (tk_ip t) (tk_tok t), TStored) log /\ tk_valid t = t0 + one_day.

Lemma origin_more log x t : origin log t -> origin (log ++ x) t.
Proof. intros (A & B & C & t0 & I & V). repeat split; auto; try apply A. exists t0. split; [apply in_or_app; left; exact I | exact V]. Qed.

Lemma origin_used log t b : origin log t -> origin log (set_used t b).
Proof. intros (A & B & C & D). repeat split; try apply A; assumption. Qed.

Lemma origin_size log t : origin log t -> 14 < record_size t.
Proof.
  intros (_ & A & _). unfold record_size. destruct (tk_sni t); [contradiction |]. unfold blen. cbn [length]. lia.
Qed.

Definition tweak (log : list (tev * tout)) (s : tstore) (ts : list token) : Prop :=
  Forall (origin log) (ts_list s) /\ ts_file s = records ts /\
  Forall (origin log) ts /\ Forall (fun t => 14 < record_size t <= 2048) ts /\ Forall (fun t => tk_used t = false) ts.
Definition tcount (log : list (tev * tout)) (dirty : bool) (s : tstore) (ts : list token) : Prop :=
  (forall sni tok, cnt sni tok (ts_list s) + times_used sni tok log <= times_stored sni tok log) /\
  (dirty = false -> forall sni tok, cnt sni tok ts + times_used sni tok log <= times_stored sni tok log).

Lemma origins_more log x l : Forall (origin log) l -> Forall (origin (log ++ x)) l.
Proof. apply Forall_impl. intros t. apply origin_more. Qed.

Lemma mark_origin log i b : forall l, Forall (origin log) l -> Forall (origin log) (mark_at i b l).
Proof.
  induction i as [| i IH]; intros [| t l] F; cbn [mark_at]; auto; inversion F; subst; constructor; auto using origin_used.
Qed.

Lemma set_used_same t : tk_used t = false -> set_used t false = t.
Proof. destruct t; cbn. intros ->. reflexivity. Qed.

Lemma set_unused l : Forall (fun t => tk_used t = false) l -> map (fun t => set_used t false) l = l.
Proof. induction 1 as [| t l H F IH]; cbn [map]; [reflexivity |]. rewrite set_used_same, IH by assumption. reflexivity. Qed.

Lemma forall_filter {A} (P : A -> Prop) f l : Forall P l -> Forall P (filter f l).
Proof. rewrite !Forall_forall. intros H x Hx. apply filter_In in Hx. apply H. tauto. Qed.

(** ** One event *)
Definition next_dirty (dirty : bool) (e : tev) : bool :=
  match e with EvSave _ => false | EvGet _ _ _ true => true | _ => dirty end.
Definition load_ok (dirty : bool) (e : tev) : bool := match e with EvLoad _ => negb dirty | _ => true end.

Lemma fresh_cons dirty e l : fresh_loads dirty (e :: l) = load_ok dirty e && fresh_loads (next_dirty dirty e) l.
Proof. destruct e as [| ? ? ? [] | | |]; reflexivity. Qed.

Lemma get_none_or now sni ip mark l l' r : get_token now sni ip mark l = (l', r) ->
  (r = None /\ l' = l) \/
  exists l1 t l2, l = l1 ++ t :: l2 /\ l' = l1 ++ set_used t mark :: l2 /\ r = Some (tk_tok t) /\ usable now sni ip t.
Proof.
  unfold get_token. destruct (best_match now sni ip l 0 None) as [[i t] |] eqn:B.
  - destruct (best_sound _ _ _ _ _ _ _ _ B) as [H | (k & -> & Hn & U)]; [discriminate |]. cbn [Nat.add].
    destruct (blen (tk_tok t) =? 0); intros [= <- <-]; [left; auto | right].
    destruct (nth_error_split _ _ Hn) as (l1 & l2 & -> & <-). exists l1, t, l2. repeat split; try apply U.
    clear. induction l1 as [| x l1 IH]; cbn; [reflexivity |]. f_equal. exact IH.
  - intros [= <- <-]. left; auto.
Qed.

(** What a get hands out. *)
Definition out_ok (log : list (tev * tout)) (e : tev) (o : tout) : Prop :=
  match e, o with
  | EvGet now sni ip _, TGot tok => exists ip', accepted log now sni ip' tok /\ (ip <> [] -> ip' = ip)
  | _, _ => True
  end.

Lemma step_inv log s ts e s' o : tweak log s ts -> sane_tev e = true ->
  tstep s e = Some (s', o) -> out_ok log e o /\
  exists ts', tweak (log ++ [(e, o)]) s' ts' /\
    forall dirty, tcount log dirty s ts -> load_ok dirty e = true -> tcount (log ++ [(e, o)]) (next_dirty dirty e) s' ts'.
Proof.
  intros (I1 & I2 & I3 & I3b & I3c) Hs E.
  destruct e as [now sni ip tok | now sni ip mark | now | now |]; cbn [tstep] in E.
  - split; [destruct o; exact I |]. exists ts. unfold store_token in E.
    destruct ((blen tok <? 1) || (blen sni =? 0)) eqn:G; cbv beta iota zeta in E; apply some_pair_inj in E; destruct E as [<- <-].
    + split; [unfold tweak; cbn [ts_list ts_file]; auto using origins_more |].
      intros dirty (I4 & I5) _. split; cbn [ts_list ts_file load_ok next_dirty].
      * intros a b. rewrite used_app, stored_app. cbn [times_used times_stored]. specialize (I4 a b). lia.
      * intros D a b. rewrite used_app, stored_app. cbn [times_used times_stored]. specialize (I5 D a b). lia.
    + cbn [sane_tev] in Hs. rewrite !andb_true_iff, !N.ltb_lt in Hs. destruct Hs as ((((((B1 & B2) & B3) & B4) & B5) & B6) & B7).
      apply orb_false_iff in G. destruct G as (G1 & G2).
      assert (V : u64 (now + 24 * 3600 * 1000000) = now + one_day).
      { unfold u64, one_day, two64. rewrite N.mod_small; lia. }
      rewrite V.
      assert (BO : forall l, bytes_okb l = true -> bytes_ok l).
      { intros l H. unfold bytes_okb in H. rewrite forallb_forall in H. apply Forall_forall. intros x Hx. apply H in Hx. apply N.ltb_lt in Hx. exact Hx. }
      split.
      { unfold tweak. cbn [ts_list ts_file]. split; [| auto using origins_more]. constructor; [| apply forall_filter, origins_more, I1].
        unfold origin, sane_token. cbn [tk_valid tk_sni tk_ip tk_tok]. split; [| split; [| split]].
        - repeat match goal with |- _ /\ _ => split end; auto. unfold one_day, two64. lia.
        - intros ->. discriminate.
        - intros ->. discriminate.
        - exists now. split; [apply in_or_app; right; left; reflexivity | reflexivity]. }
      intros dirty (I4 & I5) _. split; cbn [ts_list ts_file load_ok next_dirty].
      * intros a b. rewrite used_app, stored_app. cbn [times_used times_stored].
        specialize (I4 a b). rewrite cnt_cons. unfold fits at 1. cbn [tk_used tk_sni tk_tok negb andb].
        match goal with |- context [cnt a b (filter ?P (ts_list s))] => pose proof (cnt_filter a b P (ts_list s)) end. lia.
      * intros D a b. rewrite used_app, stored_app. cbn [times_used times_stored]. specialize (I5 D a b). lia.
  - destruct (get_token now sni ip mark (ts_list s)) as [l' r] eqn:G. apply some_pair_inj in E. destruct E as [<- <-].
    destruct (get_none_or _ _ _ _ _ _ _ G) as [(-> & ->) | (l1 & t & l2 & E1 & -> & -> & U)].
    + split; [exact I |]. exists ts. split; [unfold tweak; cbn [ts_list ts_file]; auto using origins_more |].
      intros dirty (I4 & I5) _. split; cbn [ts_list ts_file load_ok next_dirty].
      * intros a b. rewrite used_app, stored_app. specialize (I4 a b). destruct mark; cbn [times_used times_stored]; lia.
      * intros D a b. rewrite used_app, stored_app. destruct mark; [discriminate D |]. specialize (I5 D a b). cbn [times_used times_stored]. lia.
    + split.
      { cbn [out_ok]. rewrite E1 in I1. apply Forall_app in I1. destruct I1 as (_ & I1). inversion I1 as [| ? ? O _]; subst.
        destruct O as (_ & _ & _ & t0 & In0 & V). destruct U as (U1 & U2 & U3 & U4). exists (tk_ip t). split; [| exact U4].
        exists t0. rewrite <- U2. split; [exact In0 | lia]. }
      exists ts. split.
      { unfold tweak. cbn [ts_list ts_file]. split; [| auto using origins_more].
        apply (origins_more log [(EvGet now sni ip mark, TGot (tk_tok t))]) in I1. rewrite E1 in I1. apply Forall_app in I1. destruct I1 as (J1 & J2).
        inversion J2; subst. apply Forall_app. split; [exact J1 |]. constructor; [apply origin_used |]; assumption. }
      intros dirty (I4 & I5) _. destruct U as (U1 & U2 & U3 & U4). split; cbn [ts_list ts_file load_ok next_dirty].
      * intros a b. rewrite used_app, stored_app. specialize (I4 a b). rewrite E1 in I4. rewrite cnt_app, cnt_cons in *.
        unfold fits in *. cbn [tk_used tk_sni tk_tok set_used] in *. rewrite U3 in I4. rewrite U2 in *.
        destruct mark; cbn [times_used times_stored negb andb] in *; destruct (eqb_bytes sni a && eqb_bytes (tk_tok t) b); lia.
      * destruct mark; [discriminate |]. intros D a b. rewrite used_app, stored_app. cbn [times_used times_stored].
        specialize (I5 D a b). lia.
  - apply some_pair_inj in E. destruct E as [<- <-]. split; [exact I |].
    destruct (save_records now (ts_list s)) as (ts1 & rest & E1 & E2 & E3 & E4 & E5). exists ts1.
    assert (K : Forall (origin log) ts1 /\ Forall (fun t => tk_used t = false) ts1).
    { assert (K : Forall (origin log) (filter (keep now) (ts_list s))) by (apply forall_filter, I1). rewrite E2 in K.
      apply Forall_app in K. split; [apply K |].
      assert (K2 : Forall (fun t => tk_used t = false) (filter (keep now) (ts_list s))).
      { apply Forall_forall. intros x Hx. apply filter_In in Hx. destruct Hx as (_ & Hx). unfold keep in Hx.
        apply andb_true_iff in Hx. destruct Hx as (_ & Hx). apply negb_true_iff in Hx. exact Hx. }
      rewrite E2 in K2. apply Forall_app in K2. apply K2. }
    destruct K as (K1 & K2).
    assert (R : Forall (fun t => 14 < record_size t <= 2048) ts1).
    { rewrite Forall_forall in *. intros x Hx. split; [apply (origin_size log), K1, Hx | apply E3, Hx]. }
    split; [unfold tweak; cbn [ts_list ts_file]; auto 10 using origins_more |].
    intros dirty (I4 & I5) _. split; cbn [ts_list ts_file load_ok next_dirty].
    + intros a b. rewrite used_app, stored_app. cbn [times_used times_stored]. specialize (I4 a b). lia.
    + intros _ a b. rewrite used_app, stored_app. cbn [times_used times_stored]. specialize (I4 a b).
      pose proof (cnt_filter a b (keep now) (ts_list s)) as C. rewrite E2, cnt_app in C. lia.
  - unfold load_tokens in E. rewrite I2 in E.
    assert (SN : Forall sane_token ts) by (eapply Forall_impl; [| exact I3]; intros t (A & _); exact A).
    destruct (load_records now ts (S (length (records ts))) [] SN I3b ltac:(lia)) as (pre & post & Ep & El & _).
    rewrite El in E. cbn [app] in E. rewrite set_unused in E.
    2:{ apply forall_filter. rewrite Ep in I3c. apply Forall_app in I3c. apply I3c. }
    assert (F : Forall (origin log) (filter (live now) pre)).
    { apply forall_filter. rewrite Ep in I3. apply Forall_app in I3. apply I3. }
    assert (C : forall a b, cnt a b (filter (live now) pre) <= cnt a b ts).
    { intros a b. rewrite Ep, cnt_app. pose proof (cnt_filter a b (live now) pre). lia. }
    set (nl := filter (live now) pre) in *.
    assert (Es : s' = mk_ts (match nl with [] => ts_list s | _ :: _ => nl end) (ts_file s) /\ o = TNothing).
    { rewrite <- I2 in E. destruct nl; apply some_pair_inj in E; destruct E as [<- <-]; auto. }
    destruct Es as (-> & ->). split; [exact I |]. exists ts. split.
    { unfold tweak. cbn [ts_list ts_file]. split; [| auto using origins_more]. destruct nl; apply origins_more; assumption. }
    intros dirty (I4 & I5) D. cbn [load_ok] in D. apply negb_true_iff in D. split; cbn [ts_list ts_file next_dirty].
    + intros a b. rewrite used_app, stored_app. cbn [times_used times_stored]. specialize (C a b). specialize (I5 D a b). specialize (I4 a b).
      destruct nl; lia.
    + intros D' a b. rewrite used_app, stored_app. cbn [times_used times_stored]. specialize (I5 D' a b). lia.
  - apply some_pair_inj in E. destruct E as [<- <-]. split; [exact I |]. exists ts.
    split; [unfold tweak; cbn [ts_list ts_file]; auto using origins_more |].
    intros dirty (I4 & I5) _. split; cbn [ts_list ts_file next_dirty].
    + intros a b. rewrite used_app, stored_app. cbn [times_used times_stored]. specialize (I4 a b). change (cnt a b []) with 0. lia.
    + intros D' a b. rewrite used_app, stored_app. cbn [times_used times_stored]. specialize (I5 D' a b). lia.
Qed.

(** Every event is defined. *)
Lemma step_defined log s ts e : tweak log s ts -> exists r, tstep s e = Some r.
Proof.
  intros (I1 & I2 & I3 & I3b & I3c). destruct e as [now sni ip tok | now sni ip mark | now | now |]; cbn [tstep]; eauto.
  - destruct (store_token now sni ip tok (ts_list s)). eauto.
  - destruct (get_token now sni ip mark (ts_list s)). eauto.
  - unfold load_tokens. rewrite I2.
    assert (SN : Forall sane_token ts) by (eapply Forall_impl; [| exact I3]; intros t (A & _); exact A).
    destruct (load_records now ts (S (length (records ts))) [] SN I3b ltac:(lia)) as (pre & post & Ep & -> & _).
    cbn [app]. destruct (map _ _); eauto.
Qed.

(** ** Histories *)
Lemma run_inv : forall evs log s ts, tweak log s ts -> forallb sane_tev evs = true ->
  exists s' log' ts', trun s evs = Some (s', log') /\ tweak (log ++ log') s' ts' /\
    (forall l1 e o l2, log' = l1 ++ (e, o) :: l2 -> out_ok (log ++ l1) e o) /\
    (forall dirty, tcount log dirty s ts -> fresh_loads dirty evs = true ->
       forall sni tok, times_used sni tok (log ++ log') <= times_stored sni tok (log ++ log')).
Proof.
  induction evs as [| e evs IH]; intros log s ts W Hs; cbn [trun forallb] in *.
  - exists s, [], ts. rewrite app_nil_r. split; [reflexivity |]. split; [exact W |].
    split; [intros [| ? l1] ? ? l2 Q; discriminate Q |]. intros dirty (I4 & _) _ a b. specialize (I4 a b). lia.
  - apply andb_true_iff in Hs. destruct Hs as (H1 & H2). destruct (step_defined _ _ _ e W) as ([s1 o] & E). rewrite E.
    destruct (step_inv _ _ _ _ _ _ W H1 E) as (O & ts1 & W1 & C1).
    destruct (IH _ _ _ W1 H2) as (s2 & log2 & ts2 & E2 & W2 & O2 & C2). rewrite E2. exists s2, ((e, o) :: log2), ts2.
    rewrite <- app_assoc in W2, C2. cbn [app] in W2, C2.
    split; [reflexivity |]. split; [exact W2 |]. split.
    + intros l1 e1 o1 l2 Q. destruct l1 as [| x l1]; cbn [app] in Q.
      * injection Q as <- <- <-. rewrite app_nil_r. exact O.
      * injection Q as <- Q. specialize (O2 _ _ _ _ Q). rewrite <- app_assoc in O2. exact O2.
    + intros dirty C F. rewrite fresh_cons in F. apply andb_true_iff in F. destruct F as (F1 & F2).
      exact (C2 _ (C1 _ C F1) F2).
Qed.

Lemma tweak0 : tweak [] ts0 [].
Proof. unfold tweak, ts0. cbn. auto. Qed.
Lemma tcount0 : tcount [] false ts0 [].
Proof. split; intros; cbn; lia. Qed.

Lemma history_defined evs : forallb sane_tev evs = true -> exists s log, trun ts0 evs = Some (s, log).
Proof. intros H. destruct (run_inv evs [] ts0 [] tweak0 H) as (s & log & ts & E & _). eauto. Qed.

Lemma got_valid evs s log l1 now sni ip mark tok l2 : forallb sane_tev evs = true -> trun ts0 evs = Some (s, log) ->
  log = l1 ++ (EvGet now sni ip mark, TGot tok) :: l2 ->
  exists ip', accepted l1 now sni ip' tok /\ (ip <> [] -> ip' = ip).
Proof.
  intros H E Q. destruct (run_inv evs [] ts0 [] tweak0 H) as (s' & log' & ts & E' & _ & O & _). rewrite E in E'.
  injection E' as <- <-. exact (O _ _ _ _ Q).
Qed.

Lemma used_once evs s log sni tok : forallb sane_tev evs = true -> fresh_loads false evs = true ->
  trun ts0 evs = Some (s, log) -> times_used sni tok log <= times_stored sni tok log.
Proof.
  intros H F E. destruct (run_inv evs [] ts0 [] tweak0 H) as (s' & log' & ts & E' & _ & _ & C). rewrite E in E'.
  injection E' as <- <-. exact (C false tcount0 F sni tok).
Qed.

Lemma reachable_tokens evs s log : forallb sane_tev evs = true -> trun ts0 evs = Some (s, log) ->
  forall t, In t (ts_list s) -> tk_tok t <> [].
Proof.
  intros H E. destruct (run_inv evs [] ts0 [] tweak0 H) as (s' & log' & ts & E' & (W & _) & _). rewrite E in E'.
  injection E' as <- <-. rewrite Forall_forall in W. intros t Ht. apply W in Ht. apply Ht.
Qed.

(** ** A stored token is found *)
Definition key (sni ip : list N) (t : token) : bool := eqb_bytes (tk_sni t) sni && eqb_bytes (tk_ip t) ip.

Lemma find_filter P Q (l : list token) : (forall x, P x = true -> Q x = true) -> find P (filter Q l) = find P l.
Proof.
  intros H. induction l as [| x l IH]; [reflexivity |]. cbn [filter find]. destruct (Q x) eqn:E; cbn [find].
  - destruct (P x); [reflexivity | exact IH].
  - destruct (P x) eqn:F; [apply H in F; congruence | exact IH].
Qed.

Lemma find_middle P (l1 : list token) x y l2 : P x = false -> P y = false -> find P (l1 ++ x :: l2) = find P (l1 ++ y :: l2).
Proof.
  intros A B. induction l1 as [| z l1 IH]; cbn [app find]; [rewrite A, B; reflexivity |]. destruct (P z); [reflexivity | exact IH].
Qed.

Lemma leaves_step sni ip e s s' o t : leaves sni ip e = true -> tstep s e = Some (s', o) ->
  find (key sni ip) (ts_list s) = Some t -> find (key sni ip) (ts_list s') = Some t.
Proof.
  intros L E F. destruct e as [now sn i k | now sn i mark | now | now |]; cbn [leaves tstep] in *; try discriminate L.
  - unfold store_token in E. destruct ((blen k <? 1) || (blen sn =? 0)); cbv beta iota zeta in E; apply some_pair_inj in E; destruct E as [<- _]; [exact F |].
    cbn [ts_list find]. unfold key at 1. cbn [tk_sni tk_ip]. apply negb_true_iff in L. rewrite L.
    rewrite find_filter; [exact F |]. intros x Hx. unfold key in Hx. apply andb_true_iff in Hx. rewrite !eqb_bytes_eq in Hx.
    destruct Hx as (-> & ->). apply negb_true_iff. rewrite !same_eqb. 
    destruct (eqb_bytes sni sn) eqn:A; [| rewrite andb_false_r; reflexivity]. destruct (eqb_bytes ip i) eqn:B; [| rewrite andb_false_r; reflexivity].
    apply eqb_bytes_eq in A, B. subst. rewrite (proj2 (eqb_bytes_eq sn sn) eq_refl), (proj2 (eqb_bytes_eq i i) eq_refl) in L. discriminate.
  - destruct (get_token now sn i mark (ts_list s)) as [l' r] eqn:G. apply some_pair_inj in E. destruct E as [<- _]. cbn [ts_list].
    destruct (get_none_or _ _ _ _ _ _ _ G) as [(_ & ->) | (l1 & x & l2 & E1 & -> & _ & U)]; [exact F |].
    destruct U as (_ & U2 & U3 & _). rewrite E1 in F. destruct mark.
    + cbn [andb] in L. rewrite <- F. apply find_middle; unfold key; cbn [tk_sni set_used]; rewrite U2; apply negb_true_iff in L; rewrite L; reflexivity.
    + rewrite set_used_same by exact U3. exact F.
  - apply some_pair_inj in E. destruct E as [<- _]. exact F.
Qed.

Lemma leaves_run sni ip t : forall evs s s' log, forallb (leaves sni ip) evs = true -> trun s evs = Some (s', log) ->
  find (key sni ip) (ts_list s) = Some t -> find (key sni ip) (ts_list s') = Some t.
Proof.
  induction evs as [| e evs IH]; intros s s' log L E F; cbn [trun forallb] in *.
  - injection E as <- <-. exact F.
  - apply andb_true_iff in L. destruct L as (L1 & L2). destruct (tstep s e) as [[s1 o] |] eqn:E1; [| discriminate].
    destruct (trun s1 evs) as [[s2 log2] |] eqn:E2; [| discriminate]. injection E as <- <-.
    eapply IH; [exact L2 | exact E2 |]. eapply leaves_step; eassumption.
Qed.

Lemma best_first now sni ip t : ip <> [] -> now < tk_valid t -> tk_used t = false -> forall l i best,
  find (key sni ip) l = Some t -> exists j, best_match now sni ip l i best = Some (j, t).
Proof.
  intros NI V U. induction l as [| x l IH]; intros i best F; cbn [find] in F; [discriminate |].
  cbn [best_match]. rewrite (proj2 (blen_pos_ip ip) NI). destruct (key sni ip x) eqn:K.
  - injection F as ->. unfold key in K. apply andb_true_iff in K. rewrite !same_eqb. destruct K as (-> & ->).
    rewrite (proj2 (N.ltb_lt _ _) V), U. cbn [andb negb]. eauto.
  - destruct ((now <? tk_valid x) && same_bytes (tk_sni x) sni && negb (tk_used x)) eqn:T; [| apply IH, F].
    destruct (same_bytes (tk_ip x) ip) eqn:I; [| apply IH, F]. rewrite !andb_true_iff in T. destruct T as ((_ & T) & _).
    rewrite same_eqb in T, I. unfold key in K. rewrite T, I in K. discriminate.
Qed.

Lemma stored_available now sni ip tok s s1 evs s2 log now' mark : now < 9223372036854775808 ->
  ip <> [] -> tstep s (EvStore now sni ip tok) = Some (s1, TStored) ->
  forallb (leaves sni ip) evs = true -> trun s1 evs = Some (s2, log) -> now' < now + one_day ->
  exists s3, tstep s2 (EvGet now' sni ip mark) = Some (s3, TGot tok).
Proof.
  intros Hn NI E L R Hv. cbn [tstep] in E. unfold store_token in E.
  destruct ((blen tok <? 1) || (blen sni =? 0)) eqn:G; [discriminate |]. cbv beta iota zeta in E. apply some_pair_inj in E. destruct E as [<- _].
  apply orb_false_iff in G. destruct G as (G1 & G2).
  set (t := mk_token (u64 (now + 24 * 3600 * 1000000)) sni ip tok false) in *.
  assert (V : tk_valid t = now + one_day).
  { unfold t. cbn [tk_valid]. unfold u64, one_day, two64. rewrite N.mod_small; lia. }
  assert (K : key sni ip t = true) by (unfold key; cbn; rewrite !(proj2 (eqb_bytes_eq _ _) eq_refl); reflexivity).
  assert (F : find (key sni ip) (ts_list s2) = Some t).
  { eapply leaves_run; [exact L | exact R |]. cbn [ts_list find]. rewrite K. reflexivity. }
  cbn [tstep]. unfold get_token. destruct (best_first now' sni ip t NI ltac:(lia) eq_refl (ts_list s2) 0%nat None F) as (j & ->).
  unfold t. cbn [tk_tok]. destruct (N.eqb_spec (blen tok) 0); [apply N.ltb_ge in G1; lia |]. eauto.
Qed.

(** ** Saving and loading *)
Lemma save_load now now' l : Forall sane_token l -> (forall t, In t l -> 14 < record_size t <= 2016) ->
  let file := fst (save_tokens now l) in
  snd (save_tokens now l) = true /\
  load_loop (S (length file)) now' file [] = LdDone (filter (fun t => keep now t && live now' t) l) true.
Proof.
  intros S R. cbv zeta. destruct (save_records now l) as (ts & rest & E1 & E2 & E3 & E4 & E5). rewrite E1.
  assert (FS : Forall sane_token (ts ++ rest)) by (rewrite <- E2; apply forall_filter, S).
  assert (FR : forall t, In t (ts ++ rest) -> 14 < record_size t <= 2016).
  { intros t. rewrite <- E2. intros H. apply filter_In in H. apply R. tauto. }
  assert (NR : rest = []).
  { destruct rest as [| x r]; [reflexivity |]. pose proof (E5 _ _ eq_refl).
    pose proof (FR x ltac:(apply in_or_app; right; left; reflexivity)). lia. }
  subst rest. rewrite app_nil_r in *. split; [apply E4; reflexivity |].
  assert (RT : Forall (fun t => 14 < record_size t <= 2048) ts).
  { apply Forall_forall. intros t Ht. apply FR in Ht. lia. }
  destruct (load_records now' ts (Datatypes.S (length (records ts))) [] FS RT ltac:(lia)) as (pre & post & Ep & -> & Hpost).
  destruct post as [| x r].
  - rewrite app_nil_r in Ep. subst pre. cbn [app]. f_equal.
    assert (U : Forall (fun t => tk_used t = false) ts).
    { rewrite <- E2. apply Forall_forall. intros x Hx. apply filter_In in Hx. destruct Hx as (_ & Hx). unfold keep in Hx.
      apply andb_true_iff in Hx. destruct Hx as (_ & Hx). apply negb_true_iff in Hx. exact Hx. }
    rewrite set_unused by (apply forall_filter, U). rewrite <- E2. clear.
    induction l as [| x l IH]; [reflexivity |]. cbn [filter]. destruct (keep now x); cbn [filter andb]; [destruct (live now' x) |]; rewrite IH; reflexivity.
  - pose proof (Hpost _ _ eq_refl). pose proof (FR x ltac:(rewrite Ep; apply in_or_app; right; left; reflexivity)). lia.
Qed.
