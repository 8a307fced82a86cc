(** Proofs about the version information. *)
From Verif Require Import Base Tac Varint_model Varint_spec Varint_proofs Header_model Header_spec Header_proofs
  Segment_proofs Cneg_proofs Lb_spec Stream_model Tparam_model Tparam_spec Tparam_proofs.

Lemma supported_eq : map fst supported_versions = supported.
Proof. reflexivity. Qed.

Lemma index_from_some : forall l k vn i, version_index_from l k vn = Some i ->
  exists j e, nth_error l j = Some (vn, e) /\ i = k + N.of_nat j /\ In vn (map fst l).
Proof.
  intro l. induction l as [|[v e] l IH]; intros k vn i H; cbn in H; [discriminate|].
  destruct (N.eqb_spec v vn) as [->|h].
  - apply some_inj in H. subst i. exists 0%nat, e. split; [reflexivity|]. split; [lia|left; reflexivity].
  - destruct (IH _ _ _ H) as (j & e' & E & -> & Hin). exists (S j), e'. split; [exact E|]. split; [lia|right; exact Hin].
Qed.

Lemma index_from_none : forall l k vn, version_index_from l k vn = None -> ~ In vn (map fst l).
Proof.
  intro l. induction l as [|[v e] l IH]; intros k vn H; cbn in *; [tauto|].
  destruct (N.eqb_spec v vn) as [->|h]; [discriminate|]. intros [E|E]; [exact (h E)|exact (IH _ _ H E)].
Qed.

Lemma index_some : forall vn i, get_version_index vn = Some i -> index_ok i /\ version_of i = vn /\ In vn supported.
Proof.
  intros vn i H. destruct (index_from_some _ _ _ _ H) as (j & e & E & -> & Hin).
  split; [|split].
  - unfold index_ok. assert (j < length supported_versions)%nat by (apply nth_error_Some; rewrite E; discriminate).
    change (length supported_versions) with 13%nat in H0. lia.
  - unfold version_of, version_entry. replace (N.to_nat (0 + N.of_nat j)) with j by lia. rewrite E. reflexivity.
  - exact Hin.
Qed.

Lemma index_none : forall vn, get_version_index vn = None -> ~ In vn supported.
Proof. intros vn H. exact (index_from_none _ _ _ H). Qed.

Lemma index_cases : forall (P : N -> Prop), P 0 -> P 1 -> P 2 -> P 3 -> P 4 -> P 5 -> P 6 -> P 7 -> P 8 -> P 9 -> P 10 -> P 11 -> P 12 ->
  forall i, index_ok i -> P i.
Proof.
  intros P ? ? ? ? ? ? ? ? ? ? ? ? ? i Hi. unfold index_ok in Hi.
  assert (i = 0 \/ i = 1 \/ i = 2 \/ i = 3 \/ i = 4 \/ i = 5 \/ i = 6 \/ i = 7 \/ i = 8 \/ i = 9 \/ i = 10 \/ i = 11 \/ i = 12) as D by lia.
  repeat (destruct D as [D | D]; [subst; assumption|]). subst. assumption.
Qed.

Lemma index_of_version : forall i, index_ok i -> get_version_index (version_of i) = Some i.
Proof. apply index_cases; vm_compute; reflexivity. Qed.

Lemma version_supported : forall i, index_ok i -> In (version_of i) supported.
Proof. intros i Hi. apply (index_some _ i). apply index_of_version. exact Hi. Qed.

Lemma version_inj : forall i j, index_ok i -> index_ok j -> version_of i = version_of j -> i = j.
Proof. intros i j Hi Hj E. pose proof (index_of_version i Hi) as A. rewrite E, (index_of_version j Hj) in A. apply some_inj in A. auto. Qed.

Lemma version_32 : forall i, index_ok i -> version_of i < 4294967296.
Proof. apply index_cases; vm_compute; reflexivity. Qed.

(** Upgrades. *)
Lemma upgrade_yes : forall fuel old new, index_ok old -> index_ok new -> (0 < fuel)%nat ->
  (process_version_upgrade fuel old new = UYes <-> can_upgrade (version_of old) (version_of new)).
Proof.
  intros fuel old new Ho Hn Hf. unfold process_version_upgrade, can_upgrade.
  destruct (N.eqb_spec new old) as [->|h]. { split; auto. }
  unfold upgrade_from. destruct ((new =? 1) || (new =? 2)) eqn:C.
  - destruct fuel as [|fuel]; [lia|].
    assert (V : version_of new = 0x6b3343cf \/ version_of new = 0x709a50c4).
    { assert (new = 1 \/ new = 2) as [-> | ->] by lia; [left|right]; reflexivity. }
    cbn [upgrade_loop nth]. change (1 =? 0) with false. cbn match. destruct (N.eqb_spec 1 (version_of old)) as [E|E].
    + split; [|reflexivity]. intros _. right. split; [symmetry; exact E|exact V].
    + split.
      * intro H. exfalso. revert H. clear - E. revert E. generalize (version_of old). intros o E.
        induction fuel as [|fuel IH]; [discriminate|]. cbn [upgrade_loop nth]. change (1 =? 0) with false. cbn match.
        destruct (N.eqb_spec 1 o); [contradiction|]. exact IH.
      * intros [A|[A _]]; [exfalso; apply h; apply version_inj; assumption|congruence].
  - split; [discriminate|]. intros [A|[_ A]]; exfalso.
    + apply h. apply version_inj; assumption.
    + change 0x6b3343cf with (version_of 1) in A. change 0x709a50c4 with (version_of 2) in A.
      destruct A as [A|A]; apply version_inj in A; try assumption; try (vm_compute; reflexivity); subst new; discriminate.
Qed.

(** The list of a client. *)
Lemma be32_nonempty : forall v l, exists b r, be32 v ++ l = b :: r.
Proof. intros v l. eexists. eexists. reflexivity. Qed.

Lemma be32_len : forall v, length (be32 v) = 4%nat.
Proof. reflexivity. Qed.

Lemma dec_be32 : forall v rest, v < 4294967296 -> frames_uint32_decode (be32 v ++ rest) = Some (v, rest).
Proof. intros v rest H. rewrite <- format_be32 by exact H. apply dec_32. exact H. Qed.

Lemma first_supported_inv : forall fuel l o, bytes_ok l -> first_supported fuel l = Some o ->
  exists a tail, l = flat_map be32 a ++ tail /\ Forall (fun x => x < 4294967296) a /\
    match o with
    | Some (vn, i) => exists a', a = a' ++ [vn] /\ (forall y, In y a' -> ~ In y supported) /\ get_version_index vn = Some i
    | None => tail = [] /\ forall y, In y a -> ~ In y supported
    end.
Proof.
  intro fuel. induction fuel as [|fuel IH]; intros l o Hl H; cbn [first_supported] in H; [discriminate|].
  destruct l as [|b l].
  - apply some_inj in H. subst o. exists [], []. split; [reflexivity|]. split; [constructor|]. split; [reflexivity|intros y []].
  - destruct (frames_uint32_decode (b :: l)) as [[vn l']|] eqn:E; [|discriminate].
    destruct (be32_inv _ _ _ Hl E) as [E1 E2].
    destruct (get_version_index vn) as [i|] eqn:G.
    + apply some_inj in H. subst o. exists [vn], l'. cbn [flat_map]. rewrite app_nil_r. split; [exact E1|].
      split; [constructor; [exact E2|constructor]|]. exists []. split; [reflexivity|]. split; [intros y []|exact G].
    + assert (Hl' : bytes_ok l') by (rewrite E1 in Hl; exact (forall_app_r _ _ _ _ Hl)).
      destruct (IH l' o Hl' H) as (a & tail & El & Ha & Ho). exists (vn :: a), tail. cbn [flat_map].
      split; [rewrite E1, El, app_assoc; reflexivity|]. split; [constructor; assumption|].
      pose proof (index_none _ G) as Hno. destruct o as [[vn' i]|].
      * destruct Ho as (a' & -> & Hy & Hi). exists (vn :: a'). split; [reflexivity|]. split; [|exact Hi].
        intros y [<-|Hin]; [exact Hno|exact (Hy y Hin)].
      * destruct Ho as [Et Hy]. split; [exact Et|]. intros y [<-|Hin]; [exact Hno|exact (Hy y Hin)].
Qed.

Lemma first_supported_found : forall a vn i b fuel, Forall (fun x => x < 4294967296) (a ++ [vn]) ->
  (forall y, In y a -> ~ In y supported) -> get_version_index vn = Some i -> (length a < fuel)%nat ->
  first_supported fuel (flat_map be32 a ++ be32 vn ++ b) = Some (Some (vn, i)).
Proof.
  intro a. induction a as [|x a IH]; intros vn i b fuel Hf Hy Hi Hlt; (destruct fuel as [|fuel]; [cbn in Hlt; lia|]).
  - cbn [flat_map app] in *. inversion Hf; subst. destruct (be32_nonempty vn b) as (c & r & E).
    cbn [first_supported]. rewrite E. rewrite <- E, dec_be32 by assumption. rewrite Hi. reflexivity.
  - cbn [flat_map app] in *. inversion Hf; subst. rewrite <- app_assoc.
    destruct (be32_nonempty x (flat_map be32 a ++ be32 vn ++ b)) as (c & r & E).
    cbn [first_supported]. rewrite E. rewrite <- E, dec_be32 by assumption.
    destruct (get_version_index x) as [j|] eqn:G.
    + exfalso. apply (Hy x (or_introl eq_refl)). apply (index_some x j G).
    + apply IH; [assumption|intros y Hin; apply Hy; right; exact Hin|exact Hi|cbn in Hlt; lia].
Qed.

Lemma first_supported_none : forall a fuel, Forall (fun x => x < 4294967296) a ->
  (forall y, In y a -> ~ In y supported) -> (length a < fuel)%nat -> first_supported fuel (flat_map be32 a) = Some None.
Proof.
  intro a. induction a as [|x a IH]; intros fuel Hf Hy Hlt; (destruct fuel as [|fuel]; [cbn in Hlt; lia|]).
  - reflexivity.
  - cbn [flat_map] in *. inversion Hf; subst.
    destruct (be32_nonempty x (flat_map be32 a)) as (c & r & E).
    cbn [first_supported]. rewrite E. rewrite <- E, dec_be32 by assumption.
    destruct (get_version_index x) as [j|] eqn:G.
    + exfalso. apply (Hy x (or_introl eq_refl)). apply (index_some x j G).
    + apply IH; [assumption|intros y Hin; apply Hy; right; exact Hin|cbn in Hlt; lia].
Qed.

Lemma flat_len : forall a, length (flat_map be32 a) = (4 * length a)%nat.
Proof. intro a. induction a as [|x a IH]; [reflexivity|]. cbn [flat_map length]. rewrite app_length, IH, be32_len. lia. Qed.

(** The version information of a client. *)
Definition outcome_is (cur x : N) (o : option (N * N)) : Prop :=
  match o with Some (vn, i) => vn = x /\ index_ok i /\ version_of i = x | None => x = cur end.

Lemma vdec_client_inv : forall cur v o, bytes_ok v -> tp_version_decode false cur v = inr o ->
  exists x, version_list false cur v x /\ outcome_is cur x o.
Proof.
  intros cur v o Hv H. unfold tp_version_decode in H.
  destruct (frames_uint32_decode v) as [[c l]|] eqn:E; [|discriminate].
  destruct (be32_inv _ _ _ Hv E) as [E1 E2]. destruct (N.eqb_spec c cur) as [->|]; [|discriminate]. cbn [negb] in H.
  assert (Hl : bytes_ok l) by (rewrite E1 in Hv; exact (forall_app_r _ _ _ _ Hv)).
  destruct (first_supported (S (length l)) l) as [r|] eqn:F; [|discriminate]. injection H as ->.
  destruct (first_supported_inv _ _ _ Hl F) as (a & tail & El & Ha & Ho).
  destruct o as [[vn i]|].
  - destruct Ho as (a' & -> & Hy & Hi). destruct (index_some _ _ Hi) as (I1 & I2 & I3).
    exists vn. split; [|split; [reflexivity|split; assumption]].
    exists (a' ++ [vn]), (flat_map be32 (cur :: a' ++ [vn])), tail. split; [cbn [flat_map]; rewrite E1, El, app_assoc; reflexivity|].
    split; [split; [reflexivity|constructor; assumption]|]. split.
    + left. exists a', []. split; [reflexivity|]. split; [exact I3|exact Hy].
    + right. split; [reflexivity|]. exists vn. split; [apply in_or_app; right; left; reflexivity|exact I3].
  - destruct Ho as [-> Hy]. exists cur. split; [|reflexivity].
    exists a, (flat_map be32 (cur :: a)), []. split; [cbn [flat_map]; rewrite E1, El, !app_nil_r; reflexivity|].
    split; [split; [reflexivity|constructor; assumption]|]. split; [right; split; [exact Hy|reflexivity]|left; reflexivity].
Qed.

Lemma chosen_unique : forall cur vs x y, chosen cur vs x -> chosen cur vs y -> x = y.
Proof.
  assert (A : forall vs x y a b c d, vs = a ++ x :: b -> vs = c ++ y :: d -> In x supported -> In y supported ->
    (forall z, In z a -> ~ In z supported) -> (forall z, In z c -> ~ In z supported) -> x = y).
  { intros vs x y a. revert vs. induction a as [|p a IH]; intros vs b c d E1 E2 Hx Hy Ha Hc.
    - subst vs. destruct c as [|q c]; cbn in E2; injection E2 as -> _; [reflexivity|]. exfalso. apply (Hc q); [left; reflexivity|exact Hx].
    - subst vs. destruct c as [|q c]; cbn in E2.
      + injection E2 as -> _. exfalso. apply (Ha y); [left; reflexivity|exact Hy].
      + injection E2 as -> E2. apply (IH (a ++ x :: b) b c d); auto; [intros z Hz; apply Ha; right; exact Hz|intros z Hz; apply Hc; right; exact Hz]. }
  intros cur vs x y [(a & b & E1 & Hx & Ha)|[Hn ->]] [(c & d & E2 & Hy & Hc)|[Hm ->]].
  - exact (A vs x y a b c d E1 E2 Hx Hy Ha Hc).
  - exfalso. apply (Hm x); [rewrite E1; apply in_or_app; right; left; reflexivity|exact Hx].
  - exfalso. apply (Hn y); [rewrite E2; apply in_or_app; right; left; reflexivity|exact Hy].
  - reflexivity.
Qed.

Lemma vdec_client : forall strict cur v x, version_list strict cur v x ->
  exists o, tp_version_decode false cur v = inr o /\ outcome_is cur x o.
Proof.
  intros strict cur v x (vs & w & tail & -> & [-> Hf] & Hc & Ht). inversion Hf as [|? ? Hcur Hvs]; subst.
  unfold tp_version_decode. cbn [flat_map]. rewrite <- app_assoc, dec_be32 by exact Hcur. rewrite N.eqb_refl. cbn [negb].
  destruct Hc as [(a & b & -> & Hx & Ha)|[Hn ->]].
  - assert (G : exists i, get_version_index x = Some i).
    { destruct (get_version_index x) as [i|] eqn:G; [eauto|]. exfalso. exact (index_none _ G Hx). }
    destruct G as [i G]. destruct (index_some _ _ G) as (I1 & I2 & _).
    rewrite flat_map_app. cbn [flat_map]. rewrite <- !app_assoc.
    rewrite (first_supported_found a x i) ; [|apply Forall_app in Hvs; destruct Hvs as [V1 V2]; inversion V2; subst; apply Forall_app; split; [exact V1|constructor; [assumption|constructor]]
      |exact Ha|exact G|rewrite !app_length, flat_len; lia].
    exists (Some (x, i)). split; [reflexivity|]. split; [reflexivity|split; assumption].
  - assert (tail = []) as ->. { destruct Ht as [Ht|[_ (y & Hy & Hs)]]; [exact Ht|]. exfalso. exact (Hn y Hy Hs). }
    rewrite app_nil_r, first_supported_none; [|exact Hvs|exact Hn|rewrite flat_len; lia].
    exists None. split; reflexivity.
Qed.

(** The version information of a server. *)
Lemma all_read_iff : forall fuel l, bytes_ok l -> (length l < fuel)%nat ->
  (all_read fuel l = true <-> exists vs, l = flat_map be32 vs /\ Forall (fun x => x < 4294967296) vs).
Proof.
  intro fuel. induction fuel as [|fuel IH]; intros l Hl Hlt; [lia|]. cbn [all_read].
  destruct l as [|b l]; [split; [intros _; exists []; split; [reflexivity|constructor]|reflexivity]|].
  destruct (frames_uint32_decode (b :: l)) as [[vn l']|] eqn:E.
  - destruct (be32_inv _ _ _ Hl E) as [E1 E2].
    assert (Hl' : bytes_ok l') by (rewrite E1 in Hl; exact (forall_app_r _ _ _ _ Hl)).
    assert (Hlen : (length l' < fuel)%nat). { rewrite E1 in Hlt. rewrite app_length, be32_len in Hlt. lia. }
    rewrite (IH l' Hl' Hlen). split.
    + intros (vs & -> & Hf). exists (vn :: vs). split; [exact E1|constructor; assumption].
    + intros (vs & Ev & Hf). destruct vs as [|x vs]; [discriminate|]. inversion Hf; subst. cbn [flat_map] in Ev.
      rewrite Ev, dec_be32 in E by assumption. apply some_pair_inj in E. destruct E as [_ <-]. exists vs. auto.
  - split; [discriminate|]. intros (vs & Ev & Hf). destruct vs as [|x vs]; [discriminate|]. inversion Hf; subst. cbn [flat_map] in Ev.
    rewrite Ev, dec_be32 in E by assumption. discriminate.
Qed.

Lemma vdec_server : forall cur v, bytes_ok v ->
  (exists vs, versions (cur :: vs) v) /\ tp_version_decode true cur v = inr None \/
  ~ (exists vs, versions (cur :: vs) v) /\ exists e, tp_version_decode true cur v = inl e.
Proof.
  intros cur v Hv. unfold tp_version_decode.
  destruct (frames_uint32_decode v) as [[c l]|] eqn:E.
  - destruct (be32_inv _ _ _ Hv E) as [E1 E2]. assert (Hl : bytes_ok l) by (rewrite E1 in Hv; exact (forall_app_r _ _ _ _ Hv)).
    destruct (N.eqb_spec c cur) as [->|h]; cbn [negb].
    + pose proof (all_read_iff (S (length l)) l Hl (Nat.lt_succ_diag_r _)) as A.
      destruct (all_read (S (length l)) l).
      * left. destruct (proj1 A eq_refl) as (vs & -> & Hf). split; [|reflexivity]. exists vs. split; [exact E1|constructor; assumption].
      * right. split; [|eauto]. intros (vs & Ev & Hf). inversion Hf; subst. cbn [flat_map] in Ev.
        rewrite Ev, dec_be32 in E by assumption. apply some_pair_inj in E. destruct E as [_ <-].
        assert (X : false = true) by (apply A; exists vs; auto). discriminate X.
    + right. split; [|eauto]. intros (vs & Ev & Hf). inversion Hf; subst. cbn [flat_map] in Ev.
      rewrite Ev, dec_be32 in E by assumption. apply some_pair_inj in E. destruct E as [E _]. congruence.
  - right. split; [|eauto]. intros (vs & Ev & Hf). inversion Hf as [|? ? C1 C2]; clear Hf. cbn [flat_map] in Ev. rewrite Ev, dec_be32 in E by assumption. discriminate.
Qed.
