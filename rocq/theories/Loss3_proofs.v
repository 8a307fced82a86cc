(** The invariant of a number space. *)
From Verif Require Import Base Tac Rtt_model Ack_model Ack_spec Ack_proofs Ack2_proofs Loss_model Loss_spec Loss_proofs Loss2_proofs.
From Coq Require Import Sorting.Sorted.

Record inv (cf : config) (first t n : N) (hist : list action) (sp : space) : Prop := mk_inv {
  i_sorted : queue_ok (sp_pending sp);
  i_range : forall p, In p (sp_pending sp) -> first <= pk_seq p < sp_next sp /\ pk_time p <= t;
  i_next : first <= sp_next sp <= first + n;
  i_rtt : rtt_small (pa_rtt (sp_path sp));
  i_high : sp_high sp = max64 /\ first = 0 \/ sp_high sp < sp_next sp;
  i_times : sp_latest sp <= sp_high_time sp <= t;
  i_latest : forall p, In p (sp_pending sp) -> sp_high sp = max64 \/ sp_high sp < pk_seq p -> sp_latest sp <= pk_time p;
  i_released : forall m, In (ARelease m) hist -> sp_high sp <> max64 /\ m <= sp_high sp;
  i_gone : forall d w p, In (AGone d w) hist -> In p (sp_pending sp) -> pk_zero p = false -> pk_seq d < pk_seq p;
  i_cover : forall m, first <= m < sp_next sp ->
    (exists p, In p (sp_pending sp) /\ pk_seq p = m) \/ In (ARelease m) hist \/ (exists d w, In (AGone d w) hist /\ pk_seq d = m);
  i_hist : forall p, In p (sp_pending sp) -> In (if pk_trap p then AHole p else ASent p) hist;
  i_over : forall p, In p (sp_pending sp) -> pk_zero p = false -> overtaken sp p ->
    exists q, In (ASent q) hist /\ pk_seq q = sp_high sp /\ pk_time q = sp_latest sp /\
      pk_time p <= pk_time q /\ In (AAck (sp_high sp) (sp_high_time sp)) hist;
  i_once : forall m, numbered hist m = (released hist m + gone hist m + pending sp m)%nat /\ (numbered hist m <= 1)%nat;
  i_numbered : forall m, (0 < numbered hist m)%nat -> first <= m < sp_next sp
}.

Lemma start_inv : forall cf pa first start, rtt_small (pa_rtt pa) -> small first ->
  inv cf first start 0 [] (space_start pa first start).
Proof.
  intros cf pa first start Hr Hf. apply small_lit in Hf. unfold space_start.
  constructor; cbn [sp_pending sp_path sp_high sp_high_time sp_latest sp_next].
  - constructor.
  - intros p [].
  - lia.
  - exact Hr.
  - destruct (first =? 0) eqn:E.
    + left. apply N.eqb_eq in E. subst. split; reflexivity.
    + right. rewrite minus64_ge by (unfold two64; lia). lia.
  - lia.
  - intros p [].
  - intros m [].
  - intros d w p [].
  - intros m H. lia.
  - intros p [].
  - intros p [].
  - intros m. split; [reflexivity|]. apply Nat.le_0_l.
  - intros m H. exfalso. apply Nat.lt_irrefl in H. exact H.
Qed.

Lemma numbered_app : forall h1 h2 m, numbered (h1 ++ h2) m = (numbered h1 m + numbered h2 m)%nat.
Proof. intros. unfold numbered. rewrite filter_app, app_length. reflexivity. Qed.
Lemma released_app : forall h1 h2 m, released (h1 ++ h2) m = (released h1 m + released h2 m)%nat.
Proof. intros. unfold released. rewrite filter_app, app_length. reflexivity. Qed.
Lemma gone_app : forall h1 h2 m, gone (h1 ++ h2) m = (gone h1 m + gone h2 m)%nat.
Proof. intros. unfold gone. rewrite filter_app, app_length. reflexivity. Qed.

Definition gone_acts (g : list (packet * why)) : list action := map (fun x => AGone (fst x) (snd x)) g.

Lemma numbered_gone : forall g m, numbered (gone_acts g) m = 0%nat.
Proof. induction g as [|x g IH]; intros m; [reflexivity|]. unfold numbered in *. cbn [gone_acts map filter]. apply IH. Qed.
Lemma released_gone : forall g m, released (gone_acts g) m = 0%nat.
Proof. induction g as [|x g IH]; intros m; [reflexivity|]. unfold released in *. cbn [gone_acts map filter]. apply IH. Qed.
Lemma gone_gone : forall g m, gone (gone_acts g) m = length (filter (fun p => pk_seq p =? m) (map fst g)).
Proof.
  induction g as [|x g IH]; intros m; [reflexivity|]. unfold gone in *. cbn [gone_acts map filter].
  destruct (pk_seq (fst x) =? m); cbn [length]; rewrite <- IH; reflexivity.
Qed.

Lemma in_gone_acts : forall g a, In a (gone_acts g) <-> exists d w, a = AGone d w /\ In (d, w) g.
Proof.
  intros g a. unfold gone_acts. rewrite in_map_iff. split.
  - intros ([d w] & <- & H). exists d, w. split; [reflexivity|exact H].
  - intros (d & w & -> & H). exists (d, w). split; [reflexivity|exact H].
Qed.

(** Packets leave, in order except for those of 0-RTT. *)
Lemma drop_inv : forall cf first t n hist sp g k pa,
  inv cf first t n hist sp -> thin (sp_pending sp) (map fst g) k ->
  (forall d p, In d (map fst g) -> In p k -> pk_zero p = false -> pk_seq d < pk_seq p) ->
  rtt_small (pa_rtt pa) ->
  inv cf first t n (hist ++ gone_acts g) (set_pending sp pa k).
Proof.
  intros cf first t n hist sp g k pa I Ht Ho Hr. destruct I.
  assert (Hk : forall p, In p k -> In p (sp_pending sp)) by (intros p; apply (thin_kept _ _ _ Ht)).
  constructor; unfold set_pending; cbn [sp_pending sp_path sp_high sp_high_time sp_latest sp_next].
  - apply (thin_sorted _ _ _ Ht). exact i_sorted0.
  - intros p Hp. apply i_range0. apply Hk. exact Hp.
  - exact i_next0.
  - exact Hr.
  - exact i_high0.
  - exact i_times0.
  - intros p Hp. apply i_latest0. apply Hk. exact Hp.
  - intros m Hm. apply in_app_or in Hm. destruct Hm as [Hm|Hm]; [apply i_released0; exact Hm|].
    apply in_gone_acts in Hm. destruct Hm as (d & w & X & _). discriminate.
  - intros d w p Hd Hp Hz. apply in_app_or in Hd. destruct Hd as [Hd|Hd].
    + apply (i_gone0 d w p Hd); [apply Hk; exact Hp|exact Hz].
    + apply in_gone_acts in Hd. destruct Hd as (d' & w' & X & Hd). inversion X; subst.
      apply Ho; [|exact Hp|exact Hz]. change d' with (fst (d', w')). apply in_map. exact Hd.
  - intros m Hm. apply i_cover0 in Hm. destruct Hm as [(p & Hp & Hq)|[Hm|(d & w & Hd & Hq)]].
    + destruct (thin_in _ _ _ Ht _ Hp) as [Hg|Hk2].
      * right. right. apply in_map_iff in Hg. destruct Hg as ([d w] & <- & Hg). exists d, w.
        split; [|exact Hq]. apply in_or_app. right. apply in_gone_acts. exists d, w. split; [reflexivity|exact Hg].
      * left. exists p. split; assumption.
    + right. left. apply in_or_app. left. exact Hm.
    + right. right. exists d, w. split; [|exact Hq]. apply in_or_app. left. exact Hd.
  - intros p Hp. apply in_or_app. left. apply i_hist0. apply Hk. exact Hp.
  - intros p Hp Hz Hov. destruct (i_over0 p (Hk p Hp) Hz Hov) as (q & Q1 & Q2 & Q3 & Q4 & Q5). exists q.
    split; [apply in_or_app; left; exact Q1|]. split; [exact Q2|]. split; [exact Q3|]. split; [exact Q4|].
    apply in_or_app. left. exact Q5.
  - intros m. destruct (i_once0 m) as [O1 O2]. rewrite numbered_app, released_app, gone_app, numbered_gone, released_gone, gone_gone.
    unfold pending in *. cbn [sp_pending]. rewrite (thin_count _ _ _ _ Ht) in O1. lia.
  - intros m. rewrite numbered_app, numbered_gone. intros Hm. apply i_numbered0. lia.
Qed.

(** The clock advances. *)
Lemma time_inv : forall cf first t t' n hist sp, inv cf first t n hist sp -> t <= t' -> inv cf first t' n hist sp.
Proof.
  intros cf first t t' n hist sp [] H. constructor; try assumption.
  - intros p Hp. apply i_range0 in Hp. lia.
  - lia.
Qed.

Lemma count_inv : forall cf first t n n' hist sp, inv cf first t n hist sp -> n <= n' -> inv cf first t n' hist sp.
Proof. intros cf first t n n' hist sp [] H. constructor; try assumption. lia. Qed.

(** A new number. *)
Lemma push_inv : forall cf first t n hist sp p pa a, inv cf first t n hist sp ->
  pk_seq p = sp_next sp -> pk_time p = t -> rtt_small (pa_rtt pa) -> sp_next sp + 1 < two64 ->
  a = (if pk_trap p then AHole p else ASent p) ->
  inv cf first t (n + 1) (hist ++ [a])
    (mk_space pa (sp_pending sp ++ [p]) (sp_high sp) (sp_high_time sp) (sp_latest sp) (u64 (sp_next sp + 1))).
Proof.
  intros cf first t n hist sp p pa a I Hs Htm Hr Hn Ha. destruct I.
  assert (Hpn : forall q, In q (sp_pending sp) -> before q p).
  { intros q Hq. apply i_range0 in Hq. split; lia. }
  assert (Hin : forall q, In q (sp_pending sp ++ [p]) -> In q (sp_pending sp) \/ q = p).
  { intros q Hq. apply in_app_or in Hq. destruct Hq as [Hq|[Hq|[]]]; [left|right]; congruence. }
  rewrite u64_id by exact Hn.
  assert (Hnum : forall m, numbered [a] m = if pk_seq p =? m then 1%nat else 0%nat).
  { intros m. unfold numbered. subst a. destruct (pk_trap p); cbn [filter]; destruct (pk_seq p =? m); reflexivity. }
  assert (Hrel : forall m, released [a] m = 0%nat) by (intros m; subst a; destruct (pk_trap p); reflexivity).
  assert (Hgo : forall m, gone [a] m = 0%nat) by (intros m; subst a; destruct (pk_trap p); reflexivity).
  constructor; cbn [sp_pending sp_path sp_high sp_high_time sp_latest sp_next].
  - clear -i_sorted0 Hpn. induction (sp_pending sp) as [|x l IH]; cbn [app]; [repeat constructor|].
    apply StronglySorted_inv in i_sorted0. destruct i_sorted0 as [S1 S2]. constructor.
    + apply IH; [exact S1|]. intros q Hq. apply Hpn. right. exact Hq.
    + apply Forall_app. split; [exact S2|]. constructor; [|constructor]. apply Hpn. left. reflexivity.
  - intros q Hq. apply Hin in Hq. destruct Hq as [Hq| ->]; [apply i_range0 in Hq; lia|lia].
  - lia.
  - exact Hr.
  - lia.
  - exact i_times0.
  - intros q Hq Hh. apply Hin in Hq. destruct Hq as [Hq| ->]; [apply i_latest0; assumption|lia].
  - intros m Hm. apply i_released0. apply in_app_or in Hm. destruct Hm as [Hm|[Hm|[]]]; [exact Hm|].
    exfalso. subst a. destruct (pk_trap p); discriminate.
  - intros d w q Hd Hq Hz. apply in_app_or in Hd. destruct Hd as [Hd|[Hd|[]]].
    2: { exfalso. subst a. destruct (pk_trap p); discriminate. }
    apply Hin in Hq. destruct Hq as [Hq| ->]; [apply (i_gone0 d w q); assumption|].
    (* the number of a packet gone is below the next one *)
    assert (Hx : (0 < numbered hist (pk_seq d))%nat).
    { destruct (i_once0 (pk_seq d)) as [O1 _]. rewrite O1.
      assert (Hy : (0 < gone hist (pk_seq d))%nat); [|lia].
      unfold gone. destruct (filter _ hist) as [|y f] eqn:E; [|cbn; lia].
      assert (Hz2 : In (AGone d w) []); [|destruct Hz2]. rewrite <- E. apply filter_In. split; [exact Hd|].
      apply N.eqb_refl. }
    apply i_numbered0 in Hx. lia.
  - intros m Hm. destruct (m =? sp_next sp) eqn:E.
    + left. exists p. split; [apply in_or_app; right; left; reflexivity|lia].
    + destruct (i_cover0 m) as [(q & Hq & Hq2)|[X|(d & w & X & Y)]]; [lia| | |].
      * left. exists q. split; [apply in_or_app; left; exact Hq|exact Hq2].
      * right. left. apply in_or_app. left. exact X.
      * right. right. exists d, w. split; [apply in_or_app; left; exact X|exact Y].
  - intros q Hq. apply in_or_app. apply Hin in Hq. destruct Hq as [Hq| ->]; [left; apply i_hist0; exact Hq|].
    right. left. exact Ha.
  - intros q Hq Hz Hov. apply Hin in Hq. destruct Hq as [Hq| ->].
    + destruct (i_over0 q Hq Hz Hov) as (x & X1 & X2 & X3 & X4 & X5). exists x.
      split; [apply in_or_app; left; exact X1|]. split; [exact X2|]. split; [exact X3|]. split; [exact X4|].
      apply in_or_app; left; exact X5.
    + exfalso. destruct Hov as [Hv1 Hv2]. cbn [sp_high] in Hv1, Hv2. unfold max64, two62 in *. lia.
  - intros m. rewrite numbered_app, released_app, gone_app, Hnum, Hrel, Hgo. destruct (i_once0 m) as [O1 O2].
    unfold pending in *. cbn [sp_pending]. rewrite filter_app, app_length. cbn [filter].
    destruct (pk_seq p =? m) eqn:E; cbn [length]; [|lia].
    assert (Hz : numbered hist m = 0%nat); [|lia].
    destruct (numbered hist m) eqn:E2; [reflexivity|]. exfalso.
    assert (Hx : (0 < numbered hist m)%nat) by lia. apply i_numbered0 in Hx. lia.
  - intros m. rewrite numbered_app, Hnum. destruct (pk_seq p =? m) eqn:E; [lia|].
    intros Hx. assert (Hy : (0 < numbered hist m)%nat) by lia. apply i_numbered0 in Hy. lia.
Qed.
