(** Proofs about acknowledged frames: what they change. *)
From Verif Require Import Base Tac Varint_model Varint_spec Varint_proofs Sack_model Sack_spec Ack_model Ack_spec Ack_proofs Frames_model
  Frames_spec Header_model Send_model Stream_model Needs_model Needs_spec
  Needs_proofs Needs2_proofs Needs3_proofs Needs4_proofs Needs5_proofs.

(** Information about a stream. *)
Definition stream_of (i : info) : option N :=
  match i with
  | KReset sid | KStop sid | KByte sid _ | KMaxStreamData sid _ | KStreamDataBlocked sid _ => Some sid
  | _ => None
  end.

Definition sp (client : bool) (i : info) (s : nstrm) : Prop :=
  match i with
  | KReset sid => n_rst_sent s = true /\ n_rst_acked s = false
  | KStop sid => receivable client sid /\ n_fin_rcvd s = false /\ n_rst_rcvd s = false
  | KByte sid pos => n_rst_sent s = false /\
                     (pos < n_sent s \/ (pos = n_sent s /\ n_fin_sent s = true)) /\ ~ acked (n_sack s) pos
  | KMaxStreamData sid v => receivable client sid /\
      n_fin_rcvd s = false /\ n_rst_rcvd s = false /\ n_stop_sent s = false /\ v = n_md_l s /\ n_md_l_acked s < v
  | KStreamDataBlocked sid v => sendable client sid /\ n_fin_req s = false /\
      n_rst_req s = false /\ n_fin_sent s = false /\ n_rst_sent s = false /\ v = n_md_r s /\ n_blocked_sent s = true
  | _ => False
  end.

Lemma outstanding_stream : forall c i k, stream_of i = Some k ->
  (outstanding c i <-> exists s, In s (nc_streams c) /\ n_id s = k /\ sp (nc_client c) i s).
Proof.
  intros c i k H. destruct i; cbn [stream_of] in H; try discriminate; injection H as ->; cbn [outstanding sp]; tauto.
Qed.

Lemma find_ex : forall c sid s (P : nstrm -> Prop), NoDup (map n_id (nc_streams c)) -> n_find c sid = Some s ->
  ((exists x, In x (nc_streams c) /\ n_id x = sid /\ P x) <-> P s).
Proof.
  intros c sid s P Hn Hf. split.
  - intros (x & Hi & <- & Hx). rewrite n_find_in in Hf by assumption. apply some_inj in Hf. congruence.
  - intro H. apply n_find_some in Hf. exists s. tauto.
Qed.

Lemma put_in : forall c s' x, In x (nc_streams (n_put c s')) <->
  (exists y, In y (nc_streams c) /\ n_id y = n_id s' /\ x = s') \/ (In x (nc_streams c) /\ n_id x <> n_id s').
Proof.
  intros c s' x. unfold n_put. cbn [nc_streams]. rewrite in_map_iff. split.
  - intros (y & Hy & Hi). destruct (N.eqb_spec (n_id y) (n_id s')); [left; exists y; auto|right; subst x; auto].
  - intros [(y & Hi & He & ->)|[Hi He]].
    + exists y. rewrite He, N.eqb_refl. auto.
    + exists x. destruct (N.eqb_spec (n_id x) (n_id s')); [contradiction|auto].
Qed.

Lemma put_ex : forall c s s' k (P : nstrm -> Prop), In s (nc_streams c) -> n_id s' = n_id s ->
  ((exists x, In x (nc_streams (n_put c s')) /\ n_id x = k /\ P x) <->
   (k = n_id s' /\ P s') \/ (k <> n_id s' /\ exists x, In x (nc_streams c) /\ n_id x = k /\ P x)).
Proof.
  intros c s s' k P Hs He. split.
  - intros (x & Hi & <- & Hx). apply put_in in Hi. destruct Hi as [(y & _ & _ & ->)|[Hi Hne]]; [left; auto|].
    right. split; [exact Hne|]. exists x. auto.
  - intros [[-> H]|[Hne (x & Hi & <- & Hx)]].
    + exists s'. split; [apply put_in; left; exists s; auto|]. auto.
    + exists x. split; [apply put_in; right; auto|]. auto.
Qed.

Lemma put_ids : forall c s', map n_id (nc_streams (n_put c s')) = map n_id (nc_streams c).
Proof.
  intros c s'. unfold n_put. cbn [nc_streams]. rewrite map_map. apply map_ext. intro x.
  destruct (N.eqb_spec (n_id x) (n_id s')); congruence.
Qed.

Lemma del_ex : forall c sid k (P : nstrm -> Prop),
  ((exists x, In x (nc_streams (n_delete c sid)) /\ n_id x = k /\ P x) <->
   (k <> sid /\ exists x, In x (nc_streams c) /\ n_id x = k /\ P x)).
Proof.
  intros c sid k P. unfold n_delete. cbn [nc_streams]. split.
  - intros (x & Hi & <- & Hx). apply filter_In in Hi. destruct Hi as [Hi He]. apply negb_true_iff, N.eqb_neq in He.
    split; [exact He|]. exists x. auto.
  - intros (Hne & x & Hi & <- & Hx). exists x. split; [|auto]. apply filter_In. split; [exact Hi|].
    apply negb_true_iff, N.eqb_neq. exact Hne.
Qed.

Lemma nodup_filter : forall (f : nstrm -> bool) l, NoDup (map n_id l) -> NoDup (map n_id (filter f l)).
Proof.
  intros f l H. induction l as [|x l IH]; [exact H|]. cbn [map] in H. inversion H as [|? ? H1 H2]; subst.
  cbn [filter]. destruct (f x); [|apply IH, H2]. cbn [map]. constructor; [|apply IH, H2].
  intro Hi. apply H1. apply in_map_iff in Hi. destruct Hi as (y & Hy & Hi). apply filter_In in Hi.
  apply in_map_iff. exists y. tauto.
Qed.

(** A stream that is deleted has nothing outstanding. *)
Lemma closed_ok_closed : forall client s, closed_ok client s ->
  closed_ok client (n_set_closed s (n_closed s || n_is_closed client s)).
Proof.
  intros client s H Hc. unfold n_set_closed in *. cbn [n_closed n_id n_fin_rcvd n_rst_rcvd n_fin_sent n_rst_sent] in *.
  apply orb_prop in Hc. destruct Hc as [Hc|Hc]; [apply H, Hc|]. unfold n_is_closed in Hc.
  unfold receivable, sendable. destruct (is_bidir_id (n_id s)).
  - apply andb_prop in Hc. destruct Hc as [H1 H2]. split; intros _.
    + apply orb_prop in H2. destruct H2 as [H2|H2]; apply andb_prop in H2; destruct H2 as [-> _]; [reflexivity|apply orb_true_r].
    + apply orb_prop in H1. destruct H1 as [H1|H1]; apply andb_prop in H1; destruct H1 as [_ ->]; [reflexivity|apply orb_true_r].
  - destruct (is_local_id (n_id s) client).
    + split; [intros [?|?]; discriminate|]. intros _.
      apply orb_prop in Hc. destruct Hc as [H1|H1]; apply andb_prop in H1; destruct H1 as [_ ->]; [reflexivity|apply orb_true_r].
    + split; [|intros [?|?]; discriminate]. intros _.
      apply orb_prop in Hc. destruct Hc as [H2|H2]; apply andb_prop in H2; destruct H2 as [-> _]; [reflexivity|apply orb_true_r].
Qed.

Lemma deleted_done : forall client s i k, stream_of i = Some k -> n_id s = k -> closed_ok client s -> sack_ok (n_sack s) ->
  n_closed s && (if n_rst_sent s then n_rst_acked s else check_sack_list (n_sack s) 0 (n_sent s)) = true ->
  ~ sp client i s.
Proof.
  intros client s i k Hk <- Hcl Hsk Hd. apply andb_prop in Hd. destruct Hd as [Hd1 Hd2]. destruct (Hcl Hd1) as [C1 C2].
  destruct i; cbn [stream_of] in Hk; try discriminate; injection Hk as ->; cbn [sp].
  - intros [H1 H2]. rewrite H1 in Hd2. congruence.
  - intros (H1 & H2 & H3). specialize (C1 H1). rewrite H2, H3 in C1. discriminate.
  - intros (H1 & H2 & H3). rewrite H1 in Hd2. apply H3.
    apply (check_sack_spec (n_sack s) 0 (n_sent s) Hsk (N.le_0_l _)); [exact Hd2|]. destruct H2 as [?|[? _]]; lia.
  - intros (H1 & H2 & H3 & _). specialize (C1 H1). rewrite H2, H3 in C1. discriminate.
  - intros (H1 & _ & _ & H2 & H3 & _). specialize (C2 H1). rewrite H2, H3 in C2. discriminate.
Qed.

Lemma sp_closed : forall client i s b, sp client i (n_set_closed s b) <-> sp client i s.
Proof. intros client i s b. destruct i; cbn [sp]; tauto. Qed.

Lemma delete_if_ex : forall c s s0 i k, conn_ok c -> In s (nc_streams c) -> n_id s0 = n_id s ->
  closed_ok (nc_client c) s0 -> sack_ok (n_sack s0) -> stream_of i = Some k ->
  (outstanding (n_delete_if_closed c s0) i <->
   (k = n_id s /\ sp (nc_client c) i s0) \/ (k <> n_id s /\ outstanding c i)).
Proof.
  intros c s s0 i k Hc Hs He Hcl Hsk Hk. rewrite !(outstanding_stream _ i k Hk). unfold n_delete_if_closed. cbv zeta.
  set (s1 := n_set_closed s0 (n_closed s0 || n_is_closed (nc_client c) s0)).
  assert (E1 : n_id s1 = n_id s0) by reflexivity.
  pose proof (closed_ok_closed (nc_client c) s0 Hcl) as Hcl1. fold s1 in Hcl1.
  destruct (n_closed s1 && (if n_rst_sent s1 then n_rst_acked s1 else check_sack_list (n_sack s1) 0 (n_sent s1))) eqn:D.
  - change (nc_client (n_delete c (n_id s1))) with (nc_client c). rewrite del_ex, E1, He.
    split; [tauto|]. intros [[H1 H2]|H]; [|exact H]. exfalso.
    refine (deleted_done (nc_client c) s1 i k Hk _ Hcl1 Hsk D _); [congruence|].
    apply (sp_closed (nc_client c) i s0 (n_closed s0 || n_is_closed (nc_client c) s0)). exact H2.
  - change (nc_client (n_put c s1)) with (nc_client c). rewrite (put_ex c s s1 k _ Hs) by congruence.
    rewrite E1, He. unfold s1. rewrite sp_closed. tauto.
Qed.

Lemma conn_ok_put : forall c s', conn_ok c -> sack_ok (n_sack s') -> closed_ok (nc_client c) s' -> n_sent s' < max64 ->
  conn_ok (n_put c s').
Proof.
  intros c s' [H1 H2 H3 H4 H5] K1 K2 K3. constructor; try assumption.
  - rewrite put_ids. exact H1.
  - intros x Hx. apply put_in in Hx. change (nc_client (n_put c s')) with (nc_client c).
    destruct Hx as [(y & _ & _ & ->)|[Hx _]]; [tauto|apply H2, Hx].
Qed.

Lemma conn_ok_delete : forall c sid, conn_ok c -> conn_ok (n_delete c sid).
Proof.
  intros c sid [H1 H2 H3 H4 H5]. constructor; try assumption.
  - unfold n_delete. cbn [nc_streams]. apply nodup_filter, H1.
  - intros x Hx. unfold n_delete in Hx. cbn [nc_streams] in Hx. apply filter_In in Hx.
    change (nc_client (n_delete c sid)) with (nc_client c). apply H2, Hx.
Qed.

Lemma conn_ok_delete_if : forall c s0, conn_ok c -> sack_ok (n_sack s0) -> closed_ok (nc_client c) s0 -> n_sent s0 < max64 ->
  conn_ok (n_delete_if_closed c s0).
Proof.
  intros c s0 H K1 K2 K3. unfold n_delete_if_closed. cbv zeta.
  match goal with |- conn_ok (if ?b then _ else _) => destruct b end; [apply conn_ok_delete, H|].
  apply conn_ok_put; [exact H|exact K1|apply closed_ok_closed, K2|exact K3].
Qed.

Lemma same_other : forall c i, stream_of i = None -> forall s, outstanding (n_put c s) i <-> outstanding c i.
Proof. intros c i H s. destruct i; cbn [stream_of] in H; try discriminate; cbn [outstanding]; tauto. Qed.

Lemma same_delete_if : forall c i, stream_of i = None -> forall s, outstanding (n_delete_if_closed c s) i <-> outstanding c i.
Proof.
  intros c i H s. unfold n_delete_if_closed. cbv zeta. match goal with |- outstanding (if ?b then _ else _) _ <-> _ => destruct b end.
  - destruct i; cbn [stream_of] in H; try discriminate; cbn [outstanding]; tauto.
  - apply same_other, H.
Qed.

Lemma outstanding_found : forall c sid s i, conn_ok c -> n_find c sid = Some s -> stream_of i = Some sid ->
  (outstanding c i <-> sp (nc_client c) i s).
Proof.
  intros c sid s i [H1 _ _ _ _] Hf Hk. rewrite (outstanding_stream c i sid Hk). apply find_ex; assumption.
Qed.

Lemma outstanding_absent : forall c sid i, n_find c sid = None -> stream_of i = Some sid -> ~ outstanding c i.
Proof.
  intros c sid i Hf Hk H. apply (outstanding_stream c i sid Hk) in H. destruct H as (s & Hi & He & _).
  apply (find_none _ _ Hf) in Hi. cbn beta in Hi. rewrite He, N.eqb_refl in Hi. discriminate.
Qed.

Lemma delete_effect : forall c sid s s0 (G : info -> Prop), conn_ok c -> n_find c sid = Some s -> n_id s0 = n_id s ->
  closed_ok (nc_client c) s0 -> sack_ok (n_sack s0) ->
  (forall i, stream_of i <> Some sid -> ~ G i) ->
  (forall i, stream_of i = Some sid -> (sp (nc_client c) i s0 <-> sp (nc_client c) i s /\ ~ G i)) ->
  forall i, outstanding (n_delete_if_closed c s0) i <-> outstanding c i /\ ~ G i.
Proof.
  intros c sid s s0 G Hc Hf He Hcl Hsk HG1 HG2 i. destruct (n_find_some _ _ _ Hf) as [Hi Hid].
  destruct (stream_of i) as [k|] eqn:K.
  - rewrite (delete_if_ex c s s0 i k Hc Hi He Hcl Hsk K). rewrite Hid. destruct (N.eq_dec k sid) as [->|Hne].
    + rewrite (outstanding_found c sid s i Hc Hf K). specialize (HG2 i K). tauto.
    + assert (~ G i) by (apply HG1; congruence). tauto.
  - rewrite same_delete_if by exact K. assert (~ G i) by (apply HG1; congruence). tauto.
Qed.

Lemma put_effect : forall c sid s s0 (G : info -> Prop), conn_ok c -> n_find c sid = Some s -> n_id s0 = n_id s ->
  (forall i, stream_of i <> Some sid -> ~ G i) ->
  (forall i, stream_of i = Some sid -> (sp (nc_client c) i s0 <-> sp (nc_client c) i s /\ ~ G i)) ->
  forall i, outstanding (n_put c s0) i <-> outstanding c i /\ ~ G i.
Proof.
  intros c sid s s0 G Hc Hf He HG1 HG2 i. destruct (n_find_some _ _ _ Hf) as [Hi Hid].
  destruct (stream_of i) as [k|] eqn:K.
  - rewrite (outstanding_stream (n_put c s0) i k K), (put_ex c s s0 k _ Hi He).
    rewrite <- (outstanding_stream c i k K). change (nc_client (n_put c s0)) with (nc_client c).
    rewrite He, Hid. destruct (N.eq_dec k sid) as [->|Hne].
    + rewrite (outstanding_found c sid s i Hc Hf K). specialize (HG2 i K). tauto.
    + assert (~ G i) by (apply HG1; congruence). tauto.
  - rewrite same_other by exact K. assert (~ G i) by (apply HG1; congruence). tauto.
Qed.

Lemma no_change : forall c (G : info -> Prop), (forall i, outstanding c i -> ~ G i) ->
  forall i, outstanding c i <-> outstanding c i /\ ~ G i.
Proof. intros c G H i. specialize (H i). tauto. Qed.

Lemma ack_effect : forall c pt f, conn_ok c -> carries_frames pt -> sframe_ok f -> ack_handled f ->
  conn_ok (ack_apply c pt f) /\
  forall i, tracked i -> (outstanding (ack_apply c pt f) i <-> outstanding c i /\ ~ gives pt f i).
Proof.
  intros c pt f Hc Hpt Hok Hh.
  assert (Hnone : forall (G : info -> Prop), (forall i, ~ G i) ->
    conn_ok c /\ forall i, tracked i -> (outstanding c i <-> outstanding c i /\ ~ G i)).
  { intros G HG. split; [exact Hc|]. intros i _. specialize (HG i). tauto. }
  destruct f as [w|last sid off fin d|ecn path lg dl fi bl ct|t n]; cbn [ack_apply].
  2: { (* STREAM *)
    destruct Hok as (Ho1 & Ho2 & Ho3).
    assert (Ho3' : fin = true \/ 1 <= blen d) by (destruct Ho3; [auto|right; apply data_positive; assumption]).
    destruct (n_find c sid) as [s|] eqn:Hf.
    - destruct (n_find_some _ _ _ Hf) as [Hi Hid]. destruct (ok_streams c Hc s Hi) as (K1 & K2 & K3).
      destruct (sack_add_spec (n_sack s) off (blen d) fin K1 Ho1 Ho3') as [S1 S2].
      assert (Hcl0 : closed_ok (nc_client c) (n_set_sack s (sack_add (n_sack s) off (blen d) fin))) by exact K2.
      split; [apply conn_ok_delete_if; assumption|]. intros i _.
      apply (delete_effect c sid s); try assumption; try reflexivity.
      + intros j Hj Hg. destruct Hg as (pos & -> & _). apply Hj. reflexivity.
      + intros j Hj. change (gives pt (SStream last sid off fin d) j) with (carries pt (SStream last sid off fin d) j).
        cbn [carries]. destruct j; cbn [stream_of] in Hj; try discriminate; injection Hj as ->; cbn [sp].
        all: cbn [n_set_sack n_rst_sent n_rst_acked n_fin_rcvd n_rst_rcvd n_sent n_fin_sent n_sack n_stop_sent n_md_l n_md_l_acked
                  n_fin_req n_rst_req n_md_r n_blocked_sent].
        all: try (split; [intro H; split; [exact H|]; intros (q & E & _); discriminate | intros [H _]; exact H]).
        rewrite S2. split.
        * intros (A1 & A2 & A3). split; [tauto|]. intros (q & E & Q1 & Q2). injection E as <-. apply A3. right. tauto.
        * intros ((A1 & A2 & A3) & A4). split; [exact A1|]. split; [exact A2|]. intros [H|H]; [contradiction|].
          apply A4. exists pos. tauto.
    - split; [exact Hc|]. intros i _. apply no_change. intros j Ho Hg. destruct Hg as (pos & -> & _).
      exact (outstanding_absent c sid (KByte sid pos) Hf eq_refl Ho). }
  2: { apply Hnone. intros i H. exact H. }
  2: { apply Hnone. intros i H. exact H. }
  destruct Hok as [Hok Hcr].
  destruct w; cbn [ack_handled] in Hh; try contradiction; cbn [wframe_ok ack_ctl] in *;
    try (apply Hnone; intros i H; exact H).
  - (* RESET_STREAM *)
    destruct (n_find c stream_id) as [s|] eqn:Hf.
    + destruct (n_find_some _ _ _ Hf) as [Hi Hid]. destruct (ok_streams c Hc s Hi) as (K1 & K2 & K3).
      assert (Hcl0 : closed_ok (nc_client c) (n_set_rst_acked s)) by exact K2.
      split; [apply conn_ok_delete_if; assumption|]. intros i _.
      apply (delete_effect c stream_id s); try assumption; try reflexivity.
      * intros j Hj Hg. cbn in Hg. subst j. apply Hj. reflexivity.
      * intros j Hj. change (gives pt (SCtl (WReset stream_id error final_size)) j) with (j = KReset stream_id).
        destruct j; cbn [stream_of] in Hj; try discriminate; injection Hj as ->; cbn [sp].
        all: cbn [n_set_rst_acked n_rst_sent n_rst_acked n_fin_rcvd n_rst_rcvd n_sent n_fin_sent n_sack n_stop_sent n_md_l n_md_l_acked
                  n_fin_req n_rst_req n_md_r n_blocked_sent].
        all: try (split; [intro H; split; [exact H|discriminate] | intros [H _]; exact H]).
        split; [intros [_ H]; discriminate|]. intros [_ H]. destruct (H eq_refl).
    + split; [exact Hc|]. intros i _. apply no_change. intros j Ho Hg. cbn in Hg. subst j.
      exact (outstanding_absent c stream_id (KReset stream_id) Hf eq_refl Ho).
  - (* CRYPTO *)
    rewrite epoch_crypto by assumption. set (e := epoch_of pt).
    destruct Hcr as [Hd Hl]. assert (Hd' : false = true \/ 1 <= blen data) by (right; apply data_positive; exact Hd).
    destruct (sack_add_spec (nc_tls c e) offset (blen data) false (ok_tls c Hc e) Hl Hd') as [S1 S2].
    destruct Hc as [H1 H2 H3 H4 H5]. split.
    + constructor; try assumption. intro x. unfold set_tls. cbn [nc_tls]. destruct (x =? e); [exact S1|apply H3].
    + intros i Hi. change (gives pt (SCtl (WCrypto offset data)) i) with
        (exists pos, i = KCrypto e pos /\ offset <= pos < offset + blen data).
      destruct i; try (cbn [outstanding]; split; [intro H; split; [exact H|intros (q & E & _); discriminate]|intros [H _]; exact H]).
      cbn [outstanding]. unfold set_tls. cbn [nc_tls]. destruct (N.eqb_spec epoch e) as [->|Hne].
      * rewrite S2. split.
        { intro A. split; [tauto|]. intros (q & E & Q). injection E as <-. apply A. right. split; [lia|left; lia]. }
        { intros [A1 A2] [A3|[A3 [A4|[A4 _]]]]; [contradiction| |discriminate]. apply A2. exists pos. split; [reflexivity|lia]. }
      * split; [intro A; split; [exact A|intros (q & E & _); congruence]|tauto].
  - (* NEW_TOKEN *)
    split; [destruct Hc as [H1 H2 H3 H4 H5]; constructor; assumption|]. intros i Hi.
    change (gives pt (SCtl (WNewToken token)) i) with (i = KToken).
    destruct i; try (cbn [outstanding]; split; [intro H; split; [exact H|discriminate]|intros [H _]; exact H]).
    cbn [outstanding set_token nc_token_acked]. split; [discriminate|]. intros [_ H]. destruct (H eq_refl).
  - (* MAX_DATA *)
    split. { destruct (nc_md_l_acked c <? maxdata); [|exact Hc]. destruct Hc as [H1 H2 H3 H4 H5]; constructor; assumption. }
    intros i Hi. destruct i; try (cbn [gives]; destruct (nc_md_l_acked c <? maxdata); cbn [outstanding]; tauto).
    cbn [gives]. destruct (N.ltb_spec (nc_md_l_acked c) maxdata); cbn [outstanding set_md_acked nc_md_l nc_md_l_acked]; lia.
  - (* MAX_STREAM_DATA *)
    assert (HG : forall i, stream_of i <> Some stream_id -> ~ gives pt (SCtl (WMaxStreamData stream_id maxdata)) i).
    { intros i Hi Hg. destruct i; cbn [gives] in Hg; try contradiction. destruct Hg as [-> _]. apply Hi. reflexivity. }
    destruct (n_find c stream_id) as [s|] eqn:Hf.
    + destruct (n_find_some _ _ _ Hf) as [Hi Hid]. destruct (ok_streams c Hc s Hi) as (K1 & K2 & K3).
      destruct (N.ltb_spec (n_md_l_acked s) maxdata) as [Hlt|Hge].
      * split; [apply conn_ok_put; assumption|]. intros i _.
        apply (put_effect c stream_id s); try assumption; try reflexivity.
        intros j Hj. destruct j; cbn [stream_of] in Hj; try discriminate; injection Hj as ->; cbn [sp gives];
          cbn [n_set_md_acked n_rst_sent n_rst_acked n_fin_rcvd n_rst_rcvd n_sent n_fin_sent n_sack n_stop_sent n_md_l n_md_l_acked
                  n_fin_req n_rst_req n_md_r n_blocked_sent]; try tauto.
        split.
        { intros (A1 & A2 & A3 & A4 & A5 & A6). split; [repeat match goal with |- _ /\ _ => split end; try assumption; lia|]. intros [_ H]. lia. }
        { intros [(A1 & A2 & A3 & A4 & A5 & A6) A7]. repeat match goal with |- _ /\ _ => split end; try assumption.
          destruct (N.le_gt_cases v maxdata); [destruct A7; auto|assumption]. }
      * split; [exact Hc|]. intros i _. apply no_change. intros j Ho Hg.
        destruct j; cbn [gives] in Hg; try contradiction. destruct Hg as [-> Hv].
        apply (outstanding_found c stream_id s (KMaxStreamData stream_id v) Hc Hf eq_refl) in Ho. cbn [sp] in Ho. lia.
    + split; [exact Hc|]. intros i _. apply no_change. intros j Ho Hg.
      destruct j; cbn [gives] in Hg; try contradiction. destruct Hg as [-> Hv].
      exact (outstanding_absent c stream_id (KMaxStreamData stream_id v) Hf eq_refl Ho).
  - (* MAX_STREAMS *)
    split. { destruct (nc_rank_acked c unidir <? rank); [|exact Hc]. destruct Hc as [H1 H2 H3 H4 H5]; constructor; assumption. }
    intros i Hi. destruct i; try (cbn [gives]; destruct (nc_rank_acked c unidir <? rank); cbn [outstanding]; tauto).
    cbn [gives]. destruct (Bool.bool_dec unidir0 unidir) as [->|Hne].
    + destruct (N.ltb_spec (nc_rank_acked c unidir) rank); cbn [outstanding set_rank_acked nc_rank_acked nc_max_l nc_client].
      * rewrite Bool.eqb_reflx. split; [intros [A1 A2]; split; [split; [lia|exact A2]|lia]|].
        intros [[A1 A2] A3]. split; [|exact A2]. destruct (N.le_gt_cases rank0 rank); [destruct A3; auto|assumption].
      * split; [intros [A1 A2]; split; [auto|lia]|tauto].
    + assert (E : Bool.eqb unidir0 unidir = false) by (apply Bool.eqb_false_iff; exact Hne).
      destruct (nc_rank_acked c unidir <? rank); cbn [outstanding set_rank_acked nc_rank_acked nc_max_l nc_client]; rewrite ?E; tauto.
  - (* NEW_CONNECTION_ID *)
    set (p := of_path path_id).
    split.
    + destruct Hc as [H1 H2 H3 H4 H5]; constructor; try assumption. unfold set_local. cbn [nc_local]. rewrite map_map.
      rewrite (map_ext _ fst); [exact H5|]. intro x. destruct ((fst (fst x) =? p) && (snd (fst x) =? sequence)); reflexivity.
    + intros i Hi. change (gives pt (SCtl (WNewCid path_id sequence retire_before cid secret)) i) with (i = KNewCid p sequence).
      destruct i; try (cbn [outstanding]; split; [intro H; split; [exact H|discriminate]|intros [H _]; exact H]).
      cbn [outstanding set_local nc_local]. rewrite in_map_iff. split.
      * intros ([[q s] a] & E & Hin). cbn [fst snd] in E. destruct ((q =? p) && (s =? sequence)) eqn:B; [discriminate|].
        injection E as -> -> ->. split; [exact Hin|]. intro E. injection E as -> ->. rewrite !N.eqb_refl in B. discriminate.
      * intros [Hin Hne]. exists (path, seq, false). split; [|exact Hin]. cbn [fst snd].
        destruct ((path =? p) && (seq =? sequence)) eqn:B; [|reflexivity]. apply andb_prop in B. destruct B as [B1 B2].
        apply N.eqb_eq in B1, B2. destruct Hne. congruence.
  - (* RETIRE_CONNECTION_ID *)
    destruct path_id as [p|]; [contradiction|].
    split. { destruct Hc as [H1 H2 H3 H4 H5]; constructor; assumption. }
    intros i Hi. change (gives pt (SCtl (WRetireCid None sequence)) i) with (i = KRetireCid 0 sequence).
    destruct i; try (cbn [outstanding]; split; [intro H; split; [exact H|discriminate]|intros [H _]; exact H]).
    + cbn [outstanding set_remote nc_remote]. rewrite filter_In. cbn [fst snd].
      destruct ((path =? 0) && (seq =? sequence)) eqn:B; cbn [negb].
      * apply andb_prop in B. destruct B as [B1 B2]. apply N.eqb_eq in B1, B2. subst. split; [intros [_ ?]; discriminate|].
        intros [_ H]. destruct (H eq_refl).
      * split; [|tauto]. intros [H _]. split; [exact H|]. intro E. injection E as -> ->. rewrite !N.eqb_refl in B. discriminate.
    + destruct Hi.
  - (* HANDSHAKE_DONE *)
    split; [destruct Hc as [H1 H2 H3 H4 H5]; constructor; assumption|]. intros i Hi.
    change (gives pt (SCtl WHandshakeDone) i) with (i = KDone).
    destruct i; try (cbn [outstanding]; split; [intro H; split; [exact H|discriminate]|intros [H _]; exact H]).
    cbn [outstanding set_done nc_done_acked]. split; [discriminate|]. intros [_ H]. destruct (H eq_refl).
Qed.

Lemma ack_packet : forall c pt path fs l, conn_ok c -> carries_frames pt -> payload fs l -> Forall ack_handled fs ->
  exists c', process_ack_of_frames c pt path l = AOk c' true /\ conn_ok c' /\
    forall i, tracked i -> (outstanding c' i <-> outstanding c i /\ ~ exists f, In f fs /\ gives pt f i).
Proof.
  intros c pt path fs l Hc Hpt Hp Hh. exists (fold_left (fun c f => ack_apply c pt f) fs c).
  split; [apply process_payload; [exact Hp|exact Hh|lia]|].
  assert (Hok : Forall sframe_ok fs).
  { clear - Hp. induction Hp; constructor; assumption. }
  clear Hp l. revert c Hc Hh Hok. induction fs as [|f fs IH]; intros c Hc Hh Hok; cbn [fold_left].
  - split; [exact Hc|]. intros i _. split; [|tauto]. intro H. split; [exact H|]. intros (f & [] & _).
  - inversion Hh; inversion Hok; subst. destruct (ack_effect c pt f Hc Hpt) as [E1 E2]; try assumption.
    destruct (IH (ack_apply c pt f) E1) as [F1 F2]; try assumption. split; [exact F1|].
    intros i Hi. rewrite (F2 i Hi), (E2 i Hi). split.
    + intros [[A1 A2] A3]. split; [exact A1|]. intros (g & [<-|Hg] & Hx); [contradiction|]. apply A3. exists g. auto.
    + intros [A1 A2]. split; [split; [exact A1|]|].
      * intro H. apply A2. exists f. split; [left; reflexivity|exact H].
      * intros (g & Hg & Hx). apply A2. exists g. split; [right; exact Hg|exact Hx].
Qed.
