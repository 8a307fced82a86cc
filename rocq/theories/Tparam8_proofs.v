(** Proofs about the round trip of transport parameters. *)
From Verif Require Import Base Tac Varint_model Varint_spec Varint_proofs Header_model Header_spec Header_proofs
  Lb_spec Stream_model Tparam_model Tparam_spec Tparam_proofs Tparam2_proofs Tparam3_proofs Tparam4_proofs Tparam5_proofs Tparam6_proofs Tparam7_proofs.

(** Lists of optional parameters. *)
Definition opts (tb : list (bool * (N * list N))) : list (N * list N) := flat_map (fun e : bool * (N * list N) => if fst e then [snd e] else []) tb.
Definition types (tb : list (bool * (N * list N))) : list N := map (fun e => fst (snd e)) tb.

Lemma opts_in : forall tb p, In p (opts tb) <-> In (true, p) tb.
Proof.
  intros tb p. unfold opts. rewrite in_flat_map. split.
  - intros ([b q] & H1 & H2). cbn in H2. destruct b; [destruct H2 as [<-|[]]; exact H1|destruct H2].
  - intro H. exists (true, p). split; [exact H|left; reflexivity].
Qed.

Lemma opts_types : forall tb t, In t (map fst (opts tb)) -> In t (types tb).
Proof.
  intros tb t H. apply in_map_iff in H. destruct H as (p & <- & H). apply opts_in in H. apply (in_map (fun e => fst (snd e))) in H. exact H.
Qed.

Lemma opts_nodup : forall tb, NoDup (types tb) -> NoDup (map fst (opts tb)).
Proof.
  intro tb. induction tb as [|[b p] tb IH]; intro H; [constructor|]. cbn in H. inversion H; subst. unfold opts. cbn [flat_map fst snd].
  destruct b; cbn [app map]; [|apply IH; assumption]. constructor; [|apply IH; assumption]. intro K. apply opts_types in K. contradiction.
Qed.

Lemma opts_absent : forall tb t v, NoDup (types tb) -> In (false, (t, v)) tb -> ~ In t (map fst (opts tb)).
Proof.
  intro tb. induction tb as [|[b p] tb IH]; intros t v H Hin; [contradiction|]. cbn in H. inversion H as [|x l H1 H2]; subst. unfold opts. cbn [flat_map fst snd].
  destruct Hin as [E|Hin].
  - injection E as -> ->. cbn [app]. intro K. apply opts_types in K. contradiction.
  - specialize (IH t v H2 Hin). rewrite map_app. intro K. apply in_app_or in K. destruct K as [K|K]; [|contradiction].
    destruct b; [|destruct K]. destruct K as [<-|[]]. apply H1. apply (in_map (fun e => fst (snd e))) in Hin. exact Hin.
Qed.

Lemma opts_none : forall tb t, ~ In t (types tb) -> ~ In t (map fst (opts tb)).
Proof. intros tb t H K. apply H. apply opts_types. exact K. Qed.

(** What is sent. *)
Definition vb := varint_bytes.
Definition table_base (g : tcfg) (s : tst) (pv : list N) : list (bool * (N * list N)) :=
  let p := tp_n (s_local s) in
  let srv := negb (g_client g) in
  let retry := 0 <? blen (g_original g) in
  [ (true, (5, vb (p FDataBidiLocal))); (true, (4, vb (p FMaxData))); (0 <? p FStreamsBidi, (8, vb (p FStreamsBidi)));
    (0 <? p FIdle, (1, vb (p FIdle))); (true, (3, vb (p FPacketSize))); (negb (p FExponent =? 3), (10, vb (p FExponent)));
    (0 <? p FStreamsUni, (9, vb (p FStreamsUni)));
    (match tp_pref (s_local s) with Some _ => true | None => false end, (13, pv));
    (negb (p FNoMigration =? 0), (12, [])); (0 <? p FDataBidiRemote, (6, vb (p FDataBidiRemote))); (0 <? p FDataUni, (7, vb (p FDataUni)));
    (0 <? p FCidLimit, (14, vb (p FCidLimit))); (negb (p FAckDelay =? 25000), (11, vb (u32 (p FAckDelay + 999) / 1000)));
    (true, (15, g_local_cid g)); (srv && (retry || s_hcid s), (0, if retry then g_original g else g_initial g));
    (srv && retry, (16, g_initial g)); (srv, (2, g_secret g (g_local_cid g))) ].

Definition table_ext (g : tcfg) (s : tst) : list (bool * (N * list N)) :=
  let p := tp_n (s_local s) in
  [ (0 <? p FDatagram, (32, vb (p FDatagram))); (g_grease g, (grease_type g, vb (grease_value g)));
    (g_large g, (3127, repeat 81 1200%nat)); (0 <? p FLossBit, (0x1057, vb (if 1 <? p FLossBit then 1 else 0)));
    (0 <? p FMinAckDelay, (0xff04de1b, vb (p FMinAckDelay))); (0 <? p FTimeStamp, (0x7158, vb (p FTimeStamp)));
    (negb (p FGrease =? 0), (0x2ab2, [])); (s_do_vn s, (17, flat_map be32 (version_of (s_vi s) :: proposed (negb (g_client g)) (version_of (s_vi s)) (g_desired g))));
    (0 <? p FBdp, (0xebd9, vb (p FBdp))); (0 <? p FMultipath, (0x0f739bbc1b666d0d, vb (p FMaxPathId)));
    (0 <? p FAddress, (0x9f81a176, vb (p FAddress - 1))) ].

Lemma sends_cons : forall (c : bool) w p n w2 tb m, (c = true -> sends w [p] n) -> sends w2 (opts tb) m -> sends (wif c w >>> w2) (opts ((c, p) :: tb)) (n + m).
Proof. intros c w p n w2 tb m H1 H2. unfold opts. cbn [flat_map fst snd]. apply sends_seq; [apply sends_if; exact H1|exact H2]. Qed.
Lemma sends_cons_true : forall w p n w2 tb m, sends w [p] n -> sends w2 (opts tb) m -> sends (w >>> w2) (opts ((true, p) :: tb)) (n + m).
Proof. intros w p n w2 tb m H1 H2. apply (sends_seq w w2 [p] (opts tb) n m H1 H2). Qed.

Lemma two62_eq : 2 ^ 62 = two62.
Proof. reflexivity. Qed.

Lemma grease_bound : forall g, bytes_ok (g_initial g) -> nth 0 (g_initial g) 0 < 256 /\ nth 1 (g_initial g) 0 < 256 /\ nth 2 (g_initial g) 0 < 256.
Proof.
  intros g H.
  assert (K : forall n, nth n (g_initial g) 0 < 256).
  { intro n. destruct (nth_in_or_default n (g_initial g) 0) as [Hin|E]; [|rewrite E; lia]. unfold bytes_ok in H. rewrite Forall_forall in H. exact (H _ Hin). }
  auto.
Qed.

Lemma grease_type_range : forall g, bytes_ok (g_initial g) -> exists k, k <= 257 /\ grease_type g = 31 * k + 27 /\ grease_type g <> 3127.
Proof.
  intros g H. destruct (grease_bound g H) as (B & _). unfold grease_type, ty_large. cbv zeta. set (k := nth 0 (g_initial g) 0 + (if g_client g then 1 else 0)).
  assert (k <= 256) by (unfold k; destruct (g_client g); lia).
  destruct (N.eqb_spec (31 * k + 27) 3127) as [E|E].
  - exists (k + 1). split; [lia|]. split; lia.
  - exists k. split; [lia|]. split; [reflexivity|exact E].
Qed.

Lemma sends_base : forall g s pv, sendable g s -> (forall a, tp_pref (s_local s) = Some a -> is_pref a pv /\ bytes_ok pv) ->
  sends (prepare_base g s) (opts (table_base g s pv)) 343.
Proof.
  intros g s pv H Hp. destruct H as [Hn Hst Hex Hpk Hdl Hw Hcl Hm Hfl Hpr Hc Hse Hi Hd Hf]. 
  assert (Hn' : forall f, tp_n (s_local s) f < two62) by exact Hn.
  unfold prepare_base, table_base. cbv zeta.
  unfold ty_data_bidi_local, ty_max_data, ty_streams_bidi, ty_idle, ty_packet_size, ty_exponent, ty_streams_uni, ty_no_migration, ty_data_bidi_remote, ty_data_uni, ty_cid_limit, ty_ack_delay,
    ty_handshake_cid, ty_original_cid, ty_retry_cid.
  change 343 with (17 + (17 + (17 + (17 + (17 + (17 + (17 + (63 + (9 + (17 + (17 + (17 + (17 + (22 + (22 + (22 + 18)))))))))))))))).
  assert (V : forall t f, t < 64 -> sends (tp_type_varint t (tp_n (s_local s) f)) [(t, vb (tp_n (s_local s) f))] 17).
  { intros t f Ht. apply sends_varint; [unfold two62; lia|apply Hn']. }
  apply sends_cons_true; [apply V; lia|]. apply sends_cons_true; [apply V; lia|].
  apply sends_cons; [intros _; apply V; lia|]. apply sends_cons; [intros _; apply V; lia|].
  apply sends_cons_true; [apply V; lia|]. apply sends_cons; [intros _; apply V; lia|]. apply sends_cons; [intros _; apply V; lia|].
  match goal with |- sends (match tp_pref _ with Some a => tp_pref_encode a | None => wnil end >>> ?w) (opts ((_, ?p) :: ?tb)) (_ + ?m) =>
    assert (R : sends w (opts tb) m -> sends (match tp_pref (s_local s) with Some a => tp_pref_encode a | None => wnil end >>> w)
      (opts ((match tp_pref (s_local s) with Some _ => true | None => false end, p) :: tb)) (63 + m)) end.
  { intro R. destruct (tp_pref (s_local s)) as [a|] eqn:E.
    - apply sends_cons_true; [|exact R]. destruct (Hp a eq_refl) as [P1 P2]. destruct (Hpr a eq_refl) as (_ & P3 & _). apply sends_pref; assumption.
    - unfold opts at 1. cbn [flat_map fst app]. apply (sends_seq wnil _ [] _ 63); [apply sends_nil|exact R]. }
  apply R. clear R.
  apply sends_cons; [intros _; apply sends_flag; reflexivity|]. apply sends_cons; [intros _; apply V; lia|]. apply sends_cons; [intros _; apply V; lia|].
  apply sends_cons; [intros _; apply V; lia|].
  apply sends_cons. { intros _. apply sends_varint; [reflexivity|]. unfold u32, two62. apply (N.le_lt_trans _ 4294967296); [|reflexivity].
    etransitivity; [apply N.div_le_upper_bound with (q := 4294967296); [discriminate|]|reflexivity].
    pose proof (N.mod_lt (tp_n (s_local s) FAckDelay + 999) 4294967296). lia. }
  apply sends_cons_true. { apply sends_cid; [lia| |]; apply (Hc (g_local_cid g)); auto. }
  destruct (g_client g) eqn:C; cbn [negb andb].
  - unfold opts. cbn [flat_map fst app]. apply sends_nil.
  - assert (S0 : forall c, c = g_initial g \/ c = g_original g -> sends (tp_cid 0 c) [(0, c)] 22). { intros c Hcc. apply sends_cid; [lia| |]; apply (Hc c); tauto. }
    assert (S16 : sends (tp_cid 16 (g_initial g)) [(16, g_initial g)] 22). { apply sends_cid; [lia| |]; apply (Hc (g_initial g)); auto. }
    assert (S2 : sends (tp_reset_encode (g_secret g (g_local_cid g))) [(2, g_secret g (g_local_cid g))] 18). { apply sends_reset; apply Hse. }
    destruct (0 <? blen (g_original g)); cbn [orb].
    + change (opts [(true, (0, g_original g)); (true, (16, g_initial g)); (true, (2, g_secret g (g_local_cid g)))]) with
        (([(0, g_original g)] ++ [(16, g_initial g)]) ++ [(2, g_secret g (g_local_cid g))]).
      replace (22 + (22 + 18)) with ((22 + 22) + 18) by reflexivity. apply sends_seq; [apply sends_seq; [apply S0; auto|exact S16]|exact S2].
    + apply (sends_cons (s_hcid s) (tp_cid 0 (g_initial g)) (0, g_initial g) 22 _ [(false, (16, g_initial g)); (true, (2, g_secret g (g_local_cid g)))] (22 + 18)).
      * intros _. apply S0; auto.
      * unfold opts. cbn [flat_map fst snd app]. destruct S2 as (b & B1 & B2 & B3 & B4). exists b. repeat split; try assumption; try apply B1. lia.
Qed.

Lemma sends_ext : forall g s, (forall f, tp_n (s_local s) f < 2 ^ 62) -> bytes_ok (g_initial g) -> index_ok (s_vi s) -> g_desired g < 2 ^ 32 -> g_large_flight g = false ->
  sends (prepare_extensions g s) (opts (table_ext g s)) 1420.
Proof.
  intros g s Hn Hb Hi Hd Hf. assert (Hn' : forall f, tp_n (s_local s) f < two62) by exact Hn.
  unfold prepare_extensions, table_ext. cbv zeta.
  unfold ty_datagram, ty_loss_bit, ty_min_ack_delay, ty_time_stamp, ty_grease, ty_bdp, ty_max_path_id, ty_address.
  change 1420 with (17 + (17 + (1216 + (17 + (17 + (17 + (9 + (59 + (17 + (17 + (17 + 0))))))))))).
  assert (V : forall t f, t < two62 -> sends (tp_type_varint t (tp_n (s_local s) f)) [(t, vb (tp_n (s_local s) f))] 17).
  { intros t f Ht. apply sends_varint; [exact Ht|apply Hn']. }
  apply sends_cons; [intros _; apply V; reflexivity|].
  apply sends_cons. { intros _. destruct (grease_type_range g Hb) as (k & Hk & E & _). destruct (grease_bound g Hb) as (_ & B1 & B2).
    apply sends_varint; unfold two62; [lia|]. unfold grease_value. lia. }
  apply sends_cons. { intros _. exact (sends_large 1200 eq_refl). }
  apply sends_cons. { intros _. apply sends_varint; [reflexivity|]. destruct (1 <? _); reflexivity. }
  apply sends_cons; [intros _; apply V; reflexivity|]. apply sends_cons; [intros _; apply V; reflexivity|].
  apply sends_cons; [intros _; apply sends_flag; reflexivity|].
  apply sends_cons; [intros _; apply sends_version; assumption|].
  apply sends_cons; [intros _; apply V; reflexivity|]. apply sends_cons; [intros _; apply V; reflexivity|].
  apply sends_cons. { intros _. apply sends_varint; [reflexivity|]. pose proof (Hn' FAddress). lia. }
  rewrite Hf, Bool.andb_false_r. exact (sends_nil 0).
Qed.

Lemma supported_32 : forall x, In x supported -> x < 2 ^ 32.
Proof. intros x H. cbn [In supported] in H. change (2 ^ 32) with 4294967296. repeat (destruct H as [<- |H]; [reflexivity|]). destruct H. Qed.

Lemma server_datagram_local : forall g s f, tp_n (s_local (server_datagram g s)) f =
  match f with FDatagram => expected g s FDatagram | _ => tp_n (s_local s) f end.
Proof. intros g s f. unfold server_datagram, expected. destruct (_ && _ && _); destruct f; reflexivity. Qed.

Lemma server_datagram_other : forall g s, s_vi (server_datagram g s) = s_vi s /\ s_do_vn (server_datagram g s) = s_do_vn s.
Proof. intros g s. unfold server_datagram. destruct (_ && _ && _); split; reflexivity. Qed.

Definition table (g : tcfg) (s : tst) (pv : list N) : list (bool * (N * list N)) := table_base g s pv ++ table_ext g (server_datagram g s).

Lemma sends_all : forall g s pv, sendable g s -> (forall a, tp_pref (s_local s) = Some a -> is_pref a pv /\ bytes_ok pv) ->
  sends (prepare g s) (opts (table g s pv)) 1763.
Proof.
  intros g s pv H Hp. unfold prepare, table. change 1763 with (343 + 1420). unfold opts at 1. rewrite flat_map_app.
  apply (sends_seq (prepare_base g s) (prepare_extensions g (server_datagram g s))); [apply sends_base; assumption|].
  destruct (server_datagram_other g s) as [E1 E2].
  apply sends_ext.
  - intro f. rewrite server_datagram_local. destruct f; try apply (sd_num g s H). cbn [expected]. destruct (_ && _ && _); [reflexivity|apply (sd_num g s H)].
  - apply (sd_cids g s H (g_initial g)). auto.
  - rewrite E1. apply (sd_index g s H).
  - destruct (sd_desired g s H) as [-> |[K _]]; [reflexivity|apply supported_32; exact K].
  - apply (sd_flight g s H).
Qed.

(** The table has each type once. *)
Definition type_list (g : tcfg) : list N :=
  [5; 4; 8; 1; 3; 10; 9; 13; 12; 6; 7; 14; 11; 15; 0; 16; 2; 32; grease_type g; 3127; 0x1057; 0xff04de1b; 0x7158; 0x2ab2; 17; 0xebd9; 0x0f739bbc1b666d0d; 0x9f81a176].

Lemma table_types : forall g s pv, types (table g s pv) = type_list g.
Proof. reflexivity. Qed.

Lemma type_list_nodup : forall g, bytes_ok (g_initial g) -> NoDup (type_list g).
Proof.
  intros g Hb. destruct (grease_type_range g Hb) as (k & Hk & E & N3). unfold type_list.
  repeat (constructor; [cbn [In]; intro H; repeat (destruct H as [H|H]; [first [discriminate H|lia]|]); exact H|]). constructor.
Qed.

Lemma grease_unknown : forall g, bytes_ok (g_initial g) -> ~ In (grease_type g) known_types.
Proof.
  intros g Hb H. destruct (grease_type_range g Hb) as (k & Hk & E & N3). cbn [In known_types plain_types app] in H.
  repeat (destruct H as [H|H]; [lia|]). exact H.
Qed.

(** ** What the table says *)

Lemma says_entry : forall own tb f c v x, NoDup (types tb) -> In (c, (field_type f, v)) tb -> (c = true -> means f v x) -> (c = false -> x = absent own f) ->
  says own (opts tb) f x.
Proof.
  intros own tb f c v x N H T F. destruct c.
  - left. exists v. split; [apply opts_in; exact H|auto].
  - right. split; [apply (opts_absent tb _ v N H)|auto].
Qed.

Lemma vb_is : forall n, n < 2 ^ 62 -> is_varint n (vb n).
Proof. intros n H. apply varint_bytes_is_varint. exact H. Qed.

Ltac in_table := unfold table, table_base, table_ext; cbn [app In field_type]; tauto.

Lemma up_ms : forall n, n <= 16383000 -> u32 (n + 999) / 1000 = (n + 999) / 1000.
Proof. intros n H. unfold u32. rewrite N.mod_small by lia. reflexivity. Qed.

Lemma says_table : forall g s pv own, sendable g s -> (tp_n (s_local s) FCidLimit = 0 -> own = 0) -> forall f, says own (opts (table g s pv)) f (expected g s f).
Proof.
  intros g s pv own H Ho f. destruct H as [Hn Hst Hex Hpk Hdl Hw Hcl Hm Hfl Hpr Hc Hse Hi Hd Hf].
  assert (N : NoDup (types (table g s pv))). { rewrite table_types. apply type_list_nodup. apply (Hc (g_initial g)). auto. }
  pose proof (fun f => server_datagram_local g s f) as L.
  assert (Z : forall x, (0 <? x) = false -> x = 0) by (intros x E; apply N.ltb_ge in E; lia).
  assert (P : forall c v, In (c, (field_type f, v)) (table g s pv) -> (c = true -> means f v (expected g s f)) -> (c = false -> expected g s f = absent own f) ->
     says own (opts (table g s pv)) f (expected g s f)) by (intros c v; apply says_entry; exact N).
  destruct f; cbn [expected field_type] in *.
  - apply (P true (vb (tp_n (s_local s) FDataBidiLocal))); [in_table|intros _; apply vb_is; apply Hn|discriminate].
  - apply (P (0 <? tp_n (s_local s) FDataBidiRemote) (vb (tp_n (s_local s) FDataBidiRemote))); [in_table|intros _; apply vb_is; apply Hn|apply Z].
  - apply (P (0 <? tp_n (s_local s) FDataUni) (vb (tp_n (s_local s) FDataUni))); [in_table|intros _; apply vb_is; apply Hn|apply Z].
  - apply (P true (vb (tp_n (s_local s) FMaxData))); [in_table|intros _; apply vb_is; apply Hn|discriminate].
  - apply (P (0 <? tp_n (s_local s) FStreamsBidi) (vb (tp_n (s_local s) FStreamsBidi))); [in_table|intros _; apply vb_is; apply Hn|apply Z].
  - apply (P (0 <? tp_n (s_local s) FStreamsUni) (vb (tp_n (s_local s) FStreamsUni))); [in_table|intros _; apply vb_is; apply Hn|apply Z].
  - apply (P (0 <? tp_n (s_local s) FIdle) (vb (tp_n (s_local s) FIdle))); [in_table|intros _; apply vb_is; apply Hn|apply Z].
  - apply (P true (vb (tp_n (s_local s) FPacketSize))); [in_table|intros _; apply vb_is; apply Hn|discriminate].
  - apply (P (negb (tp_n (s_local s) FAckDelay =? 25000)) (vb (u32 (tp_n (s_local s) FAckDelay + 999) / 1000))); [in_table| |].
    + intros _. change ((2 ^ 14 - 1) * 1000) with 16383000 in Hdl. rewrite up_ms by exact Hdl. exists ((tp_n (s_local s) FAckDelay + 999) / 1000). split; [|lia].
      apply vb_is. change (2 ^ 62) with 4611686018427387904. apply N.div_lt_upper_bound; lia.
    + intro E. apply Bool.negb_false_iff, N.eqb_eq in E. rewrite E. reflexivity.
  - apply (P (0 <? tp_n (s_local s) FCidLimit) (vb (tp_n (s_local s) FCidLimit))); [in_table|intros _; apply vb_is; apply Hn|].
    intro E. apply Z in E. rewrite (Ho E). exact E.
  - apply (P (negb (tp_n (s_local s) FExponent =? 3)) (vb (tp_n (s_local s) FExponent))); [in_table|intros _; apply vb_is; apply Hn|].
    intro E. apply Bool.negb_false_iff, N.eqb_eq in E. exact E.
  - apply (P (negb (tp_n (s_local s) FNoMigration =? 0)) []); [in_table| |].
    + intro E. apply Bool.negb_true_iff, N.eqb_neq in E. cbn [means]. lia.
    + intro E. apply Bool.negb_false_iff, N.eqb_eq in E. exact E.
  - set (e := expected g s FDatagram). apply (P (0 <? e) (vb e)).
    + unfold e. cbn [expected]. pose proof (L FDatagram) as E0. cbv beta iota in E0. rewrite <- E0. in_table.
    + intros _. apply vb_is. unfold e. cbn [expected]. destruct (_ && _ && _); [reflexivity|apply Hn].
    + apply Z.
  - pose proof (L FLossBit) as E0. cbn in E0.
    apply (P (0 <? tp_n (s_local s) FLossBit) (vb (if 1 <? tp_n (s_local s) FLossBit then 1 else 0))); [rewrite <- E0; in_table| |apply Z].
    intro E. apply N.ltb_lt in E. exists (if 1 <? tp_n (s_local s) FLossBit then 1 else 0). destruct (N.ltb_spec 1 (tp_n (s_local s) FLossBit)); split; try (apply vb_is; reflexivity); lia.
  - pose proof (L FTimeStamp) as E0. cbn in E0.
    apply (P (0 <? tp_n (s_local s) FTimeStamp) (vb (tp_n (s_local s) FTimeStamp))); [rewrite <- E0; in_table|intros _; apply vb_is; apply Hn|apply Z].
  - pose proof (L FMinAckDelay) as E0. cbn in E0.
    apply (P (0 <? tp_n (s_local s) FMinAckDelay) (vb (tp_n (s_local s) FMinAckDelay))); [rewrite <- E0; in_table|intros _; apply vb_is; apply Hn|apply Z].
  - pose proof (L FGrease) as E0. cbn in E0.
    apply (P (negb (tp_n (s_local s) FGrease =? 0)) []); [rewrite <- E0; in_table| |].
    + intro E. apply Bool.negb_true_iff, N.eqb_neq in E. cbn [means]. lia.
    + intro E. apply Bool.negb_false_iff, N.eqb_eq in E. exact E.
  - pose proof (L FBdp) as E0. cbn in E0.
    apply (P (0 <? tp_n (s_local s) FBdp) (vb (tp_n (s_local s) FBdp))); [rewrite <- E0; in_table|intros _; apply vb_is; apply Hn|apply Z].
  - pose proof (L FMultipath) as E0. pose proof (L FMaxPathId) as E1. cbn in E0, E1.
    apply (P (0 <? tp_n (s_local s) FMultipath) (vb (tp_n (s_local s) FMaxPathId))); [rewrite <- E0, <- E1; in_table| |apply Z].
    intro E. apply N.ltb_lt in E. cbn [means]. lia.
  - pose proof (L FMultipath) as E0. pose proof (L FMaxPathId) as E1. cbn in E0, E1.
    apply (P (0 <? tp_n (s_local s) FMultipath) (vb (tp_n (s_local s) FMaxPathId))); [rewrite <- E0, <- E1; in_table| |].
    + intro E. apply N.ltb_lt in E. destruct (N.eqb_spec (tp_n (s_local s) FMultipath) 0); [lia|]. apply vb_is; apply Hn.
    + intro E. apply Z in E. rewrite E. reflexivity.
  - pose proof (L FAddress) as E0. cbn in E0.
    apply (P (0 <? tp_n (s_local s) FAddress) (vb (tp_n (s_local s) FAddress - 1))); [rewrite <- E0; in_table| |apply Z].
    intro E. apply N.ltb_lt in E. exists (tp_n (s_local s) FAddress - 1). split; [apply vb_is; specialize (Hn FAddress); lia|lia].
Qed.

Definition ver_after (g : tcfg) (s : tst) : N :=
  if g_client g && s_do_vn s && negb (g_desired g =? 0) then g_desired g else version_of (s_vi s).

Lemma client_list : forall cur d, In cur supported -> cur < 2 ^ 32 -> d < 2 ^ 32 -> (d = 0 \/ In d supported) ->
  version_list true cur (flat_map be32 (cur :: proposed false cur d)) (if d =? 0 then cur else d).
Proof.
  intros cur d Hc H1 H2 Hd. exists (proposed false cur d), (flat_map be32 (cur :: proposed false cur d)), [].
  split; [rewrite app_nil_r; reflexivity|]. split.
  - split; [reflexivity|]. constructor; [exact H1|]. unfold proposed. apply Forall_app. split; [destruct (_ && _); repeat constructor; exact H2|repeat constructor; exact H1].
  - split; [|left; reflexivity]. left. unfold proposed. destruct (N.eqb_spec d 0) as [E|E]; cbn [negb andb app].
    + exists [], []. split; [reflexivity|]. split; [exact Hc|intros y []].
    + destruct (N.eqb_spec d cur) as [E'|E']; cbn [negb app].
      * exists [], []. split; [rewrite E'; reflexivity|]. split; [rewrite E'; exact Hc|intros y []].
      * exists [], [cur]. split; [reflexivity|]. split; [destruct Hd as [->|Hd]; [contradiction|exact Hd]|intros y []].
Qed.

Lemma table_block : forall ga sa gb sb pv bytes, sendable ga sa -> peer ga sa gb sb ->
  (forall a, tp_pref (s_local sa) = Some a -> is_pref a pv /\ bytes_ok pv) -> params bytes (opts (table ga sa pv)) ->
  block true gb (version_of (s_vi sb)) bytes (opts (table ga sa pv)) (ver_after ga sa).
Proof.
  intros g s gb sb pv bytes H Pe Hp Hpar. pose proof H as H0. destruct H0 as [Hn Hst Hex Hpk Hdl Hw Hcl Hm Hfl Hpr Hc Hse Hi Hd Hf].
  destruct Pe as [Er Ec Ev Ret _ Elim].
  assert (Hb : bytes_ok (g_initial g)) by (apply (Hc (g_initial g)); auto).
  assert (N : NoDup (types (table g s pv))). { rewrite table_types. apply type_list_nodup. exact Hb. }
  rewrite Ev. set (cur := version_of (s_vi s)).
  assert (Hcur : In cur supported) by (apply version_supported; exact Hi). assert (Hc32 : cur < 2 ^ 32) by (apply supported_32; exact Hcur).
  assert (Hd32 : g_desired g < 2 ^ 32) by (destruct Hd as [-> |[K _]]; [reflexivity|apply supported_32; exact K]).
  assert (H17 : In (s_do_vn s, (17, flat_map be32 (cur :: proposed (negb (g_client g)) cur (g_desired g)))) (table g s pv)).
  { destruct (server_datagram_other g s) as [E1 E2]. unfold cur. rewrite <- E1, <- E2. in_table. }
  assert (H15 : In 15 (map fst (opts (table g s pv)))). { apply in_map_iff. exists (15, g_local_cid g). split; [reflexivity|]. apply opts_in. in_table. }
  repeat split.
  - exact Hpar.
  - apply distinct_all. apply opts_nodup. exact N.
  - apply Forall_forall. intros [t v] Hin. apply opts_in in Hin. cbn [fst snd]. unfold table in Hin. apply in_app_or in Hin.
    assert (PL : forall t x, In t plain_types -> x < 2 ^ 62 -> rfc_range t x -> good_param true (g_client gb) cur (g_remote_cid gb) t (vb x)).
    { intros t' x I1 I2 I3. apply (gp_plain _ _ _ _ t' (vb x) x I1); [apply vb_is; exact I2|auto]. }
    assert (RR : forall t x, t <> 8 -> t <> 9 -> t <> 10 -> t <> 14 -> rfc_range t x). { intros t' x A1 A2 A3 A4. repeat split; intro; intuition. }
    pose proof (fun f => server_datagram_local g s f) as L.
    destruct Hin as [Hin|Hin].
    + unfold table_base in Hin. cbn [In] in Hin.
      repeat (destruct Hin as [Hin|Hin]); [..|destruct Hin].
      all: pose proof (f_equal (fun e => fst (snd e)) Hin) as Et; pose proof (f_equal (fun e => snd (snd e)) Hin) as Ee; pose proof (f_equal fst Hin) as Eb; cbn [fst snd] in Et, Ee, Eb; clear Hin; subst t v.
      * apply PL; [cbn; tauto|apply Hn|apply RR; discriminate].
      * apply PL; [cbn; tauto|apply Hn|apply RR; discriminate].
      * apply PL; [cbn; tauto|apply Hn|]. split; [intros _; apply Hst|]. split; discriminate.
      * apply PL; [cbn; tauto|apply Hn|apply RR; discriminate].
      * apply (gp_packet_size _ _ _ _ _ (tp_n (s_local s) FPacketSize)); [apply vb_is; apply Hn|exact Hpk].
      * apply PL; [cbn; tauto|apply Hn|]. split; [intros [E|E]; discriminate|]. split; [intros _; exact Hex|discriminate].
      * apply PL; [cbn; tauto|apply Hn|]. split; [intros _; apply Hst|]. split; discriminate.
      * destruct (tp_pref (s_local s)) as [a|] eqn:E; [|discriminate]. apply (gp_preferred _ _ _ _ _ a). apply Hp. reflexivity.
      * apply gp_flag. left; reflexivity.
      * apply PL; [cbn; tauto|apply Hn|apply RR; discriminate].
      * apply PL; [cbn; tauto|apply Hn|apply RR; discriminate].
      * apply PL; [cbn; tauto|apply Hn|]. split; [intros [E|E]; discriminate|]. split; [discriminate|]. intros _. apply N.ltb_lt in Eb. lia.
      * change ((2 ^ 14 - 1) * 1000) with 16383000 in Hdl. rewrite up_ms by exact Hdl.
        assert ((tp_n (s_local s) FAckDelay + 999) / 1000 < 16384) by (apply N.div_lt_upper_bound; lia).
        apply (gp_ack_delay _ _ _ _ _ ((tp_n (s_local s) FAckDelay + 999) / 1000)); [apply vb_is; change (2 ^ 62) with 4611686018427387904; lia|exact H0].
      * rewrite <- Ec. apply gp_hcid. rewrite Ec. apply (Hc (g_local_cid g)). auto.
      * apply gp_cid; [left; reflexivity|]. destruct (0 <? blen (g_original g)); apply Hc; auto.
      * apply gp_cid; [right; reflexivity|]. apply Hc; auto.
      * apply gp_reset_token; [rewrite Er; exact Eb|apply Hse].
    + unfold table_ext in Hin. rewrite !L in Hin. cbn [In] in Hin. destruct (server_datagram_other g s) as [E1 E2]. rewrite E1, E2 in Hin.
      repeat (destruct Hin as [Hin|Hin]); [..|destruct Hin].
      all: pose proof (f_equal (fun e => fst (snd e)) Hin) as Et; pose proof (f_equal (fun e => snd (snd e)) Hin) as Ee; pose proof (f_equal fst Hin) as Eb; cbn [fst snd] in Et, Ee, Eb; clear Hin; subst t v.
      * apply PL; [cbn; tauto| |apply RR; discriminate]. cbn [expected]. destruct (_ && _ && _); [reflexivity|apply Hn].
      * apply gp_unknown. apply grease_unknown. exact Hb.
      * apply gp_unknown. cbn [In known_types plain_types app]. intro K. repeat (destruct K as [K|K]; [discriminate K|]). exact K.
      * apply (gp_loss_bit _ _ _ _ _ (if 1 <? tp_n (s_local s) FLossBit then 1 else 0)); [apply vb_is; destruct (1 <? _); reflexivity|destruct (1 <? _); lia].
      * apply (gp_min_ack_delay _ _ _ _ _ (tp_n (s_local s) FMinAckDelay)); [apply vb_is; apply Hn|]. apply N.ltb_lt in Eb. split; [lia|apply Hm].
      * apply (gp_time_stamp _ _ _ _ _ (tp_n (s_local s) FTimeStamp)); [apply vb_is; apply Hn|]. apply N.ltb_lt in Eb. split; [lia|apply Hm].
      * apply gp_flag. right; reflexivity.
      * fold cur. destruct (g_client g) eqn:C; cbn [negb] in *.
        -- apply (gp_version_client _ _ _ _ _ (if g_desired g =? 0 then cur else g_desired g)); [exact Er|apply client_list; try assumption|].
           ++ destruct Hd as [Hd|[Hd _]]; [left|right]; exact Hd.
           ++ destruct (N.eqb_spec (g_desired g) 0); [left; reflexivity|]. destruct Hd as [Hd|[_ Hd]]; [contradiction|exact Hd].
        -- apply (gp_version_server _ _ _ _ _ supported); [exact Er|]. split; [reflexivity|]. constructor; [exact Hc32|].
           apply Forall_forall. exact supported_32.
      * apply (gp_bdp _ _ _ _ _ (tp_n (s_local s) FBdp)); [apply vb_is; apply Hn|apply Hm].
      * apply PL; [cbn; tauto|apply Hn|apply RR; discriminate].
      * apply (gp_address _ _ _ _ _ (tp_n (s_local s) FAddress - 1)); [apply vb_is; specialize (Hn FAddress); lia|]. destruct Hm as (_ & _ & _ & _ & Hm). lia.
  - unfold version_after, ver_after. fold cur. destruct (g_client g) eqn:C; cbn [andb negb] in *.
    + destruct (s_do_vn s) eqn:D; cbn [andb].
      * left. exists (flat_map be32 (cur :: proposed false cur (g_desired g))). split; [apply opts_in; exact H17|]. split; [exact Er|].
        pose proof (client_list cur (g_desired g) Hcur Hc32 Hd32) as K. destruct (g_desired g =? 0); cbn [negb]; apply K; tauto.
      * right. split; [|reflexivity]. intros v Hv. exfalso. apply (opts_absent _ _ _ N H17). apply (in_map fst) in Hv. exact Hv.
    + right. split; [intros; exact Er|reflexivity].
  - unfold required. rewrite Er. destruct (g_client g) eqn:C; cbn [negb].
    + assert (A : forall t v, In (false, (t, v)) (table g s pv) -> ~ In t (map fst (opts (table g s pv)))) by (intros t v; apply opts_absent; exact N).
      split; [apply (A 2 (g_secret g (g_local_cid g)))|split; [|split; [|split; [|auto]]]].
      * unfold table, table_base. rewrite C. cbn [negb andb app In]. tauto.
      * apply (A 13 pv). destruct (tp_pref (s_local s)) as [a|] eqn:E; [destruct (Hpr a eq_refl) as [K _]; congruence|]. unfold table, table_base. rewrite E. cbn [app In]. tauto.
      * apply (A 0 (if 0 <? blen (g_original g) then g_original g else g_initial g)). unfold table, table_base. rewrite C. cbn [negb andb app In]. tauto.
      * apply (A 16 (g_initial g)). unfold table, table_base. rewrite C. cbn [negb andb app In]. tauto.
    + cbn [negb] in Er. destruct (Ret Er) as (R1 & R2 & R3). rewrite R1, R2.
      split; [intros _ K; contradiction|]. split; [auto|]. intros _. destruct (list_eq_dec N.eq_dec (g_original g) []) as [E|E].
      * split.
        -- apply opts_in. unfold table, table_base. rewrite C, E, (R3 E). cbn. tauto.
        -- apply (opts_absent (table g s pv) 16 (g_initial g) N). unfold table, table_base. rewrite C, E. cbn. tauto.
      * assert (0 <? blen (g_original g) = true) as E'. { destruct (g_original g); [congruence|]. apply N.ltb_lt. rewrite blen_cons. lia. }
        split; apply opts_in; unfold table, table_base; rewrite C, E'; cbn [negb andb orb app In]; tauto.
Qed.

Lemma narrow_expected : forall g s, sendable g s -> forall f, narrow f (expected g s f).
Proof.
  intros g s H f. destruct f; cbn [narrow]; try exact I.
  - pose proof (sd_delay g s H) as D. change ((2 ^ 14 - 1) * 1000) with 16383000 in D. cbn [expected].
    change (2 ^ 32) with 4294967296. assert ((tp_n (s_local s) FAckDelay + 999) / 1000 <= 16384) by (apply N.div_le_upper_bound; lia). lia.
  - apply (sd_wide g s H).
  - pose proof (sd_exponent g s H). cbn [expected]. change (2 ^ 8) with 256. lia.
  - cbn [expected]. destruct (_ && _ && _); [reflexivity|apply (sd_wide g s H)].
Qed.

Theorem round_trip : forall ga sa gb sb room bytes fuel neg, sendable ga sa -> peer ga sa gb sb -> (0 < fuel)%nat -> prepare ga sa room = Some bytes ->
  exists s n, receive fuel gb sb neg bytes = TDone s n true /\ s_error s = None /\
    (forall f, tp_n (s_remote s) f = expected ga sa f) /\ tp_pref (s_remote s) = tp_pref (s_local sa) /\
    s_reset s = (if g_client ga then s_reset sb else g_secret ga (g_local_cid ga)) /\
    version_of (s_vi s) = (if g_client ga && s_do_vn sa && negb (g_desired ga =? 0) then g_desired ga else version_of (s_vi sa)).
Proof.
  intros g s gb sb room bytes fuel neg H Pe Hf E.
  assert (exists pv, forall a, tp_pref (s_local s) = Some a -> is_pref a pv /\ bytes_ok pv) as (pv & Hp).
  { destruct (tp_pref (s_local s)) as [a|] eqn:Ea; [|exists []; discriminate]. destruct (sd_pref g s H a Ea) as (_ & _ & v & V). exists v. intros a' Ha. injection Ha as <-. exact V. }
  destruct (sends_all g s pv H Hp) as (b & (B1 & _) & B2 & B3 & _). rewrite (B1 _ _ E) in *. clear B1.
  pose proof (table_block g s gb sb pv b H Pe Hp B2) as Bl.
  assert (Hi : index_ok (s_vi sb)) by (rewrite (pe_version _ _ _ _ Pe); apply (sd_index g s H)).
  destruct (strict_accepted fuel gb sb neg b _ _ B3 Hf Hi (pe_error _ _ _ _ Pe) Bl) as (s' & n & R & Er & T).
  exists s', n. split; [exact R|]. split; [exact Er|].
  assert (N : NoDup (types (table g s pv))). { rewrite table_types. apply type_list_nodup. apply (sd_cids g s H (g_initial g)); auto. }
  split; [|split; [|split]].
  - intro f. apply (tk_fields _ _ _ _ _ _ T); [|apply narrow_expected; exact H]. apply says_table; [exact H|].
    intro E0. rewrite (pe_limit _ _ _ _ Pe E0). reflexivity.
  - destruct (tp_pref (s_local s)) as [a|] eqn:Ea.
    + apply (tk_pref _ _ _ _ _ _ T a pv); [|apply Hp; reflexivity]. apply opts_in. unfold table, table_base. rewrite Ea. cbn [app In]. tauto.
    + apply (tk_no_pref _ _ _ _ _ _ T). apply (opts_absent _ 13 pv N). unfold table, table_base. rewrite Ea. cbn [app In]. tauto.
  - destruct (g_client g) eqn:C.
    + apply (tk_no_reset _ _ _ _ _ _ T). apply (opts_absent _ 2 (g_secret g (g_local_cid g)) N). unfold table, table_base. rewrite C. cbn [app In negb]. tauto.
    + apply (tk_reset _ _ _ _ _ _ T). apply opts_in. unfold table, table_base. rewrite C. cbn [app In negb]. tauto.
  - exact (tk_version _ _ _ _ _ _ T).
Qed.

Theorem fits : forall g s room, sendable g s -> 1764 <= room -> exists bytes, prepare g s room = Some bytes /\ blen bytes <= 1763.
Proof.
  intros g s room H Hr.
  assert (exists pv, forall a, tp_pref (s_local s) = Some a -> is_pref a pv /\ bytes_ok pv) as (pv & Hp).
  { destruct (tp_pref (s_local s)) as [a|] eqn:Ea; [|exists []; discriminate]. destruct (sd_pref g s H a Ea) as (_ & _ & v & V). exists v. intros a' Ha. injection Ha as <-. exact V. }
  destruct (sends_all g s pv H Hp) as (b & (_ & B1) & _ & _ & B4). exists b. split; [apply B1; lia|exact B4].
Qed.

(** ** Agreement *)

Lemma negotiated : forall fuel g s neg bytes s' n, bytes_ok bytes -> (0 < fuel)%nat -> index_ok (s_vi s) -> s_error s = None ->
  receive fuel g s neg bytes = TDone s' n true -> s_error s' = None ->
  index_ok (s_vi s') /\ exists d, s_local d = s_local s /\ s_remote d = s_remote s' /\ (s', n) = rx_negotiate g neg d (rx_idle d) true.
Proof.
  intros fuel g s neg bytes s' n Hb Hf Hi He R E'.
  destruct (receive_cases fuel g s neg bytes Hb Hf Hi He) as [(ps & r & B & S & R' & E)|[Hno X]].
  2: { rewrite R in X. destruct X as [X|[X _]]; [contradiction|discriminate]. }
  rewrite R in R'. assert (s' = fst (result g s neg r)) as -> by exact (f_equal (fun x => match x with TDone a _ _ => a | THang => s' end) R').
  assert (n = snd (result g s neg r)) as -> by exact (f_equal (fun x => match x with TDone _ a _ => a | THang => n end) R'). clear R'. split.
  - destruct (result_other g s neg r) as (_ & _ & R3 & _). rewrite R3. exact (proj1 (steps_version _ _ _ _ S Hi)).
  - exists (rx_defaults g r true).
    assert (L : s_local (rx_defaults g r true) = s_local (r_s r)). { unfold rx_defaults. cbv zeta. destruct (_ && _); destruct (_ && _); reflexivity. }
    assert (I : rx_idle (rx_defaults g r true) = rx_idle (r_s r)). { unfold rx_idle. rewrite L. pose proof (result_remote g s neg r FIdle) as X. cbv iota in X. change (s_remote (fst (result g s neg r))) with (s_remote (rx_defaults g r true)) in X. rewrite X. reflexivity. }
    split; [rewrite L; exact (steps_local _ _ _ _ S)|]. split; [reflexivity|]. rewrite I. symmetry. apply surjective_pairing.
Qed.

Lemma idle_comm : forall a b, idle_of a b = idle_of b a.
Proof.
  intros a b. unfold idle_of. rewrite (Bool.andb_comm (a =? 0)). destruct ((b =? 0) && (a =? 0)) eqn:E; [reflexivity|]. f_equal.
  destruct (N.eqb_spec a 0), (N.eqb_spec b 0); subst; try reflexivity. apply N.min_comm.
Qed.

Theorem agree : forall gc sc gs ss fuel negc negs room1 room2 b1 b2 ss1 ns sc1 sc2 nc,
  g_client gc = true -> sendable gc sc -> peer gc sc gs ss -> prepare gc sc room1 = Some b1 -> (0 < fuel)%nat -> n_ts_on negs = false -> n_ts_sent negs = false ->
  receive fuel gs ss negs b1 = TDone ss1 ns true ->
  sendable gs ss1 -> peer gs ss1 gc sc1 -> s_local sc1 = s_local sc -> prepare gs ss1 room2 = Some b2 -> receive fuel gc sc1 negc b2 = TDone sc2 nc true ->
  tp_n (s_local sc) FIdle < 2 ^ 54 -> tp_n (s_local ss) FIdle < 2 ^ 54 ->
  agreement nc ns.
Proof.
  intros gc sc gs ss fuel negc negs room1 room2 b1 b2 ss1 ns sc1 sc2 nc Cl Sc Pc W1 Hf T1 T2 R1 Ss Ps Lc W2 R2 I1 I2.
  assert (BS : forall g s room b, sendable g s -> prepare g s room = Some b -> bytes_ok b).
  { intros g s room b H E.
    assert (exists pv, forall a, tp_pref (s_local s) = Some a -> is_pref a pv /\ bytes_ok pv) as (pv & Hp).
    { destruct (tp_pref (s_local s)) as [a|] eqn:Ea; [|exists []; discriminate]. destruct (sd_pref g s H a Ea) as (_ & _ & v & V). exists v. intros a' Ha. injection Ha as <-. exact V. }
    destruct (sends_all g s pv H Hp) as (b' & (B1 & _) & _ & B3 & _). rewrite (B1 _ _ E). exact B3. }
  destruct (round_trip gc sc gs ss room1 b1 fuel negs Sc Pc Hf W1) as (x & y & X1 & X2 & X3 & _). rewrite R1 in X1. injection X1 as <- <-.
  destruct (round_trip gs ss1 gc sc1 room2 b2 fuel negc Ss Ps Hf W2) as (x & y & Y1 & Y2 & Y3 & _). rewrite R2 in Y1. injection Y1 as <- <-.
  assert (Is : index_ok (s_vi ss)) by (rewrite (pe_version _ _ _ _ Pc); apply (sd_index _ _ Sc)).
  assert (Ic : index_ok (s_vi sc1)) by (rewrite (pe_version _ _ _ _ Ps); apply (sd_index _ _ Ss)).
  destruct (negotiated fuel gs ss negs b1 ss1 ns (BS _ _ _ _ Sc W1) Hf Is (pe_error _ _ _ _ Pc) R1 X2) as (_ & d & D1 & D2 & D3).
  destruct (negotiated fuel gc sc1 negc b2 sc2 nc (BS _ _ _ _ Ss W2) Hf Ic (pe_error _ _ _ _ Ps) R2 Y2) as (_ & e & E1 & E2 & E3).
  assert (Cs : g_client gs = false) by (rewrite (pe_role _ _ _ _ Pc), Cl; reflexivity).
  rewrite Lc in E1.
  assert (L1 : forall f, tp_n (s_remote d) f = expected gc sc f) by (intro f; rewrite D2; apply X3).
  assert (L2 : forall f, tp_n (s_remote e) f = expected gs ss1 f) by (intro f; rewrite E2; apply Y3).
  set (l := tp_n (s_local sc)) in *. set (m := tp_n (s_local ss)) in *.
  assert (M : forall f, tp_n (s_local ss1) f = match f with
    | FMultipath => if negb (l FMultipath =? 0) && negb (m FMultipath =? 0) then m FMultipath else 0
    | FTimeStamp => if l FTimeStamp =? 0 then m FTimeStamp else N.lor (if negb (N.land (l FTimeStamp) 1 =? 0) then 2 else 0) (if negb (N.land (l FTimeStamp) 2 =? 0) then 1 else 0)
    | FGrease => if negb (l FGrease =? 0) && negb (g_one_way gs) then 1 else 0
    | FMinAckDelay => if negb (s_af d) then 0 else m FMinAckDelay
    | _ => m f end).
  { intro f. apply (f_equal fst) in D3. cbn [fst] in D3. rewrite D3. unfold rx_negotiate. cbv zeta. cbn [fst with_local s_local]. rewrite !L1, Cs, D1. cbn [expected negb andb].
    fold l. fold m.
    destruct (negb (l FMultipath =? 0) && negb (m FMultipath =? 0)); destruct (N.eqb_spec (l FTimeStamp) 0); cbn [negb]; destruct (s_af d); cbn [negb];
      destruct f; cbn [tp_set tp_n tpf_eqb]; try rewrite D1; reflexivity. }
  assert (DN : ns = snd (rx_negotiate gs negs d (rx_idle d) true)) by (rewrite <- D3; reflexivity).
  assert (EN : nc = snd (rx_negotiate gc negc e (rx_idle e) true)) by (rewrite <- E3; reflexivity).
  assert (Id : rx_idle d = idle_of (m FIdle) (l FIdle)).
  { rewrite rx_idle_eq; rewrite ?L1, ?D1; cbn [expected]; fold l; fold m; try assumption. reflexivity. }
  assert (Ie : rx_idle e = idle_of (l FIdle) (m FIdle)).
  { rewrite rx_idle_eq; rewrite ?L2, ?E1; cbn [expected]; rewrite ?M; fold l; fold m; try assumption. reflexivity. }
  unfold rx_negotiate in DN, EN. cbv zeta in DN, EN. cbn [snd] in DN, EN.
  rewrite !L1, Cs, D1, Id in DN. rewrite !L2, Cl, E1, Ie in EN. cbn [expected negb andb] in DN, EN. rewrite !M in EN. fold l in DN, EN. fold m in DN, EN. rewrite T1, T2 in DN.
  subst ns nc. clear D3 E3 R1 R2.
  set (lm := l FMultipath) in *. set (mm := m FMultipath) in *.
  split; cbn [n_multi n_mp_local n_mp_remote n_idle n_loss_out n_loss_in n_bdp n_ts_on n_ts_sent].
  - destruct (N.eqb_spec lm 0), (N.eqb_spec mm 0); cbn [negb andb]; try reflexivity. rewrite (proj2 (N.eqb_neq mm 0)) by assumption. reflexivity.
  - destruct (N.eqb_spec lm 0), (N.eqb_spec mm 0); cbn [negb andb N.eqb]; try discriminate. rewrite (proj2 (N.eqb_neq mm 0)) by assumption. cbn [negb andb]. intros _. split; reflexivity.
  - apply idle_comm.
  - apply Bool.andb_comm.
  - apply Bool.andb_comm.
  - apply Bool.andb_comm.
  - cbn [orb]. pose proof (proj1 (proj2 (sd_modes _ _ Sc))) as H3. fold l in H3. assert (V : l FTimeStamp = 0 \/ l FTimeStamp = 1 \/ l FTimeStamp = 2 \/ l FTimeStamp = 3) by lia.
    destruct V as [-> |[-> |[-> | ->]]]; reflexivity.
  - cbn [orb]. pose proof (proj1 (proj2 (sd_modes _ _ Sc))) as H3. fold l in H3. assert (V : l FTimeStamp = 0 \/ l FTimeStamp = 1 \/ l FTimeStamp = 2 \/ l FTimeStamp = 3) by lia.
    destruct V as [-> |[-> |[-> | ->]]]; reflexivity.
Qed.
