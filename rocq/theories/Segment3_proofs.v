(** Proofs about datagrams of unknown connections: conditions of creation, resets. *)
From Verif Require Import Base Tac Varint_model Varint_spec Varint_proofs Mem Mem_proofs
  PacketNumber_model PacketNumber_proofs Header_model Header_spec Header_proofs Header2_proofs Header3_proofs
  Protect_model Protect_spec Protect_proofs Protect2_proofs Protect3_proofs
  Rtoken_model Rtoken_spec Rtoken_proofs Rtoken2_proofs Ports_model Segment_model Segment_spec Segment_proofs Segment2_proofs.

(** The invariant of the walk over [bytes] from the state [st0]. *)
Definition winv (st0 : sstate) (bytes : list N) (st : sstate) (raw prev : list N) (before : list action) : Prop :=
  (exists pre, bytes = pre ++ raw) /\ extends st0 st before /\ st_next_reset st = st_next_reset st0 /\
  (forall a, In a before -> match a with AVersion _ | ARetry _ | AReset _ => False | _ => True end).

Lemma created_app : forall a b, created (a ++ b) = created a + created b.
Proof. intros. unfold created. rewrite filter_app, app_length. lia. Qed.

Lemma created_ids_app : forall a b, created_ids (a ++ b) = created_ids a ++ created_ids b.
Proof. intros. unfold created_ids. apply flat_map_app. Qed.

Lemma extends_trans : forall s0 s1 s2 a b, extends s0 s1 a -> extends s1 s2 b -> extends s0 s2 (a ++ b).
Proof.
  intros s0 s1 s2 a b (A1 & A2 & A3 & A4 & A5 & A6) (B1 & B2 & B3 & B4 & B5 & B6). unfold extends. rewrite created_app, created_ids_app.
  repeat match goal with |- _ /\ _ => split end; try lia; try congruence; auto.
  intros d Hd. destruct (B5 d Hd) as [H1 H2]. destruct (A5 d H1) as [H3 H4]. split; [exact H3|]. rewrite in_app_iff. tauto.
Qed.

Lemma extends_nil : forall st, extends st st [].
Proof. intro. apply extends_same; reflexivity. Qed.

Lemma skipn_suffix : forall n (bytes raw : list N), (exists pre, bytes = pre ++ raw) -> exists pre, bytes = pre ++ skipn n raw.
Proof. intros n bytes raw [pre ->]. exists (pre ++ firstn n raw). rewrite <- app_assoc, firstn_skipn. reflexivity. Qed.

Lemma winv_step : forall cf known pe now plen st0 bytes st rn raw prev before st1 acts prev1 consumed,
  winv st0 bytes st raw prev before ->
  incoming_segment cf known st rn pe now raw plen prev = Some (st1, acts, prev1, Some consumed) ->
  winv st0 bytes st1 (skipn (N.to_nat consumed) raw) prev1 (before ++ acts).
Proof.
  intros cf known pe now plen st0 bytes st rn raw prev before st1 acts prev1 consumed (H1 & H2 & H3 & H4) E.
  pose proof (one_action _ _ _ _ _ _ _ _ _ _ _ _ _ E) as Hone.
  destruct (segment_cases _ _ _ _ _ _ _ _ _ _ _ _ _ E) as (E1 & E2 & _ & E3).
  split; [apply skipn_suffix, H1|]. split; [eapply extends_trans; eassumption|].
  split. { destruct E2 as [E2|[E2 _]]; [congruence|discriminate]. }
  intros a Ha. apply in_app_iff in Ha. destruct Ha as [Ha|Ha]; [apply H4, Ha|].
  destruct Hone as [-> |[x ->]]; [destruct Ha|]. destruct Ha as [<-|[]].
  destruct x; try exact I.
  - destruct E3 as (_ & _ & _ & F & _). discriminate.
  - destruct E3 as (_ & _ & F & _). discriminate.
  - destruct E3 as (_ & F & _). discriminate.
Qed.

Lemma winv_start : forall st bytes, winv st bytes st bytes [] [].
Proof. intros. split; [exists []; reflexivity|]. split; [apply extends_nil|]. split; [reflexivity|]. intros a []. Qed.

Lemma packet_action : forall cf known st rns pe now bytes st' a1 a a2,
  incoming_packet cf known st rns pe now bytes = Some (st', a1 ++ a :: a2) ->
  exists sti rawi previ i st1 prev1 next, winv st bytes sti rawi previ a1 /\
    incoming_segment cf known sti (rns i) pe now rawi (blen bytes) previ = Some (st1, [a], prev1, next) /\
    (next = None -> a2 = [] /\ st' = st1).
Proof.
  intros cf known st rns pe now bytes st' a1 a a2 H. unfold incoming_packet in H.
  exact (walk cf known rns pe now (blen bytes) (winv st bytes)
    (fun st' rn raw prev before st1 acts prev1 c HP E => winv_step cf known pe now (blen bytes) st bytes st' rn raw prev before st1 acts prev1 c HP E)
    (length bytes) st bytes [] [] st' _ (winv_start st bytes) H a1 a a2 eq_refl).
Qed.

(** * Creation *)

Lemma create_inv : forall cf known st rns pe now bytes st' a1 dcid v od a2,
  bytes_ok bytes -> blen bytes <= 1536 ->
  incoming_packet cf known st rns pe now bytes = Some (st', a1 ++ ACreate dcid v od :: a2) ->
  1200 <= blen bytes /\ 8 <= blen dcid <= 20 /\ sf_client_only cf = false /\ sf_busy cf = false /\
  st_conns st + created a1 < sf_max_conns cf /\
  find_long (st_lk st) PtInitial dcid = None /\ ~ In dcid (created_ids a1) /\
  exists pre seg vi vn scid token head plen pn, bytes = pre ++ seg /\ initial_at seg vi vn dcid scid token head plen /\
    authentic (fst (sf_keys cf vi dcid)) seg head plen pn /\
    validation cf pe now (st_half st + created a1) dcid token pn v od.
Proof.
  intros cf known st rns pe now bytes st' a1 dcid v od a2 Hb Hl H.
  destruct (packet_action _ _ _ _ _ _ _ _ _ _ _ H) as (sti & seg & previ & i & st1 & prev1 & next & Hw & E & _).
  destruct (segment_cases _ _ _ _ _ _ _ _ _ _ _ _ _ E) as (_ & _ & _ & ph & Ep & Et & -> & Es). clear E.
  destruct Hw as ((pre & Epre) & (X1 & X2 & X3 & X4 & X5 & _) & _ & _).
  destruct (screen_inv _ _ _ _ _ _ _ _ _ Es) as (_ & H1200 & H8 & Hco & Hbu & Hmax & _ & pn & Ho & Hval).
  assert (Hbs : bytes_ok seg) by (rewrite Epre in Hb; apply bytes_ok_app in Hb; apply Hb).
  assert (Hls : blen seg <= 1536) by (rewrite Epre, blen_app in Hl; lia).
  destruct (initial_inv _ _ _ Hbs Ep Et) as (vi & head & plen & Hvi & Hin & Hoff & Hpo & Hpl & Hf & Hd & Hs).
  destruct (X5 _ Hf) as [Hf0 Hids].
  assert (Hu : u16 plen = plen).
  { destruct Hin as (v2 & q & low & rest & after & _ & _ & _ & _ & Er & Ha). unfold u16. apply N.mod_small. rewrite Er, blen_app in Hls. lia. }
  rewrite Hu in Hpl.
  destruct (open_authentic cf seg ph vi head plen Hin Hvi Hoff Hpo Hpl Hls) as (o & Eo & Hauth).
  rewrite Ho in Eo. apply some_inj in Eo.
  split; [exact H1200|]. split; [split; assumption|]. split; [exact Hco|]. split; [exact Hbu|]. split; [lia|].
  split; [exact Hf0|]. split; [exact Hids|].
  exists pre, seg, vi, (ph_vn ph), (ph_scid ph), (ph_token ph), head, plen, pn.
  split; [exact Epre|]. split; [exact Hin|]. split; [apply Hauth; congruence|]. rewrite <- X2. exact Hval.
Qed.

(** The state at the end of a datagram. *)
Lemma packet_extends : forall cf known st rns pe now bytes st' acts,
  incoming_packet cf known st rns pe now bytes = Some (st', acts) -> extends st st' acts.
Proof.
  intros cf known st rns pe now bytes st' acts. unfold incoming_packet.
  generalize (length bytes) as fuel. generalize (blen bytes) as plen. generalize (@nil N) as prev. intros prev plen fuel.
  revert st bytes prev st' acts. induction fuel as [|f IH]; intros st bytes prev st' acts H; cbn [incoming_segments] in H;
    (destruct bytes as [|b0 bs] eqn:Eb; [apply some_pair_inj in H; destruct H as [<- <-]; apply extends_nil|]); [discriminate|].
  rewrite <- Eb in *. clear Eb.
  destruct (incoming_segment cf known st (rns f) pe now bytes plen prev) as [[[[st1 as1] prev1] next]|] eqn:E; [|discriminate].
  cbn [obind] in H. destruct (segment_cases _ _ _ _ _ _ _ _ _ _ _ _ _ E) as (E1 & _).
  destruct next as [c|]; [|apply some_pair_inj in H; destruct H as [<- <-]; exact E1].
  destruct (c =? 0); [apply some_pair_inj in H; destruct H as [<- <-]; exact E1|].
  destruct (incoming_segments f cf known st1 rns pe now (skipn (N.to_nat c) bytes) plen prev1) as [[st2 as2]|] eqn:E2; [|discriminate].
  cbn [obind] in H. apply some_pair_inj in H. destruct H as [<- <-]. eapply extends_trans; [exact E1|]. apply (IH _ _ _ _ _ E2).
Qed.

Lemma create_count : forall cf known st rns pe now bytes st' acts,
  incoming_packet cf known st rns pe now bytes = Some (st', acts) ->
  st_conns st' = st_conns st + created acts /\
  (st_conns st <= sf_max_conns cf -> st_conns st' <= sf_max_conns cf).
Proof.
  intros cf known st rns pe now bytes st' acts H. destruct (packet_extends _ _ _ _ _ _ _ _ _ H) as (E & _).
  split; [exact E|]. intro Hm. rewrite E.
  destruct (N.eq_dec (created acts) 0) as [Hz|Hz]; [lia|].
  (* the last creation *)
  assert (Hlast : exists a1 d v od a2, acts = a1 ++ ACreate d v od :: a2 /\ created a2 = 0).
  { clear - Hz. induction acts as [|a acts IH] using rev_ind; [destruct (Hz eq_refl)|].
    destruct a as [d v od|b|b|b|b].
    1: exists acts, d, v, od, []; split; reflexivity.
    all: rewrite created_app in Hz; change (created [_]) with 0 in Hz; rewrite N.add_0_r in Hz;
      destruct (IH Hz) as (a1 & d & v & od & a2 & -> & H2); eexists a1, d, v, od, (a2 ++ _);
      rewrite <- app_assoc; (split; [reflexivity|rewrite created_app, H2; reflexivity]). }
  destruct Hlast as (a1 & d & v & od & a2 & -> & H2). rewrite created_app.
  destruct (packet_action _ _ _ _ _ _ _ _ _ _ _ H) as (sti & seg & previ & i & st1 & prev1 & next & Hw & E' & _).
  destruct (segment_cases _ _ _ _ _ _ _ _ _ _ _ _ _ E') as (_ & _ & _ & ph & _ & _ & _ & Es).
  destruct Hw as (_ & (X1 & _) & _ & _).
  destruct (screen_inv _ _ _ _ _ _ _ _ _ Es) as (_ & _ & _ & _ & _ & Hmax & _).
  change (ACreate d v od :: a2) with ([ACreate d v od] ++ a2). rewrite created_app, H2. change (created [_]) with 1. lia.
Qed.

(** * Resets *)

Lemma random_bytes_length : forall rn n, blen (random_bytes rn n) = n.
Proof. intros. unfold random_bytes, blen. rewrite map_length, seq_length. lia. Qed.

Lemma first_reset_byte : forall x, 64 <= N.lor 64 (N.land x 63) < 128.
Proof.
  intro x. change 63 with (N.ones 6). rewrite N.land_ones. assert (H : x mod 2 ^ 6 < 64) by (apply N.mod_lt; discriminate).
  assert (A : forallb (fun y => (64 <=? N.lor 64 y) && (N.lor 64 y <? 128)) (map N.of_nat (seq 0 64)) = true) by (vm_compute; reflexivity).
  rewrite forallb_forall in A. specialize (A (x mod 2 ^ 6)). apply andb_prop in A.
  - destruct A as [A B]. apply N.leb_le in A. apply N.ltb_lt in B. split; assumption.
  - apply in_map_iff. exists (N.to_nat (x mod 2 ^ 6)). split; [apply N2Nat.id|]. apply in_seq. lia.
Qed.

Lemma reset_inv : forall cf known st rns pe now bytes st' a1 b a2,
  (forall d, blen (sf_secret cf d) = 16) ->
  incoming_packet cf known st rns pe now bytes = Some (st', a1 ++ AReset b :: a2) ->
  a2 = [] /\ addr_refused cf pe = false /\ st_next_reset st <= now /\ st_next_reset st' = u64 (now + sf_interval cf) /\
  39 <= blen b < blen bytes /\ blen b <= 1536 /\
  exists pre b0 dcid tail first random, bytes = pre ++ b0 :: dcid ++ tail /\ N.land b0 128 <> 128 /\
    0 < blen dcid /\ blen dcid = lk_cid_len (st_lk st) /\ lk_by_id (st_lk st) dcid = None /\
    blen b < blen (b0 :: dcid ++ tail) /\
    b = first :: random ++ sf_secret cf dcid /\ 64 <= first < 128.
Proof.
  intros cf known st rns pe now bytes st' a1 b a2 Hsec H.
  destruct (packet_action _ _ _ _ _ _ _ _ _ _ _ H) as (sti & seg & previ & i & st1 & prev1 & next & Hw & E & Hend).
  destruct (segment_cases _ _ _ _ _ _ _ _ _ _ _ _ _ E) as (_ & _ & _ & Href & Hnext & ph & Ep & Et & _ & H0 & Eu). clear E.
  destruct (Hend Hnext) as [-> ->]. clear Hend.
  destruct Hw as ((pre & Epre) & (X1 & X2 & X3 & X4 & X5 & _) & Xr & _).
  unfold process_unexpected in Eu.
  destruct ((39 <? blen seg) && ptype_eqb (ph_type ph) Pt1rtt && (st_next_reset sti <=? now)) eqn:Hc.
  2: { apply some_pair_inj in Eu. destruct Eu as [_ Eu]. discriminate. }
  apply Bool.andb_true_iff in Hc. destruct Hc as [Hc Hn]. apply Bool.andb_true_iff in Hc. destruct Hc as [Hl _].
  apply N.ltb_lt in Hl. apply N.leb_le in Hn. cbv zeta in Eu.
  set (pad0 := blen seg - 16 - 2) in *. set (pad := if 22 <? pad0 then pad0 - rn_pad (rns i) mod (pad0 - 22) else pad0) in *.
  assert (Hpad : 22 <= pad <= pad0).
  { unfold pad. destruct (N.ltb_spec 22 pad0) as [Hp|Hp]; [|unfold pad0 in *; lia].
    assert (rn_pad (rns i) mod (pad0 - 22) < pad0 - 22) by (apply N.mod_lt; lia). lia. }
  set (bb := N.lor 64 (N.land (rn_byte (rns i) 0) 63) :: random_bytes (rns i) pad ++ sf_secret cf (ph_dcid ph)) in *.
  assert (Lb : blen bb = 17 + pad).
  { unfold bb. rewrite blen_cons, blen_app, random_bytes_length, Hsec. lia. }
  destruct (N.ltb_spec 1536 (blen bb)) as [_|H1536]; [discriminate|].
  apply some_pair_inj in Eu. destruct Eu as [<- Eu]. injection Eu as Eb. subst b.
  change (match blen seg with 0 => 0 | N.pos _ => blen seg end) with (blen seg) in *.
  destruct (short_inv _ _ _ Ep Et) as (b0 & bs & Eseg & H128 & [Hd|(_ & Hd & Hid & tail & Ebs)]); [rewrite Hd, blen_nil in H0; lia|].
  assert (Lp : blen bytes = blen pre + blen seg) by (rewrite Epre, blen_app; reflexivity).
  split; [reflexivity|]. split; [exact Href|]. split; [congruence|]. split; [reflexivity|].
  fold bb. unfold pad0 in Hpad.
  split; [lia|]. split; [lia|].
  exists pre, b0, (ph_dcid ph), tail, (N.lor 64 (N.land (rn_byte (rns i) 0) 63)), (random_bytes (rns i) pad).
  rewrite <- Ebs, <- Eseg. repeat match goal with |- _ /\ _ => split end; auto; try congruence; try lia; apply first_reset_byte.
Qed.

Lemma history_resets : forall cf, (forall d, blen (sf_secret cf d) = 16) ->
  forall l next log, history cf next l = Some log ->
  (forall a, In a l -> ar_now a + sf_interval cf < two64) ->
  spaced (sf_interval cf) (reset_times log) /\ (forall t r, reset_times log = t :: r -> next <= t).
Proof.
  intros cf Hsec. induction l as [|a l IH]; intros next log H Hclk; cbn [history] in H.
  - apply some_inj in H. subst log. split; [exact I|]. discriminate.
  - destruct (incoming_packet _ _ _ _ _ _ _) as [[st acts]|] eqn:E; [|discriminate].
    destruct (history cf (st_next_reset st) l) as [log1|] eqn:E1; [|discriminate]. apply some_inj in H. subst log.
    destruct (IH _ _ E1 ltac:(intros x Hx; apply Hclk; right; exact Hx)) as [IH1 IH2].
    assert (Hr : forall t acts, reset_times (map (pair t) acts ++ log1) = flat_map (fun x => match x with AReset _ => [t] | _ => [] end) acts ++ reset_times log1).
    { intros t ac. unfold reset_times. rewrite flat_map_app. f_equal. induction ac as [|x ac IHa]; [reflexivity|].
      cbn [map flat_map snd fst]. rewrite IHa. destruct x; reflexivity. }
    rewrite Hr.
    assert (Hcase : (flat_map (fun x => match x with AReset _ => [ar_now a] | _ => [] end) acts = [] /\ st_next_reset st = next) \/
      (flat_map (fun x => match x with AReset _ => [ar_now a] | _ => [] end) acts = [ar_now a] /\ next <= ar_now a /\
       st_next_reset st = u64 (ar_now a + sf_interval cf))).
    { destruct (List.Exists_dec (fun x => match x with AReset _ => True | _ => False end) acts) as [Hex|Hno].
      { intros []; auto. }
      - right. apply Exists_exists in Hex. destruct Hex as (x & Hin & Hx). destruct x; try destruct Hx.
        apply in_split in Hin. destruct Hin as (a1 & a2 & ->).
        destruct (packet_action _ _ _ _ _ _ _ _ _ _ _ E) as (sti & seg & previ & i & st1 & prev1 & nx & Hw & _ & _).
        destruct (reset_inv _ _ _ _ _ _ _ _ _ _ _ Hsec E) as (-> & _ & Hn & Hn' & _). cbn [st_next_reset] in Hn.
        split; [|split; [exact Hn|exact Hn']].
        destruct Hw as (_ & _ & _ & Hb). clear - Hb. induction a1 as [|y a1 IHa]; [reflexivity|].
        cbn [flat_map app]. rewrite IHa by (intros z Hz; apply Hb; right; exact Hz).
        specialize (Hb y (or_introl eq_refl)). destruct y; try reflexivity; destruct Hb.
      - left. split.
        { clear - Hno. induction acts as [|x acts IHa]; [reflexivity|]. cbn [flat_map]. rewrite IHa by (intro; apply Hno; right; assumption).
          destruct x; try reflexivity. exfalso. apply Hno. left. exact I. }
        (* the state is unchanged when there is no reset *)
        clear - E Hno. unfold incoming_packet in E. revert E.
        change next with (st_next_reset (mk_sstate (ar_lk a) (ar_conns a) (ar_half a) (ar_reg a) next)) at 2.
        generalize (mk_sstate (ar_lk a) (ar_conns a) (ar_half a) (ar_reg a) next) as s0.
        generalize (length (ar_bytes a)) as fuel. generalize (blen (ar_bytes a)) as plen. generalize (ar_bytes a) as bytes. generalize (@nil N) as prev.
        intros prev bytes plen fuel. revert bytes prev st acts Hno. induction fuel as [|f IHf]; intros bytes prev st acts Hno s0 H; cbn [incoming_segments] in H;
          (destruct bytes as [|b0 bs] eqn:Eb; [apply some_pair_inj in H; destruct H as [<- _]; reflexivity|]); [discriminate|].
        rewrite <- Eb in *. clear Eb.
        destruct (incoming_segment cf (ar_known a) s0 (ar_rns a f) (ar_peer a) (ar_now a) bytes plen prev) as [[[[st1 as1] prev1] nx]|] eqn:E; [|discriminate].
        cbn [obind] in H. destruct (segment_cases _ _ _ _ _ _ _ _ _ _ _ _ _ E) as (_ & E2 & _).
        assert (Hst : st_next_reset st1 = st_next_reset s0 \/ exists b, as1 = [AReset b]) by (destruct E2 as [E2|[_ E2]]; auto).
        destruct nx as [c|].
        2: { apply some_pair_inj in H. destruct H as [<- <-]. destruct Hst as [Hst|[b ->]]; [exact Hst|]. exfalso. apply Hno. left. exact I. }
        destruct (c =? 0).
        { apply some_pair_inj in H. destruct H as [<- <-]. destruct Hst as [Hst|[b ->]]; [exact Hst|]. exfalso. apply Hno. left. exact I. }
        destruct (incoming_segments f cf (ar_known a) st1 (ar_rns a) (ar_peer a) (ar_now a) (skipn (N.to_nat c) bytes) plen prev1) as [[st2 as2]|] eqn:Ex; [|discriminate].
        cbn [obind] in H. apply some_pair_inj in H. destruct H as [<- <-].
        rewrite (IHf _ _ _ _ ltac:(intro Hy; apply Hno; apply Exists_app; right; exact Hy) _ Ex).
        destruct Hst as [Hst|[b ->]]; [exact Hst|]. exfalso. apply Hno. left. exact I. }
    destruct Hcase as [[-> Hnx]|(-> & Hn & Hnx)].
    + cbn [app]. split; [exact IH1|]. rewrite <- Hnx. exact IH2.
    + cbn [app]. assert (Hu : st_next_reset st = ar_now a + sf_interval cf).
      { rewrite Hnx. unfold u64. apply N.mod_small. apply Hclk. left. reflexivity. }
      split.
      * destruct (reset_times log1) as [|t r] eqn:Er; [exact I|]. split; [|exact IH1]. rewrite <- Hu. apply (IH2 t r eq_refl).
      * intros t r Et. injection Et as <- _. exact Hn.
Qed.
