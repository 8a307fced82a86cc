(** Proofs about version negotiation and Retry: from the server to the client. *)
From Verif Require Import Base Tac Varint_model Varint_spec Varint_proofs Mem Mem_proofs
  PacketNumber_model PacketNumber_proofs Header_model Header_spec Header_proofs Header2_proofs Header3_proofs
  Protect_model Protect_spec Protect_proofs Protect2_proofs Protect3_proofs
  Rtoken_model Rtoken_spec Rtoken_proofs Rtoken2_proofs Ports_model Segment_model Segment_spec Segment_proofs Segment2_proofs Segment3_proofs
  Segment4_proofs Segment5_proofs Segment6_proofs Cneg_model Cneg_spec Cneg_proofs.

Lemma reserved_drawn : forall d, reserved_version (N.lor (N.land d 4042322160) 168430090).
Proof.
  intro d. split.
  - rewrite N.land_lor_distr_l, <- N.land_assoc. change (N.land 4042322160 252645135) with 0. rewrite N.land_0_r. reflexivity.
  - destruct (N.lt_ge_cases (N.lor (N.land d 4042322160) 168430090) 4294967296) as [H|H]; [exact H|exfalso].
    assert (Hl : N.log2 (N.lor (N.land d 4042322160) 168430090) < 32).
    { rewrite N.log2_lor. apply N.max_lub_lt; [|reflexivity].
      eapply N.le_lt_trans; [apply N.log2_land|]. apply (N.min_lt_iff). right. reflexivity. }
    assert (32 <= N.log2 (N.lor (N.land d 4042322160) 168430090)); [|lia].
    apply N.log2_le_pow2; [lia|]. change (2 ^ 32) with 4294967296. exact H.
Qed.

Lemma reserved_unsupported : forall v, reserved_version v -> ~ supported v.
Proof.
  intros v [H _] Hs. unfold supported, supported_versions in Hs. cbn [map fst In] in Hs.
  repeat (destruct Hs as [<-|Hs]; [vm_compute in H; discriminate|]). destruct Hs.
Qed.

Lemma versions_flat : forall g, g < 4294967296 ->
  flat_map (fun e : N * bool => format_32 (fst e)) supported_versions ++ format_32 g = flat_map be32 (map fst supported_versions ++ [g]).
Proof.
  intros g Hg. rewrite flat_map_app. cbn [flat_map]. rewrite app_nil_r, (format_be32 g Hg). f_equal.
Qed.

(** The answer of the server to an unknown version. *)
Lemma server_vn : forall cf known st rns pe now bytes st' a1 b a2, bytes_ok bytes ->
  incoming_packet cf known st rns pe now bytes = Some (st', a1 ++ AVersion b :: a2) ->
  exists pre b0 vn dcid scid tail first g,
    bytes = pre ++ b0 :: be32 vn ++ (blen dcid :: dcid) ++ (blen scid :: scid) ++ tail /\
    128 <= b0 < 256 /\ vn < 4294967296 /\ vn <> 0 /\ ~ supported vn /\ 128 <= first < 256 /\
    b = vn_packet first scid dcid (map fst supported_versions ++ [g]) /\ reserved_version g /\ g <> vn.
Proof.
  intros cf known st rns pe now bytes st' a1 b a2 Hb H.
  destruct (packet_action _ _ _ _ _ _ _ _ _ _ _ H) as (sti & seg & previ & i & st1 & prev1 & next & Hw & E & Hend).
  destruct (segment_cases _ _ _ _ _ _ _ _ _ _ _ _ _ E) as (_ & _ & _ & Hc). clear E.
  destruct Hc as (H1 & H2 & _ & H3 & vn & Hp & Hv).
  destruct Hw as ((pre & Epre) & _).
  assert (Hbs : bytes_ok seg) by (rewrite Epre in Hb; apply bytes_ok_app in Hb; apply Hb).
  destruct (bad_version_inv _ _ _ Hbs Hp) as (b0 & r & Eseg & Hb0 & Hv0 & Hvm & Hvi).
  destruct (version_reply _ _ _ _ _ Hbs Hv) as (first & dcid & scid & g & tail & b0' & v & Eseg2 & Lv & Hf & Hg & Eb & _).
  destruct (draw_inv _ _ _ Hg) as (Hgv & d & _ & Eg). pose proof (reserved_drawn d) as Hres. rewrite <- Eg in Hres.
  exists pre, b0, vn, dcid, scid, tail, first, g.
  assert (E4 : seg = b0 :: be32 vn ++ (blen dcid :: dcid) ++ (blen scid :: scid) ++ tail).
  { rewrite Eseg in Eseg2. apply (f_equal (@tl N)) in Eseg2 as Et. cbn [tl] in Et. apply (f_equal (@hd N 0)) in Eseg2. cbn [hd] in Eseg2. subst b0'.
    destruct v as [|v0 [|v1 [|v2 [|v3 [|]]]]]; try (rewrite ?blen_cons, ?blen_nil in Lv; lia).
    rewrite Eseg. f_equal. f_equal. unfold be32 in Et. cbn [app] in Et. cbn [app]. injection Et as _ _ _ _ Et. exact Et. }
  split; [rewrite Epre, E4; reflexivity|]. split; [exact Hb0|]. split; [exact Hvm|]. split; [exact Hv0|].
  split; [intro Hs; apply supported_index in Hs; congruence|]. split; [exact Hf|].
  split; [|split; [exact Hres|exact Hgv]].
  rewrite Eb. unfold vn_packet. rewrite <- versions_flat by apply Hres. reflexivity.
Qed.

(** From a datagram of a client with an unknown version to the end of its attempt. *)
Lemma vn_end_to_end : forall cf known st rns pe now bytes b0 vn dcid scid tail lk tag ct,
  env_ok cf (st_lk st) rns -> bytes_ok bytes -> 1200 <= blen bytes -> addr_refused cf pe = false ->
  bytes = b0 :: be32 vn ++ (blen dcid :: dcid) ++ (blen scid :: scid) ++ tail -> 128 <= b0 ->
  vn < 4294967296 -> vn <> 0 -> ~ supported vn -> blen dcid <= 20 -> blen scid <= 20 ->
  find_long (st_lk st) PtInitial dcid = None -> lk_by_icid (st_lk st) dcid = None ->
  ct_phase ct = CInitSent -> ct_local ct = scid -> ct_initial ct = dcid -> ct_proposed ct = vn -> finds lk ct ->
  exists b g, incoming_packet cf known st rns pe now bytes = Some (st, [AVersion b]) /\ reserved_version g /\
    client_receive lk tag ct b = Some (CrVersion (VnAbort (flat_map be32 (map fst supported_versions ++ [g])))).
Proof.
  intros cf known st rns pe now bytes b0 vn dcid scid tail lk tag ct He Hb H12 Href Eb Hb0 Hvn Hv0 Hns Hd Hs Hfind Hicid Hph Hloc Hini Hpro Hfinds.
  assert (Hvi : get_version_index vn = None).
  { destruct (get_version_index vn) eqn:E; [|reflexivity]. exfalso. apply Hns, supported_index. congruence. }
  assert (Hb0' : b0 < 256) by (rewrite Eb in Hb; inversion Hb; assumption).
  assert (H128 : N.land b0 128 = 128).
  { assert (A : forallb (fun n => N.land n 128 =? 128) (map N.of_nat (seq 128 128)) = true) by (vm_compute; reflexivity).
    rewrite forallb_forall in A. apply N.eqb_eq, A. apply in_map_iff. exists (N.to_nat b0). split; [lia|]. apply in_seq. lia. }
  assert (Hp : parse_header (st_lk st) bytes None true = Some (PBadVersion vn)).
  { rewrite Eb. unfold parse_header. change (mem_get 0 (b0 :: ?l)) with (Some b0). cbn [obind]. rewrite H128. change (128 =? 128) with true. cbv iota.
    unfold parse_long. cbn [frames_uint8_decode]. rewrite <- format_be32 by exact Hvn. rewrite dec_32 by exact Hvn.
    destruct (N.eqb_spec vn 0); [contradiction|]. rewrite Hvi. reflexivity. }
  set (rn := rns (length bytes - 1)%nat).
  assert (Hne : bytes <> []) by (rewrite Eb; discriminate).
  assert (Hr5 : mem_get 5 bytes = Some (blen dcid)) by (rewrite Eb; reflexivity).
  assert (E6 : bytes = (b0 :: be32 vn ++ [blen dcid]) ++ dcid ++ (blen scid :: scid ++ tail)) by (rewrite Eb; reflexivity).
  assert (E7 : bytes = (b0 :: be32 vn ++ (blen dcid :: dcid) ++ [blen scid]) ++ scid ++ tail).
  { rewrite Eb. cbn [app]. f_equal. unfold be32. cbn [app]. repeat (f_equal; []). rewrite <- app_assoc. reflexivity. }
  assert (Rd : mem_read 6 (blen dcid) bytes = Some dcid) by (rewrite E6; apply mem_split3; reflexivity).
  assert (Rs : mem_read (6 + blen dcid + 1) (blen scid) bytes = Some scid).
  { rewrite E7. apply mem_split3; [|reflexivity]. rewrite blen_cons. unfold be32. cbn [app]. rewrite !blen_cons, blen_app, blen_cons, blen_nil. lia. }
  assert (Gs : mem_get (6 + blen dcid) bytes = Some (blen scid)).
  { unfold mem_get. rewrite Eb. replace (N.to_nat (6 + blen dcid)) with (6 + length dcid)%nat by (unfold blen; lia).
    unfold be32. cbn [app Nat.add nth_error]. rewrite nth_error_app2 by lia. rewrite Nat.sub_diag. reflexivity. }
  destruct (draw_some vn (rn_vns rn) (eo_draws _ _ _ He _ vn)) as [g Hg].
  destruct (draw_inv _ _ _ Hg) as (Hgv & d & _ & Eg). pose proof (reserved_drawn d) as Hres. rewrite <- Eg in Hres.
  set (first := N.lor (u8 (rn_byte rn 0)) 128).
  assert (Hfirst : 128 <= first < 256).
  { unfold first. assert (Hx : u8 (rn_byte rn 0) < 256) by (apply u8_lt).
    assert (A : forallb (fun n => (128 <=? N.lor n 128) && (N.lor n 128 <? 256)) (map N.of_nat (seq 0 256)) = true) by (vm_compute; reflexivity).
    rewrite forallb_forall in A. specialize (A (u8 (rn_byte rn 0)) ltac:(apply in_map_iff; exists (N.to_nat (u8 (rn_byte rn 0))); split; [lia|]; apply in_seq; lia)).
    apply Bool.andb_true_iff in A. destruct A as [A1 A2]. apply N.leb_le in A1. apply N.ltb_lt in A2. lia. }
  set (b := vn_packet first scid dcid (map fst supported_versions ++ [g])).
  assert (Lb : blen b <= 1536).
  { unfold b, vn_packet. rewrite <- versions_flat by apply Hres. rewrite blen_cons, !blen_app, !blen_cons, versions_length.
    change (blen (be32 0)) with 4. change (blen (format_32 g)) with 4. lia. }
  assert (Hvn2 : version_negotiation (st_lk st) rn vn bytes = Some [AVersion b]).
  { unfold version_negotiation. rewrite Hr5. cbn [obind]. rewrite Gs. cbn [obind].
    destruct (N.leb_spec (blen dcid) 20); [|lia]. rewrite Rd. cbn [obind].
    assert (Hfn : (match (if blen dcid =? lk_cid_len (st_lk st)
                           then if lk_cid_len (st_lk st) =? 0 then lk_by_net (st_lk st) else lk_by_id (st_lk st) dcid else None) with
                    | Some c => Some c
                    | None => lk_by_icid (st_lk st) dcid
                    end) = None).
    { unfold find_long in Hfind. destruct (N.eqb_spec (lk_cid_len (st_lk st)) 0) as [Hz|Hz].
      - destruct (lk_by_net (st_lk st)); [discriminate|]. destruct (blen dcid =? lk_cid_len (st_lk st)); exact Hicid.
      - destruct (blen dcid =? lk_cid_len (st_lk st)); [destruct (lk_by_id (st_lk st) dcid); [discriminate|]|]; exact Hicid. }
    rewrite Hfn. rewrite Rs. cbn [obind]. rewrite Hg. cbn [obind].
    fold first.
    assert (Epk : first :: format_32 0 ++ (blen scid :: scid) ++ (blen dcid :: dcid) ++
                 flat_map (fun e => format_32 (fst e)) supported_versions ++ format_32 g = b).
    { rewrite versions_flat by apply Hres. reflexivity. }
    rewrite Epk. destruct (N.ltb_spec 1536 (blen b)); [lia|]. reflexivity. }
  exists b, g. split; [|split; [exact Hres|]].
  - unfold incoming_packet. rewrite Eb. cbn [length incoming_segments]. rewrite <- Eb.
    match goal with |- context[incoming_segment _ _ _ (rns ?k)] => replace (rns k) with rn end.
    2: { unfold rn. f_equal. rewrite Eb. cbn [length]. lia. }
    unfold incoming_segment. rewrite Hp. cbn [obind].
    destruct (N.leb_spec 1200 (blen bytes)); [|lia]. rewrite Href. cbn [negb andb]. rewrite Hvn2. reflexivity.
  - apply client_vn; [| exact Lb |].
    + unfold b, vn_packet. rewrite Eb in Hb.
      assert (Hb1 : bytes_ok ((b0 :: be32 vn) ++ (blen dcid :: dcid) ++ (blen scid :: scid) ++ tail)) by exact Hb.
      apply bytes_ok_app in Hb1. destruct Hb1 as [_ Hb1].
      apply bytes_ok_app in Hb1. destruct Hb1 as [Hbd Hb1]. apply bytes_ok_app in Hb1. destruct Hb1 as [Hbs _].
      constructor; [unfold is_byte; lia|]. apply Forall_app. split; [repeat constructor|]. apply Forall_app. split; [exact Hbs|]. apply Forall_app. split; [exact Hbd|].
      rewrite flat_map_app. apply Forall_app. split; [|cbn [flat_map]; rewrite app_nil_r; unfold be32; repeat constructor; unfold is_byte; apply N.mod_lt; discriminate].
      apply Forall_forall. intros x Hx. assert (A : forallb (fun v => v <? 256) (flat_map be32 (map fst supported_versions)) = true) by (vm_compute; reflexivity).
      rewrite forallb_forall in A. apply N.ltb_lt, A, Hx.
    + exists first, (map fst supported_versions ++ [g]). rewrite Hloc, Hini. split; [reflexivity|]. split; [exact Hfirst|]. split; [reflexivity|].
      split; [exact Hs|]. split; [exact Hd|]. destruct Hfinds as (_ & F1 & _). rewrite Hloc in F1. split; [exact F1|]. split; [exact Hph|].
      split; [apply Forall_app; split; [|constructor; [apply Hres|constructor]]|].
      { apply Forall_forall. intros x Hx. assert (A : forallb (fun v => v <? 4294967296) (map fst supported_versions) = true) by (vm_compute; reflexivity).
        rewrite forallb_forall in A. apply N.ltb_lt, A, Hx. }
      rewrite Hpro. split; [intro Hin; apply in_app_or in Hin; destruct Hin as [Hin|[Hin|[]]]; [exact (Hns Hin)|congruence]|].
      split; [intro Hin; apply in_app_or in Hin; destruct Hin as [Hin|[Hin|[]]]|].
      * unfold supported_versions in Hin. cbn [map fst In] in Hin. repeat (destruct Hin as [Hin|Hin]; [discriminate|]). destruct Hin.
      * subst g. destruct Hres as [Hx _]. rewrite Hin in Hx. discriminate.
      * exists 1. split; [apply in_or_app; left; left; reflexivity|left; reflexivity].
Qed.
