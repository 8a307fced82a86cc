(** Proofs about the verification of tokens. *)
From Verif Require Import Base Tac Varint_model Varint_spec Varint_proofs Mem Mem_proofs Header_model Header_proofs
  Rtoken_model Rtoken_spec Rtoken_proofs.

(** The verification of an issued token, in full. *)
Lemma verify_issued_eq : forall ae reg addr now rcid' ipn token time odcid rcid pn, aead_ok ae -> bytes_ok token ->
  issued ae addr time odcid rcid pn token ->
  let exp := expiry time odcid in
  let isnew := match odcid with [] => true | _ => false end in
  verify_retry_token ae reg addr now rcid' ipn token true =
  Some (if exp <? now then mk_verdict false (Some isnew) odcid reg
        else if negb (ipn =? 4294967295) && negb isnew && (ipn <=? pn) then mk_verdict false (Some isnew) odcid reg
        else if existsb (reg_eq (exp, last8 token)) (reg_clear now reg) then mk_verdict false (Some isnew) odcid (reg_clear now reg)
        else mk_verdict (isnew || (if list_eq_dec N.eq_dec rcid' rcid then true else false)) (Some isnew) odcid
               (reg_insert (exp, last8 token) (reg_clear now reg))).
Proof.
  intros ae reg addr now rcid' ipn token time odcid rcid pn Hok Hb HI exp isnew.
  destruct (issued_decrypts _ _ _ _ _ _ _ Hok Hb HI) as (HL & HL8 & pad & HD).
  destruct HI as (_ & Ho & Hr & Hp & He).
  unfold verify_retry_token. destruct (N.ltb_spec 128 (blen token)); [lia|].
  rewrite HD. cbn [obind]. cbv zeta. fold isnew.
  destruct (clear_text_read time odcid rcid pn pad Ho Hr Hp He) as (r1 & r2 & r3 & r4 & E1 & E2 & E3 & E4 & E5).
  rewrite E1, E2. destruct r2 as [|x2 r2]; [contradiction|]. rewrite E4, E5. fold exp.
  destruct (exp <? now); [reflexivity|].
  assert (B : (0 <? blen odcid) = negb isnew).
  { unfold isnew. destruct odcid; [reflexivity|]. apply N.ltb_lt. rewrite blen_cons. lia. }
  rewrite B. destruct (negb (ipn =? 4294967295) && negb isnew && (ipn <=? pn)); [reflexivity|].
  unfold check_reuse. destruct (N.ltb_spec (blen token) 8); [lia|].
  rewrite (last8_parse token Hb HL8). cbn [obind].
  destruct (existsb (reg_eq (exp, last8 token)) (reg_clear now reg)); [reflexivity|].
  cbn [obind negb]. destruct isnew; cbn [negb andb orb]; [reflexivity|].
  destruct (list_eq_dec N.eq_dec rcid' rcid); reflexivity.
Qed.

Lemma verify_issued : forall ae reg addr now rcid' ipn token time odcid rcid pn, aead_ok ae -> bytes_ok token ->
  issued ae addr time odcid rcid pn token ->
  exists v, verify_retry_token ae reg addr now rcid' ipn token true = Some v /\
    v_new v = Some (match odcid with [] => true | _ => false end) /\ v_odcid v = odcid /\
    (v_ok v = true <->
     now <= expiry time odcid /\ ~ In (expiry time odcid, last8 token) reg /\
     (odcid <> [] -> rcid' = rcid /\ (pn < ipn \/ ipn = 4294967295))).
Proof.
  intros ae reg addr now rcid' ipn token time odcid rcid pn Hok Hb HI.
  rewrite (verify_issued_eq _ reg _ now rcid' ipn _ _ _ _ _ Hok Hb HI). cbv zeta.
  eexists. split; [reflexivity|].
  set (exp := expiry time odcid).
  destruct (N.ltb_spec exp now) as [E|E].
  { cbn. split; [reflexivity|]. split; [reflexivity|]. split; [discriminate|lia]. }
  destruct (negb (ipn =? 4294967295) && negb (match odcid with [] => true | _ => false end) && (ipn <=? pn)) eqn:EP.
  { cbn [v_new v_odcid v_ok]. split; [reflexivity|]. split; [reflexivity|]. split; [discriminate|].
    intros (_ & _ & H). rewrite !andb_true_iff, !negb_true_iff, N.eqb_neq, N.leb_le in EP.
    destruct EP as ((P1 & P2) & P3). destruct odcid; [discriminate|].
    destruct H as (_ & [H|H]); [discriminate|lia|contradiction]. }
  destruct (existsb (reg_eq (exp, last8 token)) (reg_clear now reg)) eqn:EX.
  { cbn [v_new v_odcid v_ok]. split; [reflexivity|]. split; [reflexivity|]. split; [discriminate|].
    intros (_ & H & _). exfalso. apply H. apply registered_spec in EX. apply clear_sub in EX. exact EX. }
  cbn [v_new v_odcid v_ok]. split; [reflexivity|]. split; [reflexivity|]. split.
  - intro HV. split; [exact E|]. split.
    + intro HI'. assert (In (exp, last8 token) (reg_clear now reg)) as HC by (apply clear_keeps; [exact HI'|exact E]).
      apply registered_spec in HC. rewrite HC in EX. discriminate.
    + intro HO. destruct odcid as [|x y]; [contradiction|]. cbn [orb negb] in *. rewrite andb_true_r in EP.
      destruct (list_eq_dec N.eq_dec rcid' rcid) as [->|]; [|discriminate]. split; [reflexivity|].
      rewrite andb_false_iff, negb_false_iff, N.eqb_eq, N.leb_gt in EP. lia.
  - intros (_ & _ & H). destruct odcid as [|x y]; [reflexivity|]. cbn [orb].
    destruct H as (-> & _); [discriminate|]. destruct (list_eq_dec N.eq_dec rcid rcid); [reflexivity|contradiction].
Qed.

(** A token that does not decrypt is refused. *)
Lemma verify_foreign : forall ae reg addr now rcid ipn token reuse v, bytes_ok token ->
  verify_retry_token ae reg addr now rcid ipn token reuse = Some v -> v_ok v = true ->
  8 <= blen token /\ blen token <= 128 /\
  exists text, ae_dec ae (be_value (firstn 8 token)) addr (skipn 8 token) = Some text.
Proof.
  intros ae reg addr now rcid ipn token reuse v Hb HV HO. unfold verify_retry_token in HV.
  destruct (N.ltb_spec 128 (blen token)); [apply some_inj in HV; subst v; discriminate|].
  unfold decrypt_retry_token in HV. destruct (N.ltb_spec (blen token) 8).
  { cbn [obind] in HV. apply some_inj in HV. subst v. discriminate. }
  split; [assumption|]. split; [assumption|].
  destruct (mem_get 0 token); cbn [obind] in HV; [|discriminate].
  rewrite (parse_64_value token Hb) in HV by assumption. cbn [obind] in HV.
  destruct (ae_dec ae (be_value (firstn 8 token)) addr (skipn 8 token)) as [text|]; [exists text; reflexivity|].
  cbv beta iota zeta in HV. apply some_inj in HV. subst v. discriminate.
Qed.

(** What happens to the table. *)
Lemma verify_reg : forall ae reg addr now rcid ipn token reuse v,
  verify_retry_token ae reg addr now rcid ipn token reuse = Some v ->
  v_reg v = reg \/ v_reg v = reg_clear now reg \/
  exists t h, now <= t /\ existsb (reg_eq (t, h)) (reg_clear now reg) = false /\ v_reg v = reg_insert (t, h) (reg_clear now reg).
Proof.
  intros ae reg addr now rcid ipn token reuse v HV. unfold verify_retry_token in HV.
  assert (D : forall w, Some w = Some v -> v_reg w = reg -> v_reg v = reg).
  { intros w E <-. apply some_inj in E. subst. reflexivity. }
  destruct (128 <? blen token); [left; apply (D _ HV eq_refl)|].
  destruct (decrypt_retry_token ae addr token) as [[isnew [text|]]|]; cbn [obind] in HV; cbv beta iota zeta in HV;
    [|left; apply (D _ HV eq_refl)|discriminate].
  destruct (frames_uint64_decode text) as [[tt r1]|]; [|left; apply (D _ HV eq_refl)].
  destruct (cid_decode r1) as [[od r2]|]; [|left; apply (D _ HV eq_refl)].
  destruct r2 as [|x2 r2]; [discriminate|].
  destruct (cid_decode (x2 :: r2)) as [[cid r3]|]; [|left; apply (D _ HV eq_refl)].
  destruct (frames_varint_decode r3) as [[tpn r4]|]; [|left; apply (D _ HV eq_refl)].
  destruct (N.ltb_spec tt now) as [E|E]; [left; apply (D _ HV eq_refl)|].
  match type of HV with (if ?c then _ else _) = _ => destruct c; [left; apply (D _ HV eq_refl)|] end.
  destruct (if reuse then check_reuse (reg_clear now reg) token tt else Some (true, reg_clear now reg))
    as [[fresh reg2]|] eqn:EC; cbn [obind] in HV; [|discriminate].
  assert (R : v_reg v = reg2).
  { repeat match type of HV with (if ?c then _ else _) = _ => destruct c end; apply some_inj in HV; subst v; reflexivity. }
  rewrite R. clear HV R D. right. destruct reuse.
  - unfold check_reuse in EC. destruct (blen token <? 8).
    { apply some_pair_inj in EC. destruct EC as (_ & <-). left. reflexivity. }
    destruct (parse_64 (skipn (length token - 8) token)) as [h|]; cbn [obind] in EC; [|discriminate].
    destruct (existsb (reg_eq (tt, h)) (reg_clear now reg)) eqn:EX; apply some_pair_inj in EC; destruct EC as (_ & <-).
    + left. reflexivity.
    + right. exists tt, h. split; [exact E|]. split; [exact EX|reflexivity].
  - apply some_pair_inj in EC. destruct EC as (_ & <-). left. reflexivity.
Qed.

Lemma verify_sorted : forall ae reg addr now rcid ipn token reuse v,
  verify_retry_token ae reg addr now rcid ipn token reuse = Some v -> reg_sorted reg -> reg_sorted (v_reg v).
Proof.
  intros ae reg addr now rcid ipn token reuse v HV HS.
  destruct (verify_reg _ _ _ _ _ _ _ _ _ HV) as [->|[->|(t & h & _ & HE & ->)]].
  - exact HS.
  - apply clear_sorted, HS.
  - apply insert_sorted; [apply clear_sorted, HS|exact HE].
Qed.

(** A registered pair stays until it has expired. *)
Lemma verify_keeps : forall ae reg addr now rcid ipn token reuse v x,
  verify_retry_token ae reg addr now rcid ipn token reuse = Some v -> In x reg -> now <= fst x -> In x (v_reg v).
Proof.
  intros ae reg addr now rcid ipn token reuse v x HV HI HL.
  destruct (verify_reg _ _ _ _ _ _ _ _ _ HV) as [->|[->|(t & h & _ & HE & ->)]].
  - exact HI.
  - apply clear_keeps; assumption.
  - apply insert_in. right. apply clear_keeps; assumption.
Qed.

Lemma clock_weaken : forall l a b, a <= b -> clock_ok b l -> clock_ok a l.
Proof. intros [|p r] a b H HC; [exact I|]. destruct HC as [H1 H2]. split; [lia|exact H2]. Qed.

(** After a token was accepted, or has expired, it is never accepted. *)
Lemma used_up : forall ae addr time odcid rcid pn token, aead_ok ae -> bytes_ok token ->
  issued ae addr time odcid rcid pn token -> bound_to ae addr token ->
  forall l reg now reg' log, clock_ok now l ->
  presents ae reg l = Some (reg', log) ->
  In (expiry time odcid, last8 token) reg \/ expiry time odcid < now ->
  times_accepted token log = 0.
Proof.
  intros ae addr time odcid rcid pn token Hok Hb HI HB. induction l as [|p r IH]; intros reg now reg' log HC HR HU.
  - cbn in HR. apply some_pair_inj in HR. destruct HR as (_ & <-). reflexivity.
  - destruct HC as [HC1 HC2]. cbn [presents] in HR.
    destruct (verify_retry_token ae reg (pr_addr p) (pr_now p) (pr_rcid p) (pr_pn p) (pr_token p) true) as [v|] eqn:EV; [|discriminate].
    destruct (presents ae (v_reg v) r) as [[reg2 log2]|] eqn:ER; [|discriminate].
    apply some_pair_inj in HR. destruct HR as (<- & <-). cbn [times_accepted].
    rewrite (IH _ _ _ _ HC2 ER).
    + destruct (v_ok v) eqn:EO; [|reflexivity].
      destruct (list_eq_dec N.eq_dec (pr_token p) token) as [ET|]; [|reflexivity]. exfalso.
      rewrite ET in EV.
      destruct (list_eq_dec N.eq_dec (pr_addr p) addr) as [EA|NA].
      * rewrite EA in EV.
        destruct (verify_issued ae reg addr (pr_now p) (pr_rcid p) (pr_pn p) token time odcid rcid pn Hok Hb HI)
          as (v' & EV' & _ & _ & HV). rewrite EV in EV'. apply some_inj in EV'. subst v'.
        apply HV in EO. destruct EO as (E1 & E2 & _). destruct HU as [HU|HU]; [contradiction|lia].
      * destruct (verify_foreign _ _ _ _ _ _ _ _ _ Hb EV EO) as (_ & _ & text & ED). rewrite (HB _ NA) in ED. discriminate.
    + destruct (N.lt_ge_cases (expiry time odcid) (pr_now p)) as [HL|HL]; [right; exact HL|].
      destruct HU as [HU|HU]; [|lia]. left. apply (verify_keeps _ _ _ _ _ _ _ _ _ _ EV HU HL).
Qed.

Lemma accepted_once : forall ae addr time odcid rcid pn token, aead_ok ae -> bytes_ok token ->
  issued ae addr time odcid rcid pn token -> bound_to ae addr token ->
  forall l reg now reg' log, clock_ok now l -> presents ae reg l = Some (reg', log) ->
  times_accepted token log <= 1.
Proof.
  intros ae addr time odcid rcid pn token Hok Hb HI HB. induction l as [|p r IH]; intros reg now reg' log HC HR.
  - cbn in HR. apply some_pair_inj in HR. destruct HR as (_ & <-). cbn. lia.
  - destruct HC as [HC1 HC2]. cbn [presents] in HR.
    destruct (verify_retry_token ae reg (pr_addr p) (pr_now p) (pr_rcid p) (pr_pn p) (pr_token p) true) as [v|] eqn:EV; [|discriminate].
    destruct (presents ae (v_reg v) r) as [[reg2 log2]|] eqn:ER; [|discriminate].
    apply some_pair_inj in HR. destruct HR as (<- & <-). cbn [times_accepted].
    destruct (v_ok v) eqn:EO; [|specialize (IH _ _ _ _ HC2 ER); lia].
    destruct (list_eq_dec N.eq_dec (pr_token p) token) as [ET|]; [|specialize (IH _ _ _ _ HC2 ER); lia].
    rewrite ET in EV.
    destruct (list_eq_dec N.eq_dec (pr_addr p) addr) as [EA|NA].
    + rewrite EA in EV.
      rewrite (used_up ae addr time odcid rcid pn token Hok Hb HI HB r (v_reg v) (pr_now p) _ _ HC2 ER); [lia|].
      left. rewrite (verify_issued_eq _ reg _ (pr_now p) (pr_rcid p) (pr_pn p) _ _ _ _ _ Hok Hb HI) in EV. cbv zeta in EV.
      apply some_inj in EV.
      destruct (expiry time odcid <? pr_now p); [subst v; discriminate|].
      match type of EV with (if ?c then _ else _) = _ => destruct c; [subst v; discriminate|] end.
      match type of EV with (if ?c then _ else _) = _ => destruct c; [subst v; discriminate|] end.
      subst v. cbn [v_reg]. apply insert_in. left. reflexivity.
    + destruct (verify_foreign _ _ _ _ _ _ _ _ _ Hb EV EO) as (_ & _ & text & ED). rewrite (HB _ NA) in ED. discriminate.
Qed.

(** The table holds nothing that has expired when a token that is still valid is examined. *)
Lemma presents_sorted : forall ae l reg reg' log, reg_sorted reg -> presents ae reg l = Some (reg', log) -> reg_sorted reg'.
Proof.
  intros ae. induction l as [|p r IH]; intros reg reg' log HS HR.
  - cbn in HR. apply some_pair_inj in HR. destruct HR as (<- & _). exact HS.
  - cbn [presents] in HR.
    destruct (verify_retry_token ae reg (pr_addr p) (pr_now p) (pr_rcid p) (pr_pn p) (pr_token p) true) as [v|] eqn:EV; [|discriminate].
    destruct (presents ae (v_reg v) r) as [[reg2 log2]|] eqn:ER; [|discriminate].
    apply some_pair_inj in HR. destruct HR as (<- & _).
    apply (IH _ _ _ (verify_sorted _ _ _ _ _ _ _ _ _ EV HS) ER).
Qed.

Lemma table_current : forall ae l reg log addr now rcid' ipn token time odcid rcid pn v,
  aead_ok ae -> bytes_ok token -> issued ae addr time odcid rcid pn token ->
  presents ae [] l = Some (reg, log) ->
  verify_retry_token ae reg addr now rcid' ipn token true = Some v -> v_ok v = true ->
  forall x, In x (v_reg v) -> now <= fst x.
Proof.
  intros ae l reg log addr now rcid' ipn token time odcid rcid pn v Hok Hb HI HR EV EO x HX.
  assert (HS : reg_sorted reg) by (apply (presents_sorted ae l [] reg log I HR)).
  rewrite (verify_issued_eq _ reg _ now rcid' ipn _ _ _ _ _ Hok Hb HI) in EV. cbv zeta in EV. apply some_inj in EV.
  destruct (N.ltb_spec (expiry time odcid) now) as [E|E]; [subst v; discriminate|].
  match type of EV with (if ?c then _ else _) = _ => destruct c; [subst v; discriminate|] end.
  match type of EV with (if ?c then _ else _) = _ => destruct c; [subst v; discriminate|] end.
  subst v. cbn [v_reg] in HX. apply insert_in in HX. destruct HX as [->|HX]; [exact E|].
  apply (clear_old now reg HS x HX).
Qed.

(** * The example AEAD *)

Lemma toy_seal_len : forall n a p, blen (toy_seal n a p) = 16.
Proof.
  intros n a p.
  assert (G : blen (n mod 256 :: blen p mod 256 :: 1 :: firstn 13 (a ++ repeat 7 13)) = 16).
  { unfold blen. cbn [length]. rewrite firstn_length, app_length, repeat_length. lia. }
  destruct a as [|a0 [|a1 [|a2 [|a3 [|a4 r]]]]]; exact G.
Qed.

Lemma lxor_back : forall p, map (N.lxor 90) (map (N.lxor 90) p) = p.
Proof.
  intro p. induction p as [|x r IH]; [reflexivity|]. cbn [map]. rewrite IH. f_equal.
  rewrite <- N.lxor_assoc, N.lxor_nilpotent, N.lxor_0_l. reflexivity.
Qed.

Lemma toy_aead_ok : aead_ok toy_aead.
Proof.
  constructor.
  - intros n a p. cbn [toy_aead ae_enc]. rewrite blen_app, toy_seal_len. unfold blen. rewrite map_length. reflexivity.
  - intros n a p. cbn [toy_aead ae_enc ae_dec].
    rewrite blen_app, toy_seal_len. destruct (N.ltb_spec (blen (map (N.lxor 90) p) + 16) 16); [lia|].
    assert (L : (length (map (N.lxor 90) p ++ toy_seal n a p) - 16)%nat = length (map (N.lxor 90) p)).
    { rewrite app_length. pose proof (toy_seal_len n a p) as T. unfold blen in T. lia. }
    rewrite L, firstn_app, firstn_all, Nat.sub_diag, firstn_O, app_nil_r, skipn_app, skipn_all, Nat.sub_diag, lxor_back.
    cbn [app skipn]. destruct (list_eq_dec N.eq_dec (toy_seal n a p) (toy_seal n a p)); [reflexivity|contradiction].
Qed.
