(** Connection ids created under an accepted configuration. *)
From Verif Require Import Base Tac Mem Mem_proofs Lb_model Lb_spec Varint_spec Varint_proofs
  Lb_proofs Lb2_proofs.

Lemma create_eq : forall k q c q' app random, cipher_ok k -> config_typed c -> c_sid_len c <= 16 ->
  lb_configure q c = Some (q', true) -> blen random = c_cid_len c -> bytes_ok random ->
  exists id', create_local_cnx_id k q' app random = Some (mk_cid id' (c_cid_len c)) /\
    generated k c (random ++ repeat 0 (N.to_nat (20 - c_cid_len c))) id' /\
    q_callback q' = Lb_callback (ctx_of c) /\ c_sid64 c < 256 ^ c_sid_len c /\ config_ok c = true.
Proof.
  intros k q c q' app random Hk Ht H16 Hc Hr Hro.
  destruct (configure_inv q c q' H16 Hc) as (Ho & Hfit & ->).
  destruct (config_ok_len c Ho) as (H20 & _).
  destruct (random_id random (c_cid_len c) Hr H20 Hro) as (Hid & Hl & Hok).
  destruct (generate_ok k c _ Hk Ht Ho H16 Hl Hok) as (id' & Hg & Hgen).
  exists id'. unfold create_local_cnx_id. cbn [q_callback q_cid_len].
  replace (create_random_cnx_id random (c_cid_len c))
    with (mk_cid (random ++ repeat 0 (N.to_nat (20 - c_cid_len c))) (c_cid_len c)).
  - repeat split; assumption.
  - rewrite <- Hid. reflexivity.
Qed.

Lemma three_rounds : forall k key n s, cipher_ok k -> length key = 16%nat ->
  (length n <= 16)%nat -> (length s <= 16)%nat -> bytes_ok n -> bytes_ok s ->
  length (masked k key n (masked k key s n)) = length n /\
  length (masked k key (masked k key s n) (masked k key n (masked k key s n))) = length s.
Proof.
  intros k key n s Hk Hkl Hn Hs Hno Hso.
  set (m1 := masked k key s n).
  assert (Hs1 : length m1 = length s) by (apply masked_length; assumption).
  assert (Hs1o : bytes_ok m1) by (apply masked_ok; assumption).
  set (n1 := masked k key n m1) in *.
  assert (Hn1 : length n1 = length n) by (apply masked_length; try assumption; lia).
  assert (Hn1o : bytes_ok n1) by (apply masked_ok; try assumption; lia).
  split; [ exact Hn1 | ]. rewrite masked_length; try assumption; lia.
Qed.

Lemma create_decodes : forall k q c q' app random, cipher_ok k -> config_typed c -> c_sid_len c <= 16 ->
  lb_configure q c = Some (q', true) -> blen random = c_cid_len c -> bytes_ok random ->
  exists x i, q_callback q' = Lb_callback x /\ create_local_cnx_id k q' app random = Some i /\
    cid_len i = c_cid_len c /\ length (cid_id i) = 20%nat /\
    length (balancer k c (firstn (N.to_nat (cid_len i)) (cid_id i))) = N.to_nat (c_sid_len c) /\
    be_value (balancer k c (firstn (N.to_nat (cid_len i)) (cid_id i))) = c_sid64 c /\
    lb_verify k x i = Some (c_sid64 c) /\
    exists f, hd_error (cid_id i) = Some f /\ first_byte_ok c f.
Proof.
  intros k q c q' app random Hk Ht H16 Hc Hr Hro.
  destruct (create_eq k q c q' app random Hk Ht H16 Hc Hr Hro) as (id' & Hcr & Hgen & Hcb & Hfit & Ho).
  destruct (config_ok_len c Ho) as (H20 & _ & Hm).
  destruct (generated_decodes k c _ id' Hk Ht Ho H16 Hfit Hgen) as (Hb & Hv).
  assert (Hl20 : length (random ++ repeat 0 (N.to_nat (20 - c_cid_len c))) = 20%nat).
  { rewrite app_length, repeat_length. unfold blen in Hr. lia. }
  exists (ctx_of c), (mk_cid id' (c_cid_len c)). cbn [cid_id cid_len].
  rewrite Hb. split; [ exact Hcb | ]. split; [ exact Hcr | ]. split; [ reflexivity | ].
  pose proof (sid_bytes_blen c) as HSl.
  split; [ | split; [ unfold blen in HSl; lia | split; [ apply sid_bytes_be, Hfit | split; [ exact Hv | ] ] ] ].
  - destruct Hgen as (f & _ & _ & Hg).
    destruct Ht as (_ & _ & _ & _ & _ & Hkl & _).
    assert (HSo : bytes_ok (sid_bytes c)) by apply be_bytes_ok.
    destruct (c_method c).
    + destruct Hg as (b0 & s & t & E & Hs & ->). rewrite E in Hl20. cbn [length] in *.
      rewrite app_length in *. unfold blen in *. lia.
    + destruct Hg as (b0 & n & s & t & E & Hn & Hs & Hno & Hid'). cbv zeta in Hid'. rewrite Hid'. rewrite E in Hl20.
      unfold blen in *.
      cbn [length] in *. rewrite !app_length in *.
      destruct (three_rounds k (c_key c) n (sid_bytes c) Hk Hkl) as (-> & ->); try assumption; lia.
    + destruct Hg as (b0 & s & r & t & E & Hs & Hr' & Hro' & ->). rewrite E in Hl20.
      destruct (Hk (c_key c) (sid_bytes c ++ r) Hkl) as (Hl & _ & _).
      { rewrite app_length. unfold blen in *. lia. }
      { apply Forall_app; split; assumption. }
      unfold blen in *.
      cbn [length] in *. rewrite !app_length in *. rewrite Hl. lia.
    + contradiction.
  - destruct Hgen as (f & Hf & _ & Hg). exists f. split; [ | exact Hf ].
    destruct (c_method c).
    + destruct Hg as (b0 & s & t & E & Hs & ->). reflexivity.
    + destruct Hg as (b0 & n & s & t & E & Hn & Hs & Hno & Hid'). cbv zeta in Hid'. rewrite Hid'. reflexivity.
    + destruct Hg as (b0 & s & r & t & E & Hs & Hr' & Hro' & ->). reflexivity.
    + contradiction.
Qed.

Lemma nth_firstn : forall (l : list N) m i, (i < m)%nat -> nth_error (firstn m l) i = nth_error l i.
Proof.
  induction l as [|a l IH]; intros [|m] [|i] H; cbn; try lia; try reflexivity. apply IH; lia.
Qed.

Lemma wire_slice : forall m a b off n, firstn m a = firstn m b -> off + n <= N.of_nat m ->
  slice off n a = slice off n b.
Proof.
  intros m a b off n H Hl. rewrite <- (slice_firstn off n m a Hl), <- (slice_firstn off n m b Hl), H. reflexivity.
Qed.

Lemma wire_nth : forall m (a b : list N) i, firstn m a = firstn m b -> (i < m)%nat ->
  nth_error a i = nth_error b i.
Proof. intros m a b i H Hi. rewrite <- (nth_firstn a m i Hi), <- (nth_firstn b m i Hi), H. reflexivity. Qed.

Lemma nth_tail : forall (a t : list N) i, (length a <= i)%nat -> nth_error (a ++ t) i = nth_error t (i - length a).
Proof. intros. apply nth_error_app2. assumption. Qed.

(** Equal ids come from equal free bytes. *)
Lemma generated_distinct : forall k c id1 id2 id1' id2', cipher_ok k -> config_typed c ->
  config_ok c = true -> c_sid_len c <= 16 ->
  generated k c id1 id1' -> generated k c id2 id2' ->
  firstn (N.to_nat (c_cid_len c)) id1' = firstn (N.to_nat (c_cid_len c)) id2' ->
  forall i, free_byte c i -> nth_error id1 (N.to_nat i) = nth_error id2 (N.to_nat i).
Proof.
  intros k c id1 id2 id1' id2' Hk Ht Ho H16 Hg1 Hg2 Hw i (Hi & Hfree).
  destruct Ht as (_ & _ & _ & _ & _ & Hkl & _).
  pose proof (config_ok_len c Ho) as (H20 & H1 & Hm).
  pose proof (sid_bytes_blen c) as HSl.
  assert (HSo : bytes_ok (sid_bytes c)) by apply be_bytes_ok.
  destruct Hg1 as (f1 & _ & _ & Hg1). destruct Hg2 as (f2 & _ & _ & Hg2).
  pose proof (wire_nth _ _ _ (N.to_nat i) Hw ltac:(lia)) as Hn.
  destruct (c_method c).
  - destruct Hg1 as (b1 & s1 & t1 & -> & Hs1 & ->). destruct Hg2 as (b2 & s2 & t2 & -> & Hs2 & ->).
    unfold blen in *.
    change (f1 :: sid_bytes c ++ t1) with ((f1 :: sid_bytes c) ++ t1) in Hn.
    change (f2 :: sid_bytes c ++ t2) with ((f2 :: sid_bytes c) ++ t2) in Hn.
    rewrite !nth_tail in Hn by (cbn [length]; lia).
    change (b1 :: s1 ++ t1) with ((b1 :: s1) ++ t1). change (b2 :: s2 ++ t2) with ((b2 :: s2) ++ t2).
    rewrite !nth_tail by (cbn [length]; lia).
    cbn [length] in *. replace (length s1) with (length (sid_bytes c)) by lia.
    replace (length s2) with (length (sid_bytes c)) by lia. exact Hn.
  - destruct Hg1 as (b1 & n1 & s1 & t1 & -> & Hn1 & Hs1 & Hno1 & E1).
    destruct Hg2 as (b2 & n2 & s2 & t2 & -> & Hn2 & Hs2 & Hno2 & E2).
    cbv zeta in E1, E2.
    assert (Hinv : forall n, blen n = c_nonce_len c -> bytes_ok n ->
      exists n' s', masked k (c_key c) n (masked k (c_key c) (sid_bytes c) n) = n' /\
        masked k (c_key c) (masked k (c_key c) (sid_bytes c) n) n' = s' /\
        blen n' = c_nonce_len c /\ blen s' = c_sid_len c /\
        n = masked k (c_key c) n' (masked k (c_key c) s' n')).
    { clear - Hk Hkl Hm HSl HSo H16. intros n Hn Hno.
      assert (Hln : (length n <= 16)%nat) by (unfold blen in Hn; lia).
      assert (HlS : (length (sid_bytes c) <= 16)%nat) by (unfold blen in HSl; lia).
      set (m1 := masked k (c_key c) (sid_bytes c) n).
      assert (Hs1 : length m1 = length (sid_bytes c)) by (apply masked_length; assumption).
      assert (Hs1o : bytes_ok m1) by (apply masked_ok; assumption).
      set (n1 := masked k (c_key c) n m1) in *.
      assert (Hn1 : length n1 = length n) by (apply masked_length; try assumption; lia).
      assert (Hn1o : bytes_ok n1) by (apply masked_ok; try assumption; lia).
      exists n1, (masked k (c_key c) m1 n1). repeat split.
      - unfold blen in *; lia.
      - unfold blen in *. rewrite masked_length; try assumption; lia.
      - rewrite (masked_twice k Hk (c_key c) Hkl m1 n1); try assumption; try lia.
        unfold n1. symmetry; apply masked_twice; try assumption; lia. }
    destruct (Hinv n1 Hn1 Hno1) as (p1 & q1 & Ep1 & Eq1 & Lp1 & Lq1 & R1).
    destruct (Hinv n2 Hn2 Hno2) as (p2 & q2 & Ep2 & Eq2 & Lp2 & Lq2 & R2).
    rewrite Ep1, Eq1 in E1. rewrite Ep2, Eq2 in E2.
    assert (Ep : p1 = p2).
    { pose proof (wire_slice _ _ _ 1 (c_nonce_len c) Hw ltac:(lia)) as H.
      rewrite E1, E2 in H.
      rewrite (slice_app [f1] p1 (q1 ++ t1)) in H by (symmetry; assumption || reflexivity).
      rewrite (slice_app [f2] p2 (q2 ++ t2)) in H by (symmetry; assumption || reflexivity). exact H. }
    assert (Eq : q1 = q2).
    { pose proof (wire_slice _ _ _ (1 + c_nonce_len c) (c_sid_len c) Hw ltac:(lia)) as H.
      rewrite E1, E2 in H.
      pose proof (slice_app ([f1] ++ p1) q1 t1 (1 + c_nonce_len c) (c_sid_len c)) as A1.
      pose proof (slice_app ([f2] ++ p2) q2 t2 (1 + c_nonce_len c) (c_sid_len c)) as A2.
      rewrite <- !app_assoc in A1, A2. cbn [app] in A1, A2.
      rewrite A1 in H by (unfold blen in *; cbn [length]; lia).
      rewrite A2 in H by (unfold blen in *; cbn [length]; lia). exact H. }
    assert (En : n1 = n2) by (rewrite R1, R2, Ep, Eq; reflexivity).
    destruct Hfree as [(Hlo & Hhi)|Hhi].
    + rewrite En. unfold blen in *.
      destruct (N.to_nat i) as [|j] eqn:Ej; [ lia | ]. cbn [nth_error].
      rewrite !nth_error_app1 by lia. reflexivity.
    + rewrite E1, E2 in Hn. unfold blen in *.
      replace (f1 :: p1 ++ q1 ++ t1) with ((f1 :: p1 ++ q1) ++ t1) in Hn by (cbn; rewrite <- app_assoc; reflexivity).
      replace (f2 :: p2 ++ q2 ++ t2) with ((f2 :: p2 ++ q2) ++ t2) in Hn by (cbn; rewrite <- app_assoc; reflexivity).
      rewrite !nth_tail in Hn by (cbn [length]; rewrite app_length; lia).
      replace (b1 :: n1 ++ s1 ++ t1) with ((b1 :: n1 ++ s1) ++ t1) by (cbn; rewrite <- app_assoc; reflexivity).
      replace (b2 :: n2 ++ s2 ++ t2) with ((b2 :: n2 ++ s2) ++ t2) by (cbn; rewrite <- app_assoc; reflexivity).
      rewrite !nth_tail by (cbn [length]; rewrite app_length; lia).
      cbn [length] in *. rewrite !app_length in *.
      replace (N.to_nat i - S (length n1 + length s1))%nat with (N.to_nat i - S (length p1 + length q1))%nat by lia.
      replace (N.to_nat i - S (length n2 + length s2))%nat with (N.to_nat i - S (length p2 + length q2))%nat by lia.
      exact Hn.
  - destruct Hg1 as (b1 & s1 & r1 & t1 & -> & Hs1 & Hr1 & Hro1 & ->).
    destruct Hg2 as (b2 & s2 & r2 & t2 & -> & Hs2 & Hr2 & Hro2 & ->).
    destruct (Hk (c_key c) (sid_bytes c ++ r1) Hkl) as (Hl1 & _ & Hd1).
    { rewrite app_length. unfold blen in *; lia. }
    { apply Forall_app; split; assumption. }
    destruct (Hk (c_key c) (sid_bytes c ++ r2) Hkl) as (Hl2 & _ & Hd2).
    { rewrite app_length. unfold blen in *; lia. }
    { apply Forall_app; split; assumption. }
    assert (Er : r1 = r2).
    { pose proof (wire_slice _ _ _ 1 16 Hw ltac:(lia)) as H.
      rewrite (slice_app [f1] (ecb_enc k (c_key c) (sid_bytes c ++ r1)) t1) in H
        by (unfold blen; rewrite ?Hl1; reflexivity).
      rewrite (slice_app [f2] (ecb_enc k (c_key c) (sid_bytes c ++ r2)) t2) in H
        by (unfold blen; rewrite ?Hl2; reflexivity).
      apply (f_equal (ecb_dec k (c_key c))) in H. rewrite Hd1, Hd2 in H.
      apply app_inv_head in H. exact H. }
    unfold blen in *.
    destruct (N.ltb_spec i 17) as [H17|H17].
    + replace (b1 :: s1 ++ r1 ++ t1) with ((b1 :: s1) ++ r1 ++ t1) by reflexivity.
      replace (b2 :: s2 ++ r2 ++ t2) with ((b2 :: s2) ++ r2 ++ t2) by reflexivity.
      rewrite (nth_tail (b1 :: s1)), (nth_tail (b2 :: s2)) by (cbn [length]; lia). cbn [length].
      rewrite !nth_error_app1 by lia. rewrite Er. replace (length s2) with (length s1) by lia. reflexivity.
    + change (f1 :: ecb_enc k (c_key c) (sid_bytes c ++ r1) ++ t1)
        with ((f1 :: ecb_enc k (c_key c) (sid_bytes c ++ r1)) ++ t1) in Hn.
      change (f2 :: ecb_enc k (c_key c) (sid_bytes c ++ r2) ++ t2)
        with ((f2 :: ecb_enc k (c_key c) (sid_bytes c ++ r2)) ++ t2) in Hn.
      rewrite !nth_tail in Hn by (cbn [length]; lia).
      replace (b1 :: s1 ++ r1 ++ t1) with ((b1 :: s1 ++ r1) ++ t1) by (cbn; rewrite <- app_assoc; reflexivity).
      replace (b2 :: s2 ++ r2 ++ t2) with ((b2 :: s2 ++ r2) ++ t2) by (cbn; rewrite <- app_assoc; reflexivity).
      rewrite !nth_tail by (cbn [length]; rewrite app_length; lia).
      cbn [length] in *. rewrite Hl1, Hl2 in Hn. rewrite !app_length.
      replace (N.to_nat i - S (length s1 + length r1))%nat with (N.to_nat i - 17)%nat by lia.
      replace (N.to_nat i - S (length s2 + length r2))%nat with (N.to_nat i - 17)%nat by lia.
      exact Hn.
  - contradiction.
Qed.

Lemma create_distinct : forall k q c q' app r1 r2 i1 i2, cipher_ok k -> config_typed c ->
  c_sid_len c <= 16 -> lb_configure q c = Some (q', true) ->
  blen r1 = c_cid_len c -> bytes_ok r1 -> blen r2 = c_cid_len c -> bytes_ok r2 ->
  create_local_cnx_id k q' app r1 = Some i1 -> create_local_cnx_id k q' app r2 = Some i2 ->
  firstn (N.to_nat (c_cid_len c)) (cid_id i1) = firstn (N.to_nat (c_cid_len c)) (cid_id i2) ->
  forall i, free_byte c i -> nth_error r1 (N.to_nat i) = nth_error r2 (N.to_nat i).
Proof.
  intros k q c q' app r1 r2 i1 i2 Hk Ht H16 Hc Hl1 Ho1 Hl2 Ho2 Hc1 Hc2 Hw i Hf.
  destruct (create_eq k q c q' app r1 Hk Ht H16 Hc Hl1 Ho1) as (id1 & E1 & G1 & _ & _ & Hok).
  destruct (create_eq k q c q' app r2 Hk Ht H16 Hc Hl2 Ho2) as (id2 & E2 & G2 & _ & _ & _).
  rewrite E1 in Hc1. injection Hc1 as <-. rewrite E2 in Hc2. injection Hc2 as <-.
  cbn [cid_id] in Hw.
  pose proof (generated_distinct k c _ _ _ _ Hk Ht Hok H16 G1 G2 Hw i Hf) as H.
  destruct Hf as (Hi & _). unfold blen in *.
  rewrite !nth_error_app1 in H by lia. exact H.
Qed.

(** ** Requests while connections exist *)
Lemma configured_keeps : forall q x r, q_has_cnx q = true -> q_callback q = Lb_callback x -> ask q r = Some q.
Proof.
  intros q x r Hc Hx. destruct r as [len|c]; cbn [ask].
  - unfold set_default_cid_length. rewrite Hc. destruct (len =? q_cid_len q); [reflexivity|]. destruct (20 <? len); reflexivity.
  - unfold lb_configure. rewrite Hx. destruct (_ && _); reflexivity.
Qed.

Lemma configured_has : forall q c q', lb_configure q c = Some (q', true) ->
  q_has_cnx q' = q_has_cnx q /\ exists x, q_callback q' = Lb_callback x.
Proof.
  intros q c q' H. unfold lb_configure in H.
  destruct (q_has_cnx q && _); [inversion H|]. cbv zeta in H.
  destruct (match q_callback q with No_callback => false | Other_callback b => b | Lb_callback _ => true end); [inversion H|].
  destruct (negb (config_ok c)); [inversion H|].
  destruct (make_ctx c) as [[x|]|]; [|inversion H|inversion H].
  inversion H; subst. split; [reflexivity|]. exists x. reflexivity.
Qed.

Lemma requests_keep : forall q c q' rs, q_has_cnx q = true -> lb_configure q c = Some (q', true) ->
  ask_all q' rs = Some q'.
Proof.
  intros q c q' rs Hc H. apply configured_has in H. destruct H as [H1 (x & H2)]. rewrite Hc in H1.
  induction rs as [|r rs IH]; [reflexivity|]. cbn [ask_all]. rewrite (configured_keeps _ x r H1 H2). exact IH.
Qed.

Lemma stays_decodable : forall k q c q' rs app random, cipher_ok k -> config_typed c -> c_sid_len c <= 16 ->
  q_has_cnx q = true -> lb_configure q c = Some (q', true) -> blen random = c_cid_len c -> bytes_ok random ->
  exists q2 i, ask_all q' rs = Some q2 /\ q_cid_len q2 = c_cid_len c /\ create_local_cnx_id k q2 app random = Some i /\
    cid_len i = c_cid_len c /\
    be_value (balancer k c (firstn (N.to_nat (cid_len i)) (cid_id i))) = c_sid64 c.
Proof.
  intros k q c q' rs app random Hk Ht Hs Hc H Hb Ho.
  destruct (create_decodes k q c q' app random Hk Ht Hs H Hb Ho) as (x & i & H1 & H2 & H3 & _ & _ & H4 & _).
  exists q', i. split; [eapply requests_keep; eassumption|]. split; [|auto].
  assert (E : q_has_cnx q && negb (q_cid_len q =? c_cid_len c) = false).
  { unfold lb_configure in H. destruct (q_has_cnx q && _); [inversion H|reflexivity]. }
  unfold lb_configure in H. rewrite E in H. cbv zeta in H.
  destruct (match q_callback q with No_callback => false | Other_callback b => b | Lb_callback _ => true end); [inversion H|].
  destruct (negb (config_ok c)); [inversion H|].
  destruct (make_ctx c) as [[y|]|] eqn:Em; [|inversion H|inversion H].
  inversion H; subst. cbn [q_cid_len]. unfold make_ctx in Em.
  destruct (fill_sid (N.to_nat (c_sid_len c)) (c_sid64 c) (mem_fill 0 16)) as [[sid rem]|]; [|discriminate].
  cbn in Em. destruct (negb (rem =? 0)); cbn in Em; [discriminate|]. apply some_inj in Em. apply some_inj in Em. subst y. reflexivity.
Qed.

(** ** Counterexamples *)

Lemma config_overflow : exists q c, config_typed c /\ config_ok c = true /\ lb_configure q c = None.
Proof.
  exists (mk_quic false 8 No_callback), (mk_cfg M_clear 0 false 17 0 18 1 (repeat 0 16)).
  split; [ | split; vm_compute; reflexivity ].
  unfold config_typed; cbn. repeat split; try lia; try reflexivity. apply (repeat_ok 16 0); lia.
Qed.

Lemma length_change : exists q c q' x i random, config_typed c /\ c_sid_len c <= 16 /\
  lb_configure q c = Some (q', true) /\ q_callback q' = Lb_callback x /\
  let q'' := set_default_cid_length q' 8 in
  q_callback q'' = Lb_callback x /\
  blen random = q_cid_len q'' /\
  forall k app, create_local_cnx_id k q'' app random = Some i /\
    lb_verify k x i <> Some (c_sid64 c).
Proof.
  set (c := mk_cfg M_clear 0 false 2 0 7 258 (repeat 0 16)).
  exists (mk_quic false 8 No_callback), c.
  exists (mk_quic false 7 (Lb_callback (ctx_of c))), (ctx_of c).
  exists (mk_cid (5 :: 1 :: 2 :: repeat 5 5 ++ repeat 0 12) 8), (repeat 5 8).
  split; [ | split; [ | split; [ | split; [ | split; [ | split ] ] ] ] ].
  - unfold config_typed; cbn. repeat split; try lia; try reflexivity. apply (repeat_ok 16 0); lia.
  - cbn; lia.
  - vm_compute; reflexivity.
  - reflexivity.
  - reflexivity.
  - reflexivity.
  - intros k app. split; [ vm_compute; reflexivity | ]. vm_compute. discriminate.
Qed.
