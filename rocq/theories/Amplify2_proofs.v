(** Proofs about the limit on amplification: termination, what is counted, when the
    server may send, and the counterexamples. *)
From Verif Require Import Base Amplify_model Amplify_spec Amplify_proofs.

(** ** Termination *)

Lemma segment_mtu : forall a avail w b n, prepare_segment a avail w = (b, n) -> a_mtu b = a_mtu a.
Proof.
  intros a avail w b n H. unfold prepare_segment, prepare_server_init, prepare_almost_ready, prepare_ready, prepare_closing,
    count_sent, conn_error in H.
  destruct a as [e r m p v rv st hs hr k ak]; destruct p; cbn [a_phase a_valid a_key1 a_hs a_hs_rcvd a_ack] in H;
    repeat match type of H with
    | context [if ?c then _ else _] => destruct c
    | context [match w_turn w with _ => _ end] => destruct (w_turn w)
    end; cbn [a_phase set_phase a_valid] in H;
    repeat match type of H with
    | context [if ?c then _ else _] => destruct c
    end; injection H as <- _; reflexivity.
Qed.

Lemma fill_len : forall ws a dont psize pmax b n r, fill a dont psize pmax ws = (b, n, r) ->
  (length r <= length ws)%nat /\ (psize = 0 -> ws <> nil -> (length r < length ws)%nat) /\ (ws = nil -> n = psize).
Proof.
  induction ws as [|w ws IH]; intros a dont psize pmax b n r H; cbn [fill] in H.
  - destruct (_ && _); injection H as <- <- <-; split; [cbn; lia|split; [congruence|reflexivity]| cbn; lia|split; [congruence|reflexivity]].
  - destruct (N.eqb_spec psize 0) as [P|P]; cbn [negb andb] in H.
    + destruct (prepare_segment a _ w) as [c k]. destruct (_ || _ || _).
      * injection H as <- <- <-. cbn [length]. split; [lia|]. split; [lia|congruence].
      * destruct (IH _ _ _ _ _ _ _ H) as (L & _ & _). cbn [length]. split; [lia|]. split; [lia|congruence].
    + destruct (a_mtu a <? psize + min_segment).
      * injection H as <- <- <-. split; [lia|]. split; congruence.
      * destruct (prepare_segment a _ w) as [c k]. destruct (_ || _ || _).
        -- injection H as <- <- <-. cbn [length]. split; [lia|]. split; congruence.
        -- destruct (IH _ _ _ _ _ _ _ H) as (L & _ & _). cbn [length]. split; [lia|]. split; congruence.
Qed.

Lemma loop_defined : forall fuel a dont msg max total ws, (length ws < fuel)%nat ->
  match msg with Some m => 0 < m | None => True end -> send_loop fuel a dont msg max total ws <> None.
Proof.
  induction fuel as [|f IH]; intros a dont msg max total ws Hf Hm; [lia|]. cbn [send_loop].
  destruct (fill a dont 0 _ ws) as [[c n] r] eqn:Ef.
  destruct (fill_len _ _ _ _ _ _ _ _ Ef) as (L & L1 & L2).
  unfold next_datagram. destruct msg as [m|]; [|discriminate].
  assert (K : forall x, 0 < x -> n <> 0 -> match send_loop f c dont (Some x) max (total + n) r with
    | Some (c0, o) => Some (c0, (if n =? 0 then nil else n :: nil) ++ o) | None => None end <> None).
  { intros x Hx Hn. assert (F : (length r < f)%nat).
    { destruct ws as [|w ws]; [specialize (L2 eq_refl); congruence|]. assert ((length r < length (w :: ws))%nat) by (apply L1; [reflexivity|discriminate]). lia. }
    specialize (IH c dont (Some x) max (total + n) r F Hx).
    destruct (send_loop f c dont (Some x) max (total + n) r) as [[d o]|]; [discriminate|congruence]. }
  destruct (N.ltb_spec m n); [apply K; lia|].
  destruct (N.eqb_spec n m); cbn [negb]; [|discriminate].
  destruct (max <? total + n + m); [discriminate|]. apply K; lia.
Qed.

Lemma packet_defined : forall a dont batch max ws, 0 < a_mtu a -> prepare_packet a dont batch max ws <> None.
Proof.
  intros a dont batch max ws Hm. unfold prepare_packet. destruct (max <? enforced_mtu); [discriminate|].
  apply loop_defined; [lia|]. destruct batch; auto.
Qed.

Lemma fill_mtu : forall ws a dont psize pmax b n r, fill a dont psize pmax ws = (b, n, r) -> a_mtu b = a_mtu a.
Proof.
  induction ws as [|w ws IH]; intros a dont psize pmax b n r H; cbn [fill] in H.
  - destruct (_ && _); injection H as <- _ _; reflexivity.
  - destruct (_ && _); [injection H as <- _ _; reflexivity|].
    destruct (prepare_segment a _ w) as [c k] eqn:Es. pose proof (segment_mtu _ _ _ _ _ Es) as M.
    destruct (_ || _ || _); [injection H as <- _ _; exact M|]. rewrite (IH _ _ _ _ _ _ _ H). exact M.
Qed.

Lemma loop_mtu : forall fuel a dont msg max total ws b o, send_loop fuel a dont msg max total ws = Some (b, o) ->
  a_mtu b = a_mtu a.
Proof.
  induction fuel as [|f IH]; intros a dont msg max total ws b o H; cbn [send_loop] in H; [discriminate|].
  destruct (fill a dont 0 _ ws) as [[c n] r] eqn:Ef. pose proof (fill_mtu _ _ _ _ _ _ _ _ Ef) as M.
  destruct (next_datagram _ _ _ _) as [m|].
  - destruct (send_loop f c dont (Some m) max (total + n) r) as [[d p]|] eqn:El; [|discriminate].
    injection H as <- _. rewrite (IH _ _ _ _ _ _ _ _ El). exact M.
  - injection H as <- _. exact M.
Qed.

(** Fields that receiving does not change, and the bytes counted. *)
Record keeps (a b : amp) : Prop := mk_keeps {
  k_mtu : a_mtu b = a_mtu a; k_e : a_empty b = a_empty a; k_rv : a_recv b = a_recv a; k_st : a_sent b = a_sent a;
  k_v : a_valid a = true -> a_valid b = true }.

Lemma keeps_refl : forall a, keeps a a.
Proof. intros a. split; auto. Qed.

Ltac kp := split; cbn [a_mtu a_empty a_recv a_sent a_valid set_phase set_valid set_hs set_ack]; auto.

Lemma error_keeps : forall a, keeps a (conn_error a).
Proof. intros a. unfold conn_error. destruct (a_phase a); kp. Qed.
Lemma close_keeps : forall a, keeps a (peer_close a).
Proof. intros a. unfold peer_close. destruct (a_phase a), (a_key1 a); kp. Qed.
Lemma outcome_keeps : forall a o, keeps a (initial_outcome a o).
Proof.
  intros a o. destruct o; cbn [initial_outcome]; try (kp; fail); [apply error_keeps|apply close_keeps|].
  cbn [a_phase set_hs]. destruct (a_phase a); kp.
Qed.
Lemma keeps_trans : forall a b c, keeps a b -> keeps b c -> keeps a c.
Proof. intros a b c [A1 A2 A3 A4 A5] [B1 B2 B3 B4 B5]. split; try congruence; auto. Qed.
Lemma valid_keeps : forall a, keeps a (set_valid a true).
Proof. intros. kp. Qed.
Lemma phase_keeps : forall a p, keeps a (set_phase a p).
Proof. intros. kp. Qed.
Lemma hs_keeps : forall a x y z, keeps a (set_hs a x y z).
Proof. intros. kp. Qed.
Lemma ack_keeps : forall a x, keeps a (set_ack a x).
Proof. intros. kp. Qed.

Lemma initial_keeps : forall a s b c, client_initial a s = (b, c) -> keeps a b.
Proof.
  intros a s b c H. unfold client_initial in H.
  set (a' := match r_dcid s with D_local => _ | _ => _ end) in H.
  assert (K : keeps a a') by (subst a'; destruct (r_dcid s), (a_empty a); first [apply keeps_refl | apply valid_keeps]).
  apply (keeps_trans a a'); [exact K|].
  destruct (a_phase a'); try (injection H as <- _; apply keeps_refl);
    injection H as <- _; destruct (_ && _); try apply outcome_keeps;
    (eapply keeps_trans; [apply outcome_keeps|apply valid_keeps]).
Qed.

Lemma zero_keeps : forall a s b c, client_zero a s = (b, c) -> keeps a b.
Proof.
  intros a s b c H. unfold client_zero in H.
  destruct (r_dcid s), (a_phase a), (r_out s); injection H as <- _;
    first [apply keeps_refl | apply error_keeps | apply close_keeps | apply ack_keeps].
Qed.

Lemma handshake_keeps : forall a s b c, client_handshake a s = (b, c) -> keeps a b /\ a_valid b = true.
Proof.
  intros a s b c H. unfold client_handshake in H. cbn [a_phase set_valid a_hs a_key1 set_hs] in H.
  assert (V : forall x y, keeps x y -> a_valid x = true -> a_valid y = true) by (intros x y [A B C D F]; exact F).
  assert (K : keeps (set_valid a true) b).
  { destruct (a_phase a), (r_out s); injection H as <- _;
      first [ apply keeps_refl | apply hs_keeps
            | eapply keeps_trans; [|apply error_keeps]; apply hs_keeps
            | eapply keeps_trans; [|apply close_keeps]; apply hs_keeps
            | eapply keeps_trans; [|apply phase_keeps]; eapply keeps_trans; [|apply hs_keeps]; apply hs_keeps ]. }
  split; [eapply keeps_trans; [apply valid_keeps|exact K]|]. exact (V _ _ K eq_refl).
Qed.

Lemma one_keeps : forall a s b c, client_one a s = (b, c) -> keeps a b.
Proof.
  intros a s b c H. unfold client_one in H.
  destruct (a_phase a), (r_out s); injection H as <- _;
    first [apply keeps_refl | apply error_keeps | apply close_keeps | apply ack_keeps | apply phase_keeps].
Qed.

(** The bytes that a packet adds to the count. *)
Definition seg_counts (len : N) (prev : option rdcid) (s : rseg) : N :=
  match prev with Some _ => 0 | None => counts (E_datagram len (s :: nil)) end.

Lemma segment_count : forall a len prev s b next go, a_recv a + len < two64 -> rx_segment a len prev s = (b, next, go) ->
  a_recv b = a_recv a + seg_counts len prev s /\ a_mtu b = a_mtu a /\ a_empty b = a_empty a /\ a_sent b = a_sent a
  /\ (a_valid a = true -> a_valid b = true)
  /\ (r_ok s = true -> r_kind s = K_handshake -> prev = None -> a_valid b = true)
  /\ next = match prev with None => dest_of a (r_dcid s) | Some d => Some d end.
Proof.
  intros a len prev s b next go Hl H. unfold rx_segment in H. unfold seg_counts, counts.
  assert (Z : forall x, keeps a x -> a_recv x = a_recv a + 0 /\ a_mtu x = a_mtu a /\ a_empty x = a_empty a /\ a_sent x = a_sent a
    /\ (a_valid a = true -> a_valid x = true)).
  { intros x [A B C D F]. rewrite N.add_0_r. auto. }
  destruct (r_ok s) eqn:Eok; cbn [negb] in H.
  2:{ injection H as <- <- _. destruct (Z a (keeps_refl a)) as (Z1 & Z2 & Z3 & Z4 & Z5).
      split; [destruct prev; exact Z1|]. repeat (split; [assumption|]). split; [discriminate|reflexivity]. }
  assert (C : forall x, keeps (count_recv a (match prev with None => true | Some _ => false end) len) x ->
    a_recv x = a_recv a + match prev with None => len | Some _ => 0 end /\ a_mtu x = a_mtu a /\ a_empty x = a_empty a
    /\ a_sent x = a_sent a /\ (a_valid a = true -> a_valid x = true)).
  { intros x [A B Cc D F]. unfold count_recv in *. destruct prev.
    - rewrite N.add_0_r. auto.
    - cbn [a_mtu a_empty a_recv a_sent a_valid set_recv] in *. rewrite u64_id in Cc by exact Hl. auto. }
  destruct prev as [d|].
  - destruct (negb (same_dcid d (r_dcid s))).
    { injection H as <- <- _. destruct (Z a (keeps_refl a)) as (Z1 & Z2 & Z3 & Z4 & Z5).
      repeat (split; [assumption|]). split; [discriminate|reflexivity]. }
    destruct (r_kind s) eqn:Ek.
    + destruct (len <? enforced_mtu).
      { injection H as <- <- _. destruct (Z a (keeps_refl a)) as (Z1 & Z2 & Z3 & Z4 & Z5).
        repeat (split; [assumption|]). split; [discriminate|reflexivity]. }
      destruct (r_dcid s);
        [ destruct (client_initial _ s) as [x c] eqn:Ec | destruct (client_initial _ s) as [x c] eqn:Ec | ];
        injection H as <- <- _;
        [ destruct (C _ (initial_keeps _ _ _ _ Ec)) as (Z1 & Z2 & Z3 & Z4 & Z5)
        | destruct (C _ (initial_keeps _ _ _ _ Ec)) as (Z1 & Z2 & Z3 & Z4 & Z5)
        | destruct (Z a (keeps_refl a)) as (Z1 & Z2 & Z3 & Z4 & Z5) ];
        repeat (split; [assumption|]); (split; [discriminate|reflexivity]).
    + destruct (client_zero _ s) as [x c] eqn:Ec. injection H as <- <- _.
      destruct (C _ (zero_keeps _ _ _ _ Ec)) as (Z1 & Z2 & Z3 & Z4 & Z5).
      repeat (split; [assumption|]); (split; [discriminate|reflexivity]).
    + destruct (client_handshake a s) as [x c] eqn:Ec. injection H as <- <- _.
      destruct (handshake_keeps _ _ _ _ Ec) as [K V]. destruct (Z _ K) as (Z1 & Z2 & Z3 & Z4 & Z5).
      repeat (split; [assumption|]). split; [auto|reflexivity].
    + destruct (a_key1 a).
      * destruct (client_one a s) as [x c] eqn:Ec. injection H as <- <- _.
        destruct (Z _ (one_keeps _ _ _ _ Ec)) as (Z1 & Z2 & Z3 & Z4 & Z5).
        repeat (split; [assumption|]); (split; [discriminate|reflexivity]).
      * injection H as <- <- _. destruct (Z a (keeps_refl a)) as (Z1 & Z2 & Z3 & Z4 & Z5).
        repeat (split; [assumption|]); (split; [discriminate|reflexivity]).
  - destruct (r_kind s) eqn:Ek.
    + unfold enforced_mtu in H. destruct (N.ltb_spec len 1200) as [L|L].
      { injection H as <- <- _. destruct (Z a (keeps_refl a)) as (Z1 & Z2 & Z3 & Z4 & Z5).
        replace (1200 <=? len) with false by (symmetry; apply N.leb_gt; exact L).
        split; [destruct (r_dcid s); exact Z1|].
        repeat (split; [assumption|]). split; [discriminate|reflexivity]. }
      replace (1200 <=? len) with true by (symmetry; apply N.leb_le; exact L).
      destruct (r_dcid s);
        [ destruct (client_initial _ s) as [x c] eqn:Ec | destruct (client_initial _ s) as [x c] eqn:Ec | ];
        injection H as <- <- _;
        [ destruct (C _ (initial_keeps _ _ _ _ Ec)) as (Z1 & Z2 & Z3 & Z4 & Z5)
        | destruct (C _ (initial_keeps _ _ _ _ Ec)) as (Z1 & Z2 & Z3 & Z4 & Z5)
        | destruct (Z a (keeps_refl a)) as (Z1 & Z2 & Z3 & Z4 & Z5) ];
        repeat (split; [assumption|]); (split; [discriminate|reflexivity]).
    + destruct (client_zero _ s) as [x c] eqn:Ec. injection H as <- <- _.
      destruct (C _ (zero_keeps _ _ _ _ Ec)) as (Z1 & Z2 & Z3 & Z4 & Z5).
      repeat (split; [assumption|]); (split; [discriminate|reflexivity]).
    + destruct (client_handshake a s) as [x c] eqn:Ec. injection H as <- <- _.
      destruct (handshake_keeps _ _ _ _ Ec) as [K V]. destruct (Z _ K) as (Z1 & Z2 & Z3 & Z4 & Z5).
      repeat (split; [assumption|]). split; [auto|reflexivity].
    + destruct (a_key1 a).
      * destruct (client_one a s) as [x c] eqn:Ec. injection H as <- <- _.
        destruct (Z _ (one_keeps _ _ _ _ Ec)) as (Z1 & Z2 & Z3 & Z4 & Z5).
        repeat (split; [assumption|]); (split; [discriminate|reflexivity]).
      * injection H as <- <- _. destruct (Z a (keeps_refl a)) as (Z1 & Z2 & Z3 & Z4 & Z5).
        repeat (split; [assumption|]); (split; [discriminate|reflexivity]).
Qed.

Lemma segments_some : forall l a len d, keeps a (rx_segments a len (Some d) l).
Proof.
  induction l as [|s0 l0 IH]; intros a len d; cbn [rx_segments]; [apply keeps_refl|].
  destruct (rx_segment a len (Some d) s0) as [[b next] go] eqn:Es.
  assert (K : keeps a b /\ next = Some d).
  { unfold rx_segment in Es. cbn [count_recv] in Es.
    repeat match type of Es with
    | context [if ?c then _ else _] => destruct c
    | (let '(_, _) := ?x in _) = _ => let E := fresh in destruct x eqn:E
    | context [match r_kind s0 with _ => _ end] => destruct (r_kind s0)
    | context [match r_dcid s0 with _ => _ end] => destruct (r_dcid s0)
    end; injection Es as <- <- _; (split; [|reflexivity]);
      first [ apply keeps_refl | eapply initial_keeps; eassumption | eapply zero_keeps; eassumption
            | eapply one_keeps; eassumption | eapply handshake_keeps; eassumption ]. }
  destruct K as [K ->]. destruct go; [|exact K]. eapply keeps_trans; [exact K|apply IH].
Qed.

Lemma datagram_count : forall a len l, a_empty a = false -> a_recv a + len < two64 ->
  let b := rx_datagram a len l in
  a_recv b = a_recv a + counts (E_datagram len l) /\ a_mtu b = a_mtu a /\ a_empty b = false /\ a_sent b = a_sent a
  /\ (a_valid a = true -> a_valid b = true)
  /\ (forall s r, l = s :: r -> r_ok s = true -> r_kind s = K_handshake -> a_valid b = true).
Proof.
  intros a len [|s l] He Hl; cbn zeta; unfold rx_datagram; cbn [rx_segments].
  - cbn [counts]. rewrite N.add_0_r. repeat (split; [auto|]). discriminate.
  - destruct (rx_segment a len None s) as [[b next] go] eqn:Es.
    destruct (segment_count a len None s b next go Hl Es) as (A & B & C & D & V & W & ->).
    cbn [seg_counts] in A.
    replace (counts (E_datagram len (s :: l))) with (counts (E_datagram len (s :: nil))) by reflexivity.
    assert (Wx : forall s0 r, s :: l = s0 :: r -> r_ok s0 = true -> r_kind s0 = K_handshake -> a_valid b = true).
    { intros s0 r X Y Z. injection X as <- <-. exact (W Y Z eq_refl). }
    destruct go; [|rewrite C; auto 8].
    assert (D0 : exists d, dest_of a (r_dcid s) = Some d).
    { unfold dest_of. rewrite He. destruct (r_dcid s); eexists; reflexivity. }
    destruct D0 as [d ->].
    destruct (segments_some l b len d) as [B2 C2 A2 D2 V2]. rewrite A2, B2, C2, D2, C.
    split; [exact A|]. split; [exact B|]. split; [exact He|]. split; [exact D|]. split; [auto|].
    intros s0 r X Y Z. apply V2. exact (Wx _ _ X Y Z).
Qed.

(** Sending keeps these fields. *)
Lemma segment_tx_keeps : forall a avail w b n, prepare_segment a avail w = (b, n) ->
  a_empty b = a_empty a /\ a_recv b = a_recv a /\ a_valid b = a_valid a.
Proof.
  intros a avail w b n H. unfold prepare_segment, prepare_server_init, prepare_almost_ready, prepare_ready, prepare_closing,
    count_sent, conn_error in H.
  destruct a as [e r m p v rv st hs hr k ak]; destruct p; cbn [a_phase a_valid a_key1 a_hs a_hs_rcvd a_ack] in H;
    repeat match type of H with
    | context [if ?c then _ else _] => destruct c
    | context [match w_turn w with _ => _ end] => destruct (w_turn w)
    end; cbn [a_phase set_phase a_valid] in H;
    repeat match type of H with
    | context [if ?c then _ else _] => destruct c
    end; injection H as <- _; auto.
Qed.

Lemma fill_tx_keeps : forall ws a dont psize pmax b n r, fill a dont psize pmax ws = (b, n, r) ->
  a_empty b = a_empty a /\ a_recv b = a_recv a /\ a_valid b = a_valid a.
Proof.
  induction ws as [|w ws IH]; intros a dont psize pmax b n r H; cbn [fill] in H.
  - destruct (_ && _); injection H as <- _ _; auto.
  - destruct (_ && _); [injection H as <- _ _; auto|].
    destruct (prepare_segment a _ w) as [c k] eqn:Es. destruct (segment_tx_keeps _ _ _ _ _ Es) as (A & B & C).
    destruct (_ || _ || _); [injection H as <- _ _; auto|]. destruct (IH _ _ _ _ _ _ _ H) as (X & Y & Z).
    rewrite X, Y, Z. auto.
Qed.

Lemma loop_tx_keeps : forall fuel a dont msg max total ws b o, send_loop fuel a dont msg max total ws = Some (b, o) ->
  a_empty b = a_empty a /\ a_recv b = a_recv a /\ a_valid b = a_valid a.
Proof.
  induction fuel as [|f IH]; intros a dont msg max total ws b o H; cbn [send_loop] in H; [discriminate|].
  destruct (fill a dont 0 _ ws) as [[c n] r] eqn:Ef. destruct (fill_tx_keeps _ _ _ _ _ _ _ _ Ef) as (A & B & C).
  destruct (next_datagram _ _ _ _) as [m|].
  - destruct (send_loop f c dont (Some m) max (total + n) r) as [[d p]|] eqn:El; [|discriminate].
    injection H as <- _. destruct (IH _ _ _ _ _ _ _ _ El) as (X & Y & Z). rewrite X, Y, Z. auto.
  - injection H as <- _. auto.
Qed.

Lemma counts_le : forall e, counts e <= e_recv e.
Proof.
  intros [len [|s l]| | | |]; cbn [counts e_recv]; try lia.
  destruct (r_ok s), (r_kind s), (r_dcid s), (1200 <=? len); lia.
Qed.

Lemma step_count : forall a e b o, a_empty a = false -> a_recv a + e_recv e < two64 -> step a e = Some (b, o) ->
  a_empty b = false /\ a_mtu b = a_mtu a /\ a_recv b = a_recv a + counts e /\ (a_valid a = true -> a_valid b = true).
Proof.
  intros a e b o He Hl H. destruct e as [len l|dont batch max ws| | |]; cbn [step e_recv] in *.
  - injection H as <- <-. destruct (datagram_count a len l He Hl) as (A & B & C & D & V & _). cbn zeta in *. auto.
  - cbn [counts]. rewrite N.add_0_r. unfold prepare_packet in H. destruct (max <? enforced_mtu).
    + injection H as <- <-. auto.
    + destruct (loop_tx_keeps _ _ _ _ _ _ _ _ _ H) as (A & B & C). rewrite A, B, C, (loop_mtu _ _ _ _ _ _ _ _ _ H). auto.
  - injection H as <- <-. cbn [counts]. rewrite N.add_0_r. unfold app_close. destruct (a_phase a); auto.
  - injection H as <- <-. cbn [counts]. rewrite N.add_0_r. unfold app_drop. destruct (a_phase a); auto.
  - injection H as <- <-. cbn [counts]. rewrite N.add_0_r. auto.
Qed.

Lemma run_count : forall es a b o, a_empty a = false -> a_recv a + bytes (received es) < two64 -> run a es = Some (b, o) ->
  a_empty b = false /\ a_mtu b = a_mtu a /\ a_recv b = a_recv a + total_counts es /\ (a_valid a = true -> a_valid b = true).
Proof.
  induction es as [|e es IH]; intros a b o He Hl H; cbn [run] in H.
  - injection H as <- <-. cbn [total_counts fold_right]. rewrite N.add_0_r. auto.
  - destruct (step a e) as [[c p]|] eqn:Es; [|discriminate].
    destruct (run c es) as [[d q]|] eqn:Er; [|discriminate]. injection H as <- <-.
    assert (Rv : bytes (received (e :: es)) = e_recv e + bytes (received es)).
    { destruct e; cbn [received e_recv]; try lia; reflexivity. }
    rewrite Rv in Hl.
    assert (H1 : a_recv a + e_recv e < two64) by lia.
    destruct (step_count _ _ _ _ He H1 Es) as (A & B & C & V).
    pose proof (counts_le e) as Ce.
    assert (H2 : a_recv c + bytes (received es) < two64) by lia.
    destruct (IH _ _ _ A H2 Er) as (A2 & B2 & C2 & V2).
    split; [exact A2|]. split; [congruence|]. split; [|auto].
    rewrite C2, C. cbn [total_counts fold_right]. fold (total_counts es). lia.
Qed.

Lemma run_app : forall es fs a b o, run a (es ++ fs) = Some (b, o) ->
  exists c p q, run a es = Some (c, p) /\ run c fs = Some (b, q) /\ o = p ++ q.
Proof.
  induction es as [|e es IH]; intros fs a b o H; cbn [app run] in H.
  - exists a, nil, o. auto.
  - destruct (step a e) as [[c p]|] eqn:Es; [|discriminate].
    destruct (run c (es ++ fs)) as [[d q]|] eqn:Er; [|discriminate]. injection H as <- <-.
    destruct (IH _ _ _ _ Er) as (c' & p' & q' & A & B & C). exists c', (p ++ p'), q'. cbn [run]. rewrite Es, A.
    split; [reflexivity|]. split; [exact B|]. rewrite C, app_assoc. reflexivity.
Qed.

(** Never stuck. *)
Lemma run_defined : forall es a, 0 < a_mtu a -> run a es <> None.
Proof.
  assert (M : forall a e b o, step a e = Some (b, o) -> a_mtu b = a_mtu a).
  { intros a e b o H. destruct e as [len l|dont batch max ws| | |]; cbn [step] in H.
    - injection H as <- _. unfold rx_datagram. generalize (@None rdcid). revert a.
      induction l as [|s l IH]; intros a prev; cbn [rx_segments]; [reflexivity|].
      destruct (rx_segment a len prev s) as [[c next] go] eqn:Es.
      assert (K : a_mtu c = a_mtu a).
      { assert (Kc : forall f, a_mtu (count_recv a f len) = a_mtu a) by (intros [|]; reflexivity).
        unfold rx_segment in Es.
        set (fst := match prev with None => true | Some _ => false end) in Es.
        repeat match type of Es with
        | context [if ?c then _ else _] => destruct c
        | (let '(_, _) := ?x in _) = _ => let E := fresh in destruct x eqn:E
        | context [match r_kind s with _ => _ end] => destruct (r_kind s)
        | context [match r_dcid s with _ => _ end] => destruct (r_dcid s)
        end; injection Es as <- _ _; try reflexivity;
        match goal with
        | E : client_initial _ _ = _ |- _ => rewrite (k_mtu _ _ (initial_keeps _ _ _ _ E)); apply Kc
        | E : client_zero _ _ = _ |- _ => rewrite (k_mtu _ _ (zero_keeps _ _ _ _ E)); apply Kc
        | E : client_one _ _ = _ |- _ => exact (k_mtu _ _ (one_keeps _ _ _ _ E))
        | E : client_handshake _ _ = _ |- _ => exact (k_mtu _ _ (proj1 (handshake_keeps _ _ _ _ E)))
        end. }
      destruct go; [rewrite IH|]; exact K.
    - unfold prepare_packet in H. destruct (max <? enforced_mtu); [injection H as <- _; reflexivity|].
      exact (loop_mtu _ _ _ _ _ _ _ _ _ H).
    - injection H as <- _. unfold app_close. destruct (a_phase a); reflexivity.
    - injection H as <- _. unfold app_drop. destruct (a_phase a); reflexivity.
    - injection H as <- _. reflexivity. }
  induction es as [|e es IH]; intros a Hm; cbn [run]; [discriminate|].
  destruct (step a e) as [[c p]|] eqn:Es.
  - assert (Hc : 0 < a_mtu c) by (rewrite (M _ _ _ _ Es); exact Hm).
    specialize (IH c Hc). destruct (run c es) as [[d q]|]; [discriminate|congruence].
  - destruct e; cbn [step] in Es; try discriminate. exfalso. exact (packet_defined _ _ _ _ _ Hm Es).
Qed.

(** ** When the server may send *)

(** The first wish of a poll. *)
Lemma poll_first : forall a dont batch max w ws b o, 1200 <= max -> 0 < a_mtu a ->
  prepare_packet a dont batch max (w :: ws) = Some (b, o) ->
  o = nil <-> snd (prepare_segment a max w) = 0.
Proof.
  intros a dont batch max w ws b o Hx Hm H. unfold prepare_packet, enforced_mtu in H.
  replace (max <? 1200) with false in H by (symmetry; apply N.ltb_ge; exact Hx).
  revert H. generalize (length (w :: ws)). intros f H. cbn [send_loop] in H.
  assert (Pm : packet_max (if batch then Some (a_mtu a) else None) max 0 = max).
  { unfold packet_max. destruct batch; [|apply N.sub_0_r]. rewrite N.sub_0_r, Bool.andb_false_r. reflexivity. }
  rewrite Pm in H. cbn [fill N.eqb negb andb] in H.
  destruct (prepare_segment a max w) as [c k] eqn:Es. cbn [snd].
  destruct (N.eqb_spec k 0) as [K|K]; cbn [orb] in H.
  - rewrite K in H. cbn [N.add N.eqb] in H. split; [intros _; exact K|intros _].
    assert (Nd : next_datagram (if batch then Some (a_mtu a) else None) max 0 0 = None).
    { unfold next_datagram. destruct batch; [|reflexivity]. replace (a_mtu a <? 0) with false by (symmetry; apply N.ltb_ge; lia).
      replace (0 =? a_mtu a) with false by (symmetry; apply N.eqb_neq; lia). reflexivity. }
    rewrite Nd in H. injection H as <- <-. reflexivity.
  - split; [|congruence]. intros ->. exfalso.
    rewrite !N.add_0_l in H.
    destruct (w_one w || dont).
    + destruct (N.eqb_spec k 0); [congruence|].
      destruct (next_datagram _ _ _ _); [|discriminate].
      destruct (send_loop _ _ _ _ _ _ _) as [[d p]|]; [|discriminate]. injection H as _ H. discriminate.
    + destruct (fill c dont k max ws) as [[c2 n2] r2] eqn:Ef.
      assert (L : k <= n2).
      { clear - Ef. revert c k Ef. induction ws as [|w ws IH]; intros c k Ef; cbn [fill] in Ef.
        - destruct (_ && _); injection Ef as _ <- _; lia.
        - destruct (_ && _); [injection Ef as _ <- _; lia|].
          destruct (prepare_segment c _ w) as [c3 k3]. destruct (_ || _ || _); [injection Ef as _ <- _; lia|].
          specialize (IH _ _ Ef). lia. }
      destruct (N.eqb_spec n2 0); [lia|].
      destruct (next_datagram _ _ _ _); [|discriminate].
      destruct (send_loop _ _ _ _ _ _ _) as [[d p]|]; [|discriminate]. injection H as _ H. discriminate.
Qed.

(** An address that is not validated: the server sends if and only if a full packet keeps
    within the limit. *)
Lemma exact_limit : forall rn mtu es a o dont batch max w ws b p,
  0 < mtu -> mtu < big -> bytes (received es) < big -> no_address false rn es -> probes_below mtu es ->
  run (amp_init false rn mtu false) es = Some (a, o) -> in_handshake (a_phase a) = true ->
  1200 <= max -> 0 < w_len w -> w_turn w = T_none ->
  prepare_packet a dont batch max (w :: ws) = Some (b, p) ->
  p <> nil <-> bytes o + N.min max mtu <= 3 * total_counts es.
Proof.
  intros rn mtu es a o dont batch max w ws b p Hm0 Hm Hb Hn Hp H Ho Hx Hw Ht Hs.
  assert (H0 : 0 < big) by (unfold big; lia).
  assert (He : Forall (e_ok false rn mtu 0) es) by (apply events_ok; [exact Hn|left; reflexivity|rewrite N.add_0_r; exact Hp]).
  destruct (run_init false rn mtu 0 Hm H0 es a o He Hb H) as [HJ HR HL _ HO].
  specialize (HO Ho).
  assert (Hb2 : a_recv (amp_init false rn mtu false) + bytes (received es) < two64)
    by (cbn [a_recv amp_init]; unfold big, two64 in *; lia).
  destruct (run_count es _ _ _ (eq_refl : a_empty (amp_init false rn mtu false) = false) Hb2 H) as (_ & _ & RC & _).
  cbn [a_recv amp_init] in RC. rewrite N.add_0_l in RC.
  assert (Hma : 0 < a_mtu a) by (rewrite (J_m _ _ _ _ HJ); exact Hm0).
  pose proof (poll_first _ _ _ _ _ _ _ _ Hx Hma Hs) as PF.
  assert (G : snd (prepare_segment a max w) = 0 <-> over_limit a (N.min max mtu) = true).
  { unfold prepare_segment, prepare_server_init, prepare_almost_ready. rewrite (J_m _ _ _ _ HJ), (J_k _ _ _ _ HJ), Ht.
    destruct (a_phase a); try discriminate; destruct (over_limit a (N.min max mtu)); cbn [snd]; split; intros X; try reflexivity; try discriminate;
      exfalso; revert X; try (destruct (_ && _)); lia. }
  assert (O : over_limit a (N.min max mtu) = true <-> 3 * total_counts es < bytes o + N.min max mtu).
  { unfold over_limit. rewrite (J_v _ _ _ _ HJ). cbn [negb andb]. rewrite N.ltb_lt. rewrite RC, HO.
    rewrite RC in HR. unfold big in *.
    rewrite !u64_id by (unfold two64; lia). reflexivity. }
  rewrite PF, G, O. lia.
Qed.

(** A validated address: the server sends. *)
Lemma released : forall rn tok mtu es len s r fs a o dont batch max w ws b p,
  0 < mtu -> bytes (received (es ++ E_datagram len (s :: r) :: fs)) < two64 ->
  r_ok s = true -> r_kind s = K_handshake ->
  run (amp_init false rn mtu tok) (es ++ E_datagram len (s :: r) :: fs) = Some (a, o) ->
  in_handshake (a_phase a) = true ->
  1200 <= max -> 0 < w_len w -> w_turn w = T_none ->
  prepare_packet a dont batch max (w :: ws) = Some (b, p) -> p <> nil.
Proof.
  intros rn tok mtu es len s r fs a o dont batch max w ws b p Hm0 Hb Hok Hk H Ho Hx Hw Ht Hs.
  destruct (run_app _ _ _ _ _ H) as (c & q1 & q2 & R1 & R2 & _).
  assert (Hrec : forall x y, bytes (received (x ++ y)) = bytes (received x) + bytes (received y)).
  { induction x as [|e x IH]; intros y; [reflexivity|].
    destruct e; cbn [app received]; try apply IH.
    change (len0 + bytes (received (x ++ y)) = len0 + bytes (received x) + bytes (received y)). rewrite IH. lia. }
  rewrite Hrec in Hb. change (bytes (received es) + (len + bytes (received fs)) < two64) in Hb.
  assert (B1 : a_recv (amp_init false rn mtu tok) + bytes (received es) < two64) by (cbn [a_recv amp_init]; lia).
  destruct (run_count es _ _ _ (eq_refl : a_empty (amp_init false rn mtu tok) = false) B1 R1) as (E1 & M1 & C1 & _).
  cbn [a_recv amp_init a_mtu] in C1, M1.
  assert (T1 : total_counts es <= bytes (received es)).
  { clear. induction es as [|e es IH]; [cbn; lia|].
    assert (Rv : bytes (received (e :: es)) = e_recv e + bytes (received es)).
    { destruct e; cbn [received e_recv]; try lia; reflexivity. }
    rewrite Rv. cbn [total_counts fold_right]. fold (total_counts es). pose proof (counts_le e). lia. }
  cbn [run] in R2. cbn [step] in R2.
  destruct (run (rx_datagram c len (s :: r)) fs) as [[d q3]|] eqn:R3; [|discriminate]. injection R2 as <- _.
  assert (B2 : a_recv c + len < two64) by lia.
  destruct (datagram_count c len (s :: r) E1 B2) as (A2 & M2 & E2 & _ & _ & V2). cbn zeta in *.
  specialize (V2 s r eq_refl Hok Hk).
  pose proof (counts_le (E_datagram len (s :: r))) as Ce. cbn [e_recv] in Ce.
  assert (B3 : a_recv (rx_datagram c len (s :: r)) + bytes (received fs) < two64) by lia.
  destruct (run_count fs _ _ _ E2 B3 R3) as (E3 & M3 & _ & V3). specialize (V3 V2).
  assert (Hma : 0 < a_mtu d) by (rewrite M3, M2, M1; exact Hm0).
  pose proof (poll_first _ _ _ _ _ _ _ _ Hx Hma Hs) as PF.
  intros Hp. apply PF in Hp. revert Hp.
  unfold prepare_segment, prepare_server_init, prepare_almost_ready, prepare_ready, over_limit. rewrite V3, Ht. cbn [negb andb].
  destruct (a_phase d); try discriminate; try (destruct (a_key1 d)); try (destruct (w_probe w)); cbn [andb snd];
    try (destruct (_ <? _)); cbn [snd]; rewrite ?M3, ?M2, ?M1; cbn [a_mtu set_phase]; rewrite ?M3, ?M2, ?M1; lia.
Qed.

(** ** Counterexamples *)

(** A client Hello in a datagram of 1200 bytes, and a server that has much to send. *)
Definition hello : event := E_datagram 1200 (mk_rseg K_initial D_initial true false false O_almost :: nil).
Definition want : wish := mk_wish 5000 false false T_none.
Definition want_last (n : N) : wish := mk_wish n false false T_false_start.

(** Twelve Initial packets in one datagram, to the empty connection id. *)
Definition twelve : event :=
  E_datagram 1200 (repeat (mk_rseg K_initial D_local true false false O_none) 12).

Definition empty_trace : list event :=
  hello :: twelve :: E_poll false true 65536 (repeat want 40) :: nil.

Lemma empty_refuted : exists rn mtu es a o,
  mtu = 1252 /\ no_address true rn es /\ probes_below mtu es /\
  run (amp_init true rn mtu false) es = Some (a, o) /\ in_handshake (a_phase a) = true /\
  9 * bytes (received es) < bytes o.
Proof.
  exists false, 1252, empty_trace.
  assert (R : match run (amp_init true false 1252 false) empty_trace with
    | Some (a, o) => in_handshake (a_phase a) = true /\ 9 * bytes (received empty_trace) < bytes o
    | None => False end) by (vm_compute; split; reflexivity).
  destruct (run (amp_init true false 1252 false) empty_trace) as [[a o]|]; [|contradiction].
  exists a, o. destruct R as [R1 R2]. split; [reflexivity|]. split.
  - intros len l s [X|[X|[X|X]]] Hs; try discriminate; try contradiction; injection X as <- <-.
    + destruct Hs as [<-|[]]. reflexivity.
    + repeat (destruct Hs as [<-|Hs]; [reflexivity|]). contradiction.
  - split; [|auto]. intros dont batch max ws w [X|[X|[X|X]]] Hw; try discriminate; try contradiction.
    injection X as <- <- <- <-. repeat (destruct Hw as [<-|Hw]; [discriminate|]). contradiction.
Qed.

Definition probe_trace : list event :=
  hello :: E_poll true false 1536 (want_last 1250 :: nil) :: E_poll true false 1536 (mk_wish 1090 false false T_none :: nil) ::
  E_poll true false 1536 (mk_wish 1440 true true T_none :: nil) :: nil.

Lemma probe_refuted : exists rn mtu es a o,
  mtu = 1252 /\ no_address false rn es /\ probes_below 1440 es /\
  run (amp_init false rn mtu false) es = Some (a, o) /\ in_handshake (a_phase a) = true /\
  3 * bytes (received es) < bytes o.
Proof.
  exists false, 1252, probe_trace.
  assert (R : match run (amp_init false false 1252 false) probe_trace with
    | Some (a, o) => in_handshake (a_phase a) = true /\ 3 * bytes (received probe_trace) < bytes o
    | None => False end) by (vm_compute; split; reflexivity).
  destruct (run (amp_init false false 1252 false) probe_trace) as [[a o]|]; [|contradiction].
  exists a, o. destruct R as [R1 R2]. split; [reflexivity|]. split.
  - intros len l s [X|[X|[X|[X|X]]]] Hs; try discriminate; try contradiction; injection X as <- <-.
    destruct Hs as [<-|[]]. reflexivity.
  - split; [|auto]. intros dont batch max ws w [X|[X|[X|[X|X]]]] Hw; try discriminate; try contradiction;
      injection X as <- <- <- <-; destruct Hw as [<-|[]]; cbn; try discriminate; lia.
Qed.

Definition close_trace : list event :=
  hello :: E_poll true true 65536 (want :: want :: nil) :: E_close ::
  E_poll true false 1536 (want :: nil) :: E_poll true false 1536 (want :: nil) :: nil.

Lemma close_refuted : exists rn mtu es a o,
  mtu = 1200 /\ no_address false rn es /\ probes_below mtu es /\ closes es = 1 /\
  run (amp_init false rn mtu false) es = Some (a, o) /\ 3 * bytes (received es) < bytes o.
Proof.
  exists false, 1200, close_trace.
  assert (R : match run (amp_init false false 1200 false) close_trace with
    | Some (a, o) => 3 * bytes (received close_trace) < bytes o
    | None => False end) by (vm_compute; reflexivity).
  destruct (run (amp_init false false 1200 false) close_trace) as [[a o]|]; [|contradiction].
  exists a, o. split; [reflexivity|]. split.
  - intros len l s [X|[X|[X|[X|[X|X]]]]] Hs; try discriminate; try contradiction; injection X as <- <-.
    destruct Hs as [<-|[]]. reflexivity.
  - split; [|split; [reflexivity|auto]]. intros dont batch max ws w [X|[X|[X|[X|[X|X]]]]] Hw; try discriminate; try contradiction;
      injection X as <- <- <- <-; repeat (destruct Hw as [<-|Hw]); try contradiction; cbn; discriminate.
Qed.
