(** Proofs about the limit on amplification. *)
From Verif Require Import Base Amplify_model Amplify_spec.

(** What is left to send after a failure, in packets. *)
Definition phi (p : phase) : N :=
  match p with
  | Ph_init | Ph_almost | Ph_false | Ph_fail => 2
  | Ph_resend | Ph_disc => 1
  | _ => 0
  end.

Record J (em rn : bool) (mtu : N) (a : amp) : Prop := mk_J {
  J_e : a_empty a = em; J_r : a_random a = rn; J_m : a_mtu a = mtu;
  J_v : a_valid a = false; J_k : a_key1 a = false;
  J_p : match a_phase a with Ph_ready | Ph_closing_rcvd => False | Ph_closing => a_ack a = false | _ => True end }.

Ltac pj := cbn [a_empty a_random a_mtu a_valid a_key1 a_phase a_ack a_recv a_sent a_hs a_hs_rcvd set_phase set_valid
  set_recv set_sent set_hs set_ack phi in_handshake conn_error peer_close initial_outcome count_sent negb andb].
Ltac pjh H := cbn [a_empty a_random a_mtu a_valid a_key1 a_phase a_ack a_recv a_sent a_hs a_hs_rcvd set_phase set_valid
  set_recv set_sent set_hs set_ack phi in_handshake conn_error peer_close initial_outcome count_sent negb andb] in H.
Ltac dj H := destruct H as [He Hr Hm Hv Hk Hp]; cbn [a_empty a_random a_mtu a_valid a_key1 a_phase a_ack] in *.

Lemma u64_id : forall n, n < two64 -> u64 n = n.
Proof. intros n H. apply N.mod_small. exact H. Qed.

Definition big : N := 1152921504606846976.

Section Tx.
Variables (em rn : bool) (mtu E : N).
Hypothesis Hmtu : mtu < big.
Hypothesis HE : E < big.

Definition w_ok (w : wish) : Prop := w_probe w = true -> w_len w <= mtu + E.

(** What sending [n] bytes does to the state. *)
Record sends_n (a b : amp) (n : N) : Prop := mk_sends {
  s_j : J em rn mtu b;
  s_recv : a_recv b = a_recv a;
  s_le : a_sent b <= 3 * a_recv b + E;
  s_phi : n + a_sent a + mtu * phi (a_phase b) <= a_sent b + mtu * phi (a_phase a);
  s_open : in_handshake (a_phase b) = true -> in_handshake (a_phase a) = true /\ n + a_sent a = a_sent b }.

Lemma over_spec : forall a lim, J em rn mtu a -> a_recv a < big -> a_sent a <= 3 * a_recv a + E -> lim <= mtu ->
  over_limit a lim = false -> a_sent a + lim <= 3 * a_recv a.
Proof.
  intros a lim H Hr Hs Hl Ho. unfold over_limit in Ho. rewrite (J_v _ _ _ _ H) in Ho. cbn [negb andb] in Ho.
  apply N.ltb_ge in Ho. unfold big in *. unfold two64 in *. rewrite !u64_id in Ho by (unfold two64; lia). exact Ho.
Qed.

Lemma segment_tx : forall a avail w b n, J em rn mtu a -> w_ok w -> a_recv a < big -> a_sent a <= 3 * a_recv a + E ->
  prepare_segment a avail w = (b, n) -> sends_n a b n.
Proof.
  intros a avail w b n HJ Hw Hr Hs H.
  assert (over_spec' : forall lim, lim <= mtu -> over_limit a lim = false -> a_sent a + lim <= 3 * a_recv a)
    by (intros; apply over_spec; assumption).
  destruct a as [e r m p v rv st hs hr k ak]. destruct HJ as [He Hrn Hm Hv Hk Hp].
  cbn [a_empty a_random a_mtu a_valid a_key1 a_phase a_ack a_recv a_sent] in *. subst e r m v k.
  unfold prepare_segment in H. cbn [a_phase a_key1] in H.
  destruct p; try contradiction.
  - (* init *)
    unfold prepare_server_init in H. cbn [a_mtu] in H.
    destruct (over_limit _ _) eqn:O in H.
    + injection H as <- <-. split; pj; [split; pj; auto|reflexivity|assumption|lia|intros; split; [reflexivity|lia]].
    + apply over_spec' in O; [|lia].
      destruct (w_turn w); unfold count_sent in H; pjh H; injection H as <- <-;
        (rewrite u64_id by (unfold two64, big in *; lia));
        (split; pj; [split; pj; auto|reflexivity|lia|lia|intros; first [discriminate | split; [reflexivity|lia]]]).
  - (* false start *)
    unfold prepare_almost_ready in H. cbn [a_mtu] in H.
    destruct (over_limit _ _) eqn:O in H.
    + injection H as <- <-. split; pj; [split; pj; auto|reflexivity|assumption|lia|intros; split; [reflexivity|lia]].
    + apply over_spec' in O; [|lia].
      assert (Hn : forall x, x <= avail -> x <= w_len w -> (x <= mtu \/ (w_probe w = true /\ mtu < avail)) -> st + x <= 3 * rv + E).
      { intros x X1 X2 [X3|[X3 X4]].
        - destruct (N.le_gt_cases avail mtu); lia.
        - specialize (Hw X3). lia. }
      destruct (w_turn w); cbn [conn_error a_phase set_phase] in H.
      1,2: set (x := if w_probe w && _ then _ else _) in H;
        assert (Hx : st + x <= 3 * rv + E)
          by (apply Hn; subst x; destruct (w_probe w); cbn [andb]; try (destruct (N.ltb_spec mtu avail)); try lia;
              try (left; lia); try (right; split; [reflexivity|lia]));
        unfold count_sent in H; cbn [a_valid set_sent] in H; injection H as <- <-;
        cbn [a_sent]; (rewrite u64_id by (unfold two64, big in *; lia));
        (split; pj; [split; pj; auto|reflexivity|lia|lia|intros; split; [reflexivity|lia]]).
      pjh H. injection H as <- <-. split; pj; [split; pj; auto|reflexivity|lia|lia|discriminate].
  - (* almost ready *)
    unfold prepare_server_init in H. cbn [a_mtu] in H.
    destruct (over_limit _ _) eqn:O in H.
    + injection H as <- <-. split; pj; [split; pj; auto|reflexivity|assumption|lia|intros; split; [reflexivity|lia]].
    + apply over_spec' in O; [|lia].
      destruct (w_turn w); unfold count_sent in H; pjh H; injection H as <- <-;
        (rewrite u64_id by (unfold two64, big in *; lia));
        (split; pj; [split; pj; auto|reflexivity|lia|lia|intros; first [discriminate | split; [reflexivity|lia]]]).
  - unfold prepare_closing in H. pjh H. destruct hs, hr; pjh H; injection H as <- <-;
      (split; pj; [split; pj; auto|reflexivity|lia|lia|discriminate]).
  - unfold prepare_closing in H. pjh H. injection H as <- <-;
      (split; pj; [split; pj; auto|reflexivity|lia|lia|discriminate]).
  - unfold prepare_closing in H. pjh H. injection H as <- <-;
      (split; pj; [split; pj; auto|reflexivity|lia|lia|discriminate]).
  - unfold prepare_closing in H. pjh H. rewrite Hp in H. injection H as <- <-;
      (split; pj; [split; pj; auto|reflexivity|lia|lia|discriminate]).
  - unfold prepare_closing in H. pjh H. injection H as <- <-;
      (split; pj; [split; pj; auto|reflexivity|lia|lia|discriminate]).
  - injection H as <- <-;
      (split; pj; [split; pj; auto|reflexivity|lia|lia|discriminate]).
Qed.

Lemma sends_trans : forall a b c n m, sends_n a b n -> sends_n b c m -> sends_n a c (n + m).
Proof.
  intros a b c n m [J1 R1 L1 P1 O1] [J2 R2 L2 P2 O2]. split.
  - exact J2.
  - congruence.
  - exact L2.
  - lia.
  - intros H. destruct (O2 H) as [H2 E2]. destruct (O1 H2) as [H1 E1]. split; [exact H1|lia].
Qed.

Lemma sends_refl : forall a, J em rn mtu a -> a_sent a <= 3 * a_recv a + E -> sends_n a a 0.
Proof. intros a H L. split; [exact H|reflexivity|exact L|lia|intros O; split; [exact O|lia]]. Qed.

Lemma fill_tx : forall ws a dont psize pmax b n r, J em rn mtu a -> Forall w_ok ws -> a_recv a < big ->
  a_sent a <= 3 * a_recv a + E -> fill a dont psize pmax ws = (b, n, r) ->
  psize <= n /\ sends_n a b (n - psize) /\ Forall w_ok r.
Proof.
  induction ws as [|w ws IH]; intros a dont psize pmax b n r HJ Hw Hr Hs H; cbn [fill] in H.
  - destruct (_ && _); injection H as <- <- <-; (split; [lia|]; rewrite N.sub_diag; split; [apply sends_refl; assumption|constructor]).
  - destruct (_ && _).
    + injection H as <- <- <-. split; [lia|]. rewrite N.sub_diag. split; [apply sends_refl; assumption|assumption].
    + inversion Hw as [|? ? W1 W2]; subst.
      destruct (prepare_segment a _ w) as [c k] eqn:Ep.
      pose proof (segment_tx _ _ _ _ _ HJ W1 Hr Hs Ep) as S1.
      destruct (_ || _ || _).
      * injection H as <- <- <-. split; [lia|]. replace (psize + k - psize) with k by lia. split; assumption.
      * assert (Hr' : a_recv c < big) by (rewrite (s_recv _ _ _ S1); assumption).
        destruct (IH _ _ _ _ _ _ _ (s_j _ _ _ S1) W2 Hr' (s_le _ _ _ S1) H) as (L & S2 & W3).
        split; [lia|]. split; [|exact W3].
        replace (n - psize) with (k + (n - (psize + k))) by lia. exact (sends_trans _ _ _ _ _ S1 S2).
Qed.

Lemma loop_tx : forall fuel a dont msg max total ws b o, J em rn mtu a -> Forall w_ok ws -> a_recv a < big ->
  a_sent a <= 3 * a_recv a + E -> send_loop fuel a dont msg max total ws = Some (b, o) -> sends_n a b (bytes o).
Proof.
  induction fuel as [|f IH]; intros a dont msg max total ws b o HJ Hw Hr Hs H; cbn [send_loop] in H; [discriminate|].
  destruct (fill a dont 0 _ ws) as [[c n] r] eqn:Ef.
  destruct (fill_tx _ _ _ _ _ _ _ _ HJ Hw Hr Hs Ef) as (_ & S1 & W1). rewrite N.sub_0_r in S1.
  assert (Hout : bytes (if n =? 0 then nil else n :: nil) = n).
  { destruct (N.eqb_spec n 0); cbn [bytes fold_right]; lia. }
  destruct (next_datagram _ _ _ _) as [m|].
  - destruct (send_loop f c dont (Some m) max (total + n) r) as [[d p]|] eqn:El; [|discriminate].
    injection H as <- <-.
    assert (Hr' : a_recv c < big) by (rewrite (s_recv _ _ _ S1); assumption).
    pose proof (IH _ _ _ _ _ _ _ _ (s_j _ _ _ S1) W1 Hr' (s_le _ _ _ S1) El) as S2.
    replace (bytes ((if n =? 0 then nil else n :: nil) ++ p)) with (n + bytes p).
    + exact (sends_trans _ _ _ _ _ S1 S2).
    + destruct (N.eqb_spec n 0); cbn [app bytes fold_right]; fold (bytes p); lia.
  - injection H as <- <-. rewrite Hout. exact S1.
Qed.

Lemma packet_tx : forall a dont batch max ws b o, J em rn mtu a -> Forall w_ok ws -> a_recv a < big ->
  a_sent a <= 3 * a_recv a + E -> prepare_packet a dont batch max ws = Some (b, o) -> sends_n a b (bytes o).
Proof.
  intros a dont batch max ws b o HJ Hw Hr Hs H. unfold prepare_packet in H.
  destruct (max <? enforced_mtu).
  - injection H as <- <-. apply sends_refl; assumption.
  - exact (loop_tx _ _ _ _ _ _ _ _ _ HJ Hw Hr Hs H).
Qed.

(** ** Receiving *)

(** What receiving does: at most [n] bytes more are counted. *)
Record gets_n (a b : amp) (n : N) : Prop := mk_gets {
  g_j : J em rn mtu b;
  g_ge : a_recv a <= a_recv b;
  g_le : a_recv b <= a_recv a + n;
  g_sent : a_sent b = a_sent a;
  g_phi : phi (a_phase b) <= phi (a_phase a);
  g_open : in_handshake (a_phase b) = true -> in_handshake (a_phase a) = true }.

Ltac fin := first [ reflexivity | lia | (split; pj; auto; fail) | discriminate | (intros; auto; fail) | tauto ].

Lemma segment_rx : forall a len prev s b next go, J em rn mtu a -> shows_address em rn s = false ->
  a_recv a + (match prev with None => len | Some _ => 0 end) < big -> rx_segment a len prev s = (b, next, go) ->
  gets_n a b (match prev with None => len | Some _ => 0 end) /\
  next = match prev with None => dest_of a (r_dcid s) | Some d => Some d end.
Proof.
  intros a len prev s b next go HJ Hs Hl H.
  destruct a as [e r m p v rv st hs hr k ak]. destruct HJ as [He Hrn Hm Hv Hk Hp].
  cbn [a_empty a_random a_mtu a_valid a_key1 a_phase a_ack a_recv a_sent] in *. subst e r m v k.
  destruct s as [ki d ok stp ac o]. unfold rx_segment in H. cbn [r_ok r_kind r_dcid r_stop] in H |- *.
  unfold shows_address in Hs. cbn [r_ok r_kind r_dcid r_acks] in Hs.
  destruct ok; cbn [negb andb] in H, Hs.
  2:{ injection H as <- <- <-. split; [|reflexivity]. destruct prev; split; pj; fin. }
  destruct (match prev with None => false | Some d0 => negb (same_dcid d0 d) end).
  { injection H as <- <- <-. split; [|reflexivity]. destruct prev; split; pj; fin. }
  assert (C : count_recv (mk_amp em rn mtu p false rv st hs hr false ak) (match prev with None => true | Some _ => false end) len
    = mk_amp em rn mtu p false (rv + match prev with None => len | Some _ => 0 end) st hs hr false ak).
  { unfold count_recv. destruct prev; pj.
    - f_equal. lia.
    - rewrite u64_id by (unfold two64, big in *; lia). reflexivity. }
  destruct ki.
  - destruct (len <? enforced_mtu).
    { injection H as <- <- <-. split; [|reflexivity]. destruct prev; split; pj; fin. }
    apply Bool.orb_false_iff in Hs. destruct Hs as [Hs1 Hs2].
    destruct d.
    3:{ injection H as <- <- <-. split; [|reflexivity]. destruct prev; split; pj; fin. }
    all: rewrite C in H; unfold client_initial in H; cbn [r_dcid r_acks r_out a_random a_empty] in H.
    2: apply Bool.negb_false_iff in Hs1;
      match type of H with context [if em then ?A else ?B] => replace (if em then A else B) with A in H by (rewrite Hs1; reflexivity) end.
    all: destruct p; try contradiction; cbn [a_phase set_valid a_random initial_outcome] in H;
      try (injection H as <- <- <-; split; [|reflexivity]; destruct prev; split; pj; fin);
      (assert (Hac : forall z, (if ac && a_random z then set_valid z true else z) = z \/ a_random z <> rn)
        by (intros z; destruct (Bool.bool_dec (a_random z) rn) as [->|]; [rewrite Hs2; left; reflexivity|right; assumption]));
      destruct o; pjh H; try rewrite Hs2 in H; pjh H; try rewrite Hs2 in H;
      injection H as <- <- <-; (split; [|reflexivity]); destruct prev; split; pj; fin.
  - rewrite C in H. unfold client_zero in H. cbn [r_dcid r_out] in H.
    destruct d; destruct p; try contradiction; destruct o; pjh H; injection H as <- <- <-;
      (split; [|reflexivity]); destruct prev; split; pj; fin.
  - discriminate.
  - cbn [a_key1] in H. injection H as <- <- <-. split; [|reflexivity].
    destruct prev; split; pj; fin.
Qed.

Lemma gets_trans : forall a b c n m, gets_n a b n -> gets_n b c m -> gets_n a c (n + m).
Proof.
  intros a b c n m [J1 A1 B1 S1 P1 O1] [J2 A2 B2 S2 P2 O2].
  split; [exact J2|lia|lia|congruence|lia|auto].
Qed.

Lemma gets_refl : forall a, J em rn mtu a -> gets_n a a 0.
Proof. intros a H. split; [exact H|lia|lia|reflexivity|lia|auto]. Qed.

Lemma segments_rx_some : forall l a len d, J em rn mtu a -> Forall (fun s => shows_address em rn s = false) l ->
  a_recv a < big -> gets_n a (rx_segments a len (Some d) l) 0.
Proof.
  induction l as [|s l IH]; intros a len d HJ Hs Hl; cbn [rx_segments].
  - apply gets_refl. exact HJ.
  - inversion Hs as [|? ? S1 S2]; subst.
    destruct (rx_segment a len (Some d) s) as [[b next] go] eqn:Es.
    assert (Hl' : a_recv a + 0 < big) by lia.
    destruct (segment_rx a len (Some d) s _ _ _ HJ S1 Hl' Es) as [G ->].
    destruct go; [|exact G].
    assert (Hb : a_recv b < big) by (pose proof (g_le _ _ _ G); lia).
    exact (gets_trans _ _ _ _ _ G (IH b len d (g_j _ _ _ G) S2 Hb)).
Qed.

Lemma datagram_rx : forall a len l, J em rn mtu a -> Forall (fun s => shows_address em rn s = false) l ->
  a_recv a + len < big -> em = false \/ (length l <= 1)%nat -> gets_n a (rx_datagram a len l) len.
Proof.
  intros a len [|s l] HJ Hs Hl Hem; unfold rx_datagram; cbn [rx_segments].
  - pose proof (gets_refl a HJ) as G. destruct G; split; auto; lia.
  - inversion Hs as [|? ? S1 S2]; subst.
    destruct (rx_segment a len None s) as [[b next] go] eqn:Es.
    destruct (segment_rx a len None s _ _ _ HJ S1 Hl Es) as [G ->].
    destruct go; [|exact G].
    destruct Hem as [Hem|Hem].
    + assert (D : exists d, dest_of a (r_dcid s) = Some d).
      { unfold dest_of. rewrite (J_e _ _ _ _ HJ), Hem. destruct (r_dcid s); eexists; reflexivity. }
      destruct D as [d ->].
      assert (Hb : a_recv b < big) by (pose proof (g_le _ _ _ G); lia).
      pose proof (gets_trans _ _ _ _ _ G (segments_rx_some l b len d (g_j _ _ _ G) S2 Hb)) as T.
      rewrite N.add_0_r in T. exact T.
    + destruct l; [cbn [rx_segments]; exact G|cbn in Hem; lia].
Qed.

(** ** Executions *)

Record inv (a : amp) (R T C : N) : Prop := mk_inv {
  i_j : J em rn mtu a;
  i_recv : a_recv a <= R;
  i_le : a_sent a <= 3 * a_recv a + E;
  i_phi : T + mtu * phi (a_phase a) <= a_sent a + mtu * (2 + C);
  i_open : in_handshake (a_phase a) = true -> T = a_sent a }.

Definition e_ok (e : event) : Prop :=
  match e with
  | E_datagram _ l => Forall (fun s => shows_address em rn s = false) l /\ (em = false \/ (length l <= 1)%nat)
  | E_poll _ _ _ ws => Forall w_ok ws
  | _ => True
  end.

Definition e_recv (e : event) : N := match e with E_datagram len _ => len | _ => 0 end.
Definition e_close (e : event) : N := match e with E_close => 1 | _ => 0 end.

Lemma step_inv : forall a e b o R T C, inv a R T C -> e_ok e -> R + e_recv e < big -> step a e = Some (b, o) ->
  inv b (R + e_recv e) (T + bytes o) (C + e_close e).
Proof.
  intros a e b o R T C [HJ HR HL HP HO] He Hb H. destruct e as [len l|dont batch max ws| | |]; cbn [step e_recv e_close e_ok] in *.
  - injection H as <- <-. destruct He as [He1 He2].
    assert (Hb' : a_recv a + len < big) by lia.
    destruct (datagram_rx a len l HJ He1 Hb' He2) as [J1 A1 B1 S1 P1 O1]. cbn [bytes fold_right].
    split; [exact J1|lia|lia| |].
    + rewrite S1. assert (mtu * phi (a_phase (rx_datagram a len l)) <= mtu * phi (a_phase a)) by (apply N.mul_le_mono_l; exact P1).
      replace (C + 0) with C by lia. lia.
    + intros X. rewrite S1, N.add_0_r. apply HO. apply O1. exact X.
  - assert (Hr : a_recv a < big) by lia.
    destruct (packet_tx _ _ _ _ _ _ _ HJ He Hr HL H) as [J1 R1 L1 P1 O1].
    split; [exact J1|rewrite R1; lia|exact L1|replace (C + 0) with C by lia; lia|].
    intros X. destruct (O1 X) as [X1 X2]. rewrite <- X2. rewrite (HO X1). lia.
  - injection H as <- <-. cbn [bytes fold_right]. rewrite !N.add_0_r.
    destruct a as [e r m p v rv st hs hr k ak]. destruct HJ as [He1 Hrn Hm Hv Hk Hp].
    cbn [a_empty a_random a_mtu a_valid a_key1 a_phase a_ack a_recv a_sent] in *. subst e r m v k.
    unfold app_close. destruct p; try contradiction; pj; (split; pj; [split; pj; auto|lia|lia| |intros; first [discriminate|auto]]);
      pjh HP; try lia.
  - injection H as <- <-. cbn [bytes fold_right]. rewrite !N.add_0_r.
    destruct a as [e r m p v rv st hs hr k ak]. destruct HJ as [He1 Hrn Hm Hv Hk Hp].
    cbn [a_empty a_random a_mtu a_valid a_key1 a_phase a_ack a_recv a_sent] in *. subst e r m v k.
    unfold app_drop. destruct p; try contradiction; pj; (split; pj; [split; pj; auto|lia|lia| |intros; first [discriminate|auto]]);
      pjh HP; try lia.
  - injection H as <- <-. cbn [bytes fold_right]. rewrite !N.add_0_r.
    destruct a as [e r m p v rv st hs hr k ak]. destruct HJ as [He1 Hrn Hm Hv Hk Hp].
    cbn [a_empty a_random a_mtu a_valid a_key1 a_phase a_ack a_recv a_sent] in *. subst e r m v k.
    destruct p; try contradiction; (split; pj; [split; pj; auto|lia|lia| |intros; first [discriminate|auto]]);
      pjh HP; try lia.
Qed.

Lemma bytes_app : forall l m, bytes (l ++ m) = bytes l + bytes m.
Proof. induction l as [|x l IH]; intros m; cbn [app bytes fold_right]; [reflexivity|]. fold (bytes (l ++ m)) (bytes l). rewrite IH. lia. Qed.

Lemma run_inv : forall es a b o R T C, inv a R T C -> Forall e_ok es -> R + bytes (received es) < big ->
  run a es = Some (b, o) -> inv b (R + bytes (received es)) (T + bytes o) (C + closes es).
Proof.
  induction es as [|e es IH]; intros a b o R T C HI He Hb H; cbn [run] in H.
  - injection H as <- <-. cbn [bytes fold_right received closes filter length]. rewrite !N.add_0_r. exact HI.
  - inversion He as [|? ? E1 E2]; subst.
    destruct (step a e) as [[c p]|] eqn:Es; [|discriminate].
    destruct (run c es) as [[d q]|] eqn:Er; [|discriminate]. injection H as <- <-.
    assert (Rv : bytes (received (e :: es)) = e_recv e + bytes (received es)).
    { destruct e; cbn [received e_recv]; try lia; reflexivity. }
    assert (Cv : closes (e :: es) = e_close e + closes es).
    { unfold closes. destruct e; cbn [filter e_close length]; lia. }
    rewrite Rv in *. rewrite Cv.
    assert (Hb1 : R + e_recv e < big) by lia.
    pose proof (step_inv _ _ _ _ _ _ _ HI E1 Hb1 Es) as I1.
    assert (Hb2 : R + e_recv e + bytes (received es) < big) by lia.
    pose proof (IH _ _ _ _ _ _ I1 E2 Hb2 Er) as I2.
    rewrite bytes_app. rewrite !N.add_assoc. exact I2.
Qed.

Lemma init_inv : inv (amp_init em rn mtu false) 0 0 0.
Proof.
  unfold amp_init. split; [split; reflexivity || exact I|pj; lia|pj; lia|pj; lia|reflexivity].
Qed.

Lemma run_init : forall es b o, Forall e_ok es -> bytes (received es) < big ->
  run (amp_init em rn mtu false) es = Some (b, o) -> inv b (bytes (received es)) (bytes o) (closes es).
Proof.
  intros es b o He Hb H. pose proof (run_inv es _ b o 0 0 0 init_inv He) as I. rewrite !N.add_0_l in I. exact (I Hb H).
Qed.

Lemma events_ok : forall es, no_address em rn es -> em = false \/ single es -> probes_below (mtu + E) es -> Forall e_ok es.
Proof.
  intros es Hn Hs Hp. apply Forall_forall. intros [len l|dont batch max ws| | |] Hin; cbn [e_ok]; auto.
  - split.
    + apply Forall_forall. intros s Hs1. exact (Hn _ _ _ Hin Hs1).
    + destruct Hs as [Hs|Hs]; [left; exact Hs|right; exact (Hs _ _ Hin)].
  - apply Forall_forall. intros w Hw X. exact (Hp _ _ _ _ _ Hin Hw X).
Qed.
End Tx.

(** The limit while the handshake lasts. *)
Lemma limit : forall em rn mtu es b o, mtu < big -> bytes (received es) < big ->
  no_address em rn es -> em = false \/ single es -> probes_below mtu es ->
  run (amp_init em rn mtu false) es = Some (b, o) -> in_handshake (a_phase b) = true ->
  bytes o <= 3 * bytes (received es).
Proof.
  intros em rn mtu es b o Hm Hb Hn Hs Hp H Ho.
  assert (H0 : 0 < big) by (unfold big; lia).
  assert (He : Forall (e_ok em rn mtu 0) es) by (apply events_ok; [exact Hn|exact Hs|rewrite N.add_0_r; exact Hp]).
  destruct (run_init em rn mtu 0 Hm H0 es b o He Hb H) as [_ HR HL _ HO].
  rewrite (HO Ho). lia.
Qed.

(** The limit in general. *)
Lemma limit_closing : forall em rn mtu most es b o, mtu <= most -> most < big -> bytes (received es) < big ->
  no_address em rn es -> em = false \/ single es -> probes_below most es ->
  run (amp_init em rn mtu false) es = Some (b, o) ->
  bytes o <= 3 * bytes (received es) + (most - mtu) + mtu * (2 + closes es).
Proof.
  intros em rn mtu most es b o Hm1 Hm2 Hb Hn Hs Hp H.
  assert (H0 : most - mtu < big) by lia. assert (Hm : mtu < big) by lia.
  assert (He : Forall (e_ok em rn mtu (most - mtu)) es)
    by (apply events_ok; [exact Hn|exact Hs|replace (mtu + (most - mtu)) with most by lia; exact Hp]).
  destruct (run_init em rn mtu (most - mtu) Hm H0 es b o He Hb H) as [_ HR HL HP HO].
  lia.
Qed.
