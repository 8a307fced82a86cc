(** Proofs about the reading of a block of transport parameters. *)
From Verif Require Import Base Tac Varint_model Varint_spec Varint_proofs Header_model Header_spec Header_proofs
  Lb_spec Stream_model Tparam_model Tparam_spec Tparam_proofs Tparam2_proofs Tparam3_proofs.

(** Errors are never forgotten. *)
Lemma conn_error_keeps : forall s c, s_error s <> None -> s_error (conn_error s c) <> None.
Proof. intros s c _. apply conn_error_some. Qed.

Lemma varint_keeps : forall s ok v n b s', tp_varint_decode s ok v = (n, b, s') -> s_error s <> None -> s_error s' <> None.
Proof.
  intros s ok v n b s' H Hs. unfold tp_varint_decode in H.
  destruct (varint_decode v) as [[l m]| |]; [destruct ((l =? 0) || negb (l =? blen v))| |];
    injection H as <- <- <-; try exact Hs; apply conn_error_some.
Qed.

Ltac seterr := cbn [rx_s r_s r_present r_ocid r_hcid r_rcid set_rem with_remote with_limits with_reset with_hcid with_vn with_vi with_af with_address s_error] in *.

Lemma switch_keeps : forall fuel g fs r ok t v r' b, rx_switch fuel g fs r ok t v = RNext r' b ->
  s_error (r_s r) <> None -> s_error (r_s r') <> None.
Proof.
  intros fuel g fs r ok t v r' b H Hs. unfold rx_switch, rx_store in H. cbv zeta in H.
  repeat match type of H with
  | (if ?c then _ else _) = _ => destruct c
  | context [tp_varint_decode ?s ?o ?w] =>
      let E := fresh "E" in destruct (tp_varint_decode s o w) as [[? [|]] ?] eqn:E; (apply varint_keeps in E; [|exact Hs])
  | (let (_, _) := ?p in _) = _ => destruct p
  | (match ?x with _ => _ end) = _ => destruct x
  end; try discriminate H; injection H as <- <-; seterr;
  repeat match goal with |- s_error (conn_error _ _) <> None => apply conn_error_some
    | |- s_error (if ?c then _ else _) <> None => destruct c
    | |- s_error (match ?c with _ => _ end) <> None => destruct c end; seterr; try assumption; try apply conn_error_some.
Qed.

Lemma param_keeps : forall fuel g fs r t v r' b, rx_param fuel g fs r t v = RNext r' b ->
  s_error (r_s r) <> None -> s_error (r_s r') <> None.
Proof.
  intros fuel g fs r t v r' b H Hs. unfold rx_param in H. destruct (t <? 64); [destruct (existsb _ _)|];
    (apply switch_keeps in H; [exact H|]); seterr; try exact Hs. apply conn_error_some.
Qed.

Lemma loop_keeps : forall n fuel g fs r bytes r' b, rx_loop n fuel g fs r bytes = RNext r' b ->
  s_error (r_s r) <> None -> s_error (r_s r') <> None.
Proof.
  intro n. induction n as [|n IH]; intros fuel g fs r bytes r' b H Hs; cbn [rx_loop] in H; [discriminate|].
  destruct bytes as [|b0 bytes]. { injection H as <- <-. exact Hs. }
  destruct (_ <? 2). { injection H as <- <-. apply conn_error_some. }
  destruct (varint_decode (b0 :: bytes)) as [[lt t]| |]; try discriminate. cbv zeta in H.
  destruct (varint_decode (skipn _ _)) as [[ll len]| |]; try discriminate.
  destruct (_ || _). { injection H as <- <-. apply conn_error_some. }
  destruct (rx_param fuel g fs r t _) as [r1 [|]|] eqn:P; try discriminate.
  - apply param_keeps in P; [|exact Hs]. exact (IH _ _ _ _ _ _ _ H P).
  - injection H as <- <-. apply param_keeps in P; [|exact Hs]. exact P.
Qed.

(** Failures without a recorded error come from the choice of a version. *)

Lemma switch_fails : forall fuel g r t v, bytes_ok v -> (0 < fuel)%nat -> index_ok (s_vi (r_s r)) ->
  match rx_switch fuel g (g_client g) r true t v with
  | RNext r' true => True
  | RNext r' false => s_error (r_s r') <> None \/ bad_version g (version_of (s_vi (r_s r))) t v
  | RHang => bad_version g (version_of (s_vi (r_s r))) t v
  end.
Proof.
  intros fuel g r t v Hv Hf Hi. 
  assert (V : t = 17 -> match rx_switch fuel g (g_client g) r true t v with
  | RNext r' true => True
  | RNext r' false => s_error (r_s r') <> None \/ bad_version g (version_of (s_vi (r_s r))) t v
  | RHang => bad_version g (version_of (s_vi (r_s r))) t v
  end).
  { intros ->. switch_at. destruct (tp_version_decode _ _ v) as [e|o] eqn:D. { left. apply conn_error_some. }
    destruct o as [[vn i]|]; [|exact I]. destruct (negb (vn =? 0) && negb _) eqn:C; [|exact I].
    cbn [with_vn s_vi] in *.
    assert (B : process_version_upgrade fuel (s_vi (r_s r)) i <> UYes -> bad_version g (version_of (s_vi (r_s r))) 17 v).
    { intro U. destruct (g_client g) eqn:Cl.
      { exfalso. destruct (vdec_server (version_of (s_vi (r_s r))) v Hv) as [[_ E]|[_ (e & E)]]; congruence. }
      destruct (vdec_client_inv _ _ _ Hv D) as (x & Hx & Ho & Hix & Hvx). split; [reflexivity|]. split; [exact Cl|].
      exists x. split; [exact Hx|]. intro K. apply U. apply upgrade_yes; try assumption. rewrite Hvx. exact K. }
    destruct (process_version_upgrade fuel (s_vi (r_s r)) i); [exact I|right|]; apply B; discriminate. }
  destruct (N.eq_dec t 17) as [h|h]; [exact (V h)|clear V].
  unfold rx_switch, rx_store. cbv zeta.
  repeat match goal with
  | |- context [if t =? ty_version then _ else _] => destruct (N.eqb_spec t ty_version); [exfalso; apply h; assumption|]
  | |- match (if ?c then _ else _) with _ => _ end => destruct c
  | |- context [tp_varint_decode ?s ?o v] =>
      destruct (tp_varint_spec s o v Hv) as [(? & ? & ->)|[? (? & ->)]]
  | |- context [let (_, _) := ?p in _] => destruct p
  | |- match (match ?c with _ => _ end) with _ => _ end => destruct c
  end; try exact I; try (left; seterr; apply conn_error_some).
  all: repeat match goal with |- match ?b with _ => _ end => destruct b end; try exact I; try (left; seterr; apply conn_error_some).
  left. cbn [rx_s r_s]. destruct (0 <? _); seterr; apply conn_error_some.
Qed.

(** The sequence of the parameters. *)
Definition mark (r : rx) (t : N) : rx :=
  if t <? 64 then mk_rx (r_s r) (t :: r_present r) (r_ocid r) (r_hcid r) (r_rcid r) else r.

Inductive steps (g : tcfg) : rx -> list (N * list N) -> rx -> Prop :=
| st_nil : forall r, steps g r [] r
| st_cons : forall r t v r1 ps r', (t < 64 -> ~ In t (r_present r)) ->
    good_param false (g_client g) (version_of (s_vi (r_s r))) (g_remote_cid g) t v ->
    effect g (mark r t) r1 t v -> steps g r1 ps r' -> steps g r ((t, v) :: ps) r'.

Lemma existsb_in : forall t l, existsb (N.eqb t) l = true <-> In t l.
Proof.
  intros t l. rewrite existsb_exists. split.
  - intros (x & Hx & E). apply N.eqb_eq in E. subst. exact Hx.
  - intro H. exists t. split; [exact H|apply N.eqb_refl].
Qed.

Lemma existsb_out : forall t l, existsb (N.eqb t) l = false <-> ~ In t l.
Proof. intros t l. rewrite <- existsb_in. destruct (existsb (N.eqb t) l); split; congruence. Qed.

Lemma mark_s : forall r t, r_s (mark r t) = r_s r.
Proof. intros r t. unfold mark. destruct (t <? 64); reflexivity. Qed.

(** One parameter. *)
Lemma param_fresh : forall fuel g fs r t v, (t < 64 -> ~ In t (r_present r)) ->
  rx_param fuel g fs r t v = rx_switch fuel g fs (mark r t) true t v.
Proof.
  intros fuel g fs r t v H. unfold rx_param, mark. destruct (N.ltb_spec t 64) as [h|h]; [|reflexivity].
  rewrite (proj2 (existsb_out _ _)); [reflexivity|]. apply H. exact h.
Qed.

Lemma param_dup : forall fuel g fs r t v, t < 64 -> In t (r_present r) ->
  rx_param fuel g fs r t v = rx_switch fuel g fs (rx_s r (conn_error (r_s r) 8)) false t v.
Proof.
  intros fuel g fs r t v h H. unfold rx_param. destruct (N.ltb_spec t 64); [|lia].
  rewrite (proj2 (existsb_in _ _) H). reflexivity.
Qed.

Definition fresh_type (r : rx) (t : N) : Prop := t < 64 -> ~ In t (r_present r).
Lemma fresh_dec : forall r t, fresh_type r t \/ (t < 64 /\ In t (r_present r)).
Proof.
  intros r t. unfold fresh_type. destruct (N.ltb_spec t 64) as [h|h]; [|left; intro; lia].
  destruct (in_dec N.eq_dec t (r_present r)) as [i|i]; [right; auto|left; auto].
Qed.

(** Blocks. *)
Lemma skip_exact : forall (a b : list N), skipn (N.to_nat (blen a)) (a ++ b) = b.
Proof. intros a b. unfold blen. rewrite Nat2N.id, skipn_app, skipn_all, Nat.sub_diag. reflexivity. Qed.
Lemma first_exact : forall (a b : list N), firstn (N.to_nat (blen a)) (a ++ b) = a.
Proof. intros a b. unfold blen. rewrite Nat2N.id, firstn_app, firstn_all, Nat.sub_diag. apply app_nil_r. Qed.

Lemma varint_split : forall n m p q a b, is_varint n p -> is_varint m q -> bytes_ok a -> bytes_ok b -> p ++ a = q ++ b -> n = m /\ p = q /\ a = b.
Proof.
  intros n m p q a b Hp Hq Ha Hb E. pose proof (is_varint_decode n p a Hp Ha) as D. rewrite E, (is_varint_decode m q b Hq Hb) in D.
  apply some_pair_inj in D. destruct D as [-> ->]. split; [reflexivity|]. split; [|reflexivity]. apply app_inv_tail in E. exact E.
Qed.

Lemma loop_step : forall bytes, bytes_ok bytes -> bytes <> [] ->
  (exists t v rest bt bl, bytes = bt ++ bl ++ v ++ rest /\ is_varint t bt /\ is_varint (blen v) bl /\ bytes_ok v /\ bytes_ok rest /\
     forall n fuel g fs r, rx_loop (S n) fuel g fs r bytes =
       match rx_param fuel g fs r t v with RNext r true => rx_loop n fuel g fs r rest | res => res end) \/
  ((forall ps, ~ params bytes ps) /\
   forall n fuel g fs r, exists r', rx_loop (S n) fuel g fs r bytes = RNext r' false /\ s_error (r_s r') <> None).
Proof.
  intros bytes Hb Hne.
  assert (NOP : (forall t v bt bl rest, is_varint t bt -> is_varint (blen v) bl -> bytes <> bt ++ bl ++ v ++ rest) -> forall ps, ~ params bytes ps).
  { intros H ps P. inversion P; subst; [congruence|]. exact (H t v bt bl rest ltac:(assumption) ltac:(assumption) eq_refl). }
  destruct (N.ltb_spec (blen bytes) 2) as [h2|h2].
  { right. split.
    - apply NOP. intros t v bt bl rest H1 H2 E. apply is_varint_pos in H1. apply is_varint_pos in H2. rewrite E, !blen_app in h2. lia.
    - intros n fuel g fs r. cbn [rx_loop]. destruct bytes as [|b bytes]; [congruence|]. rewrite (proj2 (N.ltb_lt _ _) h2).
      eexists. split; [reflexivity|]. apply conn_error_some. }
  assert (UNF : forall n fuel g fs r, rx_loop (S n) fuel g fs r bytes =
        match varint_decode bytes with
        | Ok (lt, t) =>
          let b1 := skipn (N.to_nat lt) bytes in
          match varint_decode b1 with
          | Ok (ll, len) =>
            let b2 := skipn (N.to_nat ll) b1 in
            if (lt =? 0) || (ll =? 0) || (blen b2 <? len) then RNext (rx_s r (conn_error (r_s r) 8)) false
            else
              match rx_param fuel g fs r t (firstn (N.to_nat len) b2) with
              | RNext r true => rx_loop n fuel g fs r (skipn (N.to_nat len) b2)
              | res => res
              end
          | _ => RHang
          end
        | _ => RHang
        end).
  { intros n fuel g fs r. cbn [rx_loop]. destruct bytes as [|b bytes]; [congruence|].
    assert (C : (blen (b :: bytes) <? 2) = false) by (apply N.ltb_ge; exact h2). rewrite C. reflexivity. }
  destruct (varint_decode_spec bytes Hb) as [(t & bt & r1 & E1 & Ht & D1)|[Hno D1]].
  2: { right. split.
    - apply NOP. intros t v bt bl rest H1 H2 E. exact (Hno t bt (bl ++ v ++ rest) E H1).
    - intros n fuel g fs r. rewrite UNF, D1. cbv zeta. cbn [N.to_nat skipn]. rewrite D1. cbn [N.eqb orb].
      eexists. split; [reflexivity|]. apply conn_error_some. }
  assert (Hr1 : bytes_ok r1) by (rewrite E1 in Hb; exact (forall_app_r _ _ _ _ Hb)).
  assert (L1 : 1 <= blen bt) by (apply is_varint_pos in Ht; lia).
  assert (S1 : skipn (N.to_nat (blen bt)) bytes = r1) by (rewrite E1; apply skip_exact).
  destruct (varint_decode_spec r1 Hr1) as [(len & bl & r2 & E2 & Hl & D2)|[Hno D2]].
  2: { right. split.
    - apply NOP. intros t' v bt' bl rest H1 H2 E. rewrite E1 in E.
      assert (bytes_ok (bl ++ v ++ rest)). { rewrite E1 in Hb. rewrite E in Hb. exact (forall_app_r _ _ _ _ Hb). }
      destruct (varint_split _ _ _ _ _ _ Ht H1 Hr1 H E) as (_ & _ & E3). exact (Hno _ bl _ E3 H2).
    - intros n fuel g fs r. rewrite UNF, D1. cbv zeta. rewrite S1, D2. rewrite (proj2 (N.eqb_neq (blen bt) 0)) by lia. cbn [N.eqb orb].
      eexists. split; [reflexivity|]. apply conn_error_some. }
  assert (Hr2 : bytes_ok r2) by (rewrite E2 in Hr1; exact (forall_app_r _ _ _ _ Hr1)).
  assert (L2 : 1 <= blen bl) by (apply is_varint_pos in Hl; lia).
  assert (S2 : skipn (N.to_nat (blen bl)) r1 = r2) by (rewrite E2; apply skip_exact).
  destruct (N.ltb_spec (blen r2) len) as [h|h].
  { right. split.
    - apply NOP. intros t' v bt' bl' rest H1 H2 E. rewrite E1 in E.
      assert (bytes_ok (bl' ++ v ++ rest)). { rewrite E1 in Hb. rewrite E in Hb. exact (forall_app_r _ _ _ _ Hb). }
      destruct (varint_split _ _ _ _ _ _ Ht H1 Hr1 H E) as (_ & _ & E3). rewrite E2 in E3.
      assert (bytes_ok (v ++ rest)) by exact (forall_app_r _ _ _ _ H).
      destruct (varint_split _ _ _ _ _ _ Hl H2 Hr2 H0 E3) as (E4 & _ & E5). subst len. rewrite E5, blen_app in h. lia.
    - intros n fuel g fs r. rewrite UNF, D1. cbv zeta. rewrite S1, D2, S2. rewrite (proj2 (N.ltb_lt _ _) h), !Bool.orb_true_r.
      eexists. split; [reflexivity|]. apply conn_error_some. }
  left. exists t, (firstn (N.to_nat len) r2), (skipn (N.to_nat len) r2), bt, bl.
  assert (Lv : blen (firstn (N.to_nat len) r2) = len). { unfold blen in *. rewrite firstn_length. lia. }
  split; [rewrite firstn_skipn, E1, E2; reflexivity|]. split; [exact Ht|]. split; [rewrite Lv; exact Hl|].
  rewrite <- (firstn_skipn (N.to_nat len) r2) in Hr2.
  split; [exact (forall_app_l _ _ _ _ Hr2)|]. split; [exact (forall_app_r _ _ _ _ Hr2)|].
  intros n fuel g fs r. rewrite UNF, D1. cbv zeta. rewrite S1, D2, S2.
  rewrite (proj2 (N.eqb_neq (blen bt) 0)), (proj2 (N.eqb_neq (blen bl) 0)), (proj2 (N.ltb_ge _ _) h) by lia. reflexivity.
Qed.

Lemma params_head : forall t v rest bt bl ps, is_varint t bt -> is_varint (blen v) bl -> bytes_ok v -> bytes_ok rest ->
  params (bt ++ bl ++ v ++ rest) ps -> exists ps', ps = (t, v) :: ps' /\ params rest ps'.
Proof.
  intros t v rest bt bl ps Ht Hl Hv Hr P.
  assert (B2 : bytes_ok (v ++ rest)) by (apply Forall_app; auto).
  assert (B1 : bytes_ok (bl ++ v ++ rest)) by (apply Forall_app; split; [destruct Hl as (c & _ & _ & _ & _ & H); exact H|exact B2]).
  inversion P as [E|t' v' bt' bl' rest' ps' Ht' Hl' P' E]; subst.
  - exfalso. apply is_varint_pos in Ht. destruct bt; [cbn in Ht; lia|discriminate].
  - assert (B1' : bytes_ok (bl' ++ v' ++ rest')).
    { assert (X : bytes_ok (bt' ++ bl' ++ v' ++ rest')). { rewrite E. apply Forall_app. split; [destruct Ht as (c & _ & _ & _ & _ & H); exact H|exact B1]. }
      exact (forall_app_r _ _ _ _ X). }
    assert (B2' : bytes_ok (v' ++ rest')) by exact (forall_app_r _ _ _ _ B1').
    destruct (varint_split _ _ _ _ _ _ Ht' Ht B1' B1 E) as (-> & _ & E1).
    destruct (varint_split _ _ _ _ _ _ Hl' Hl B2' B2 E1) as (Elen & _ & E2).
    assert (Ev : v' = v /\ rest' = rest).
    { assert (X : length v' = length v) by (unfold blen in Elen; lia). clear - E2 X. revert v E2 X. induction v' as [|a v' IH]; intros [|b v] E2 X; cbn in *; try lia; [auto|].
      injection E2 as -> E2. destruct (IH v E2) as [-> ->]; [lia|auto]. }
    destruct Ev as [-> ->]. exists ps'. split; [reflexivity|exact P'].
Qed.

(** Endless loops come from the choice of a version. *)
Lemma version_index_ok : forall cl cur v vn i, tp_version_decode cl cur v = inr (Some (vn, i)) -> bytes_ok v -> cl = false /\ index_ok i.
Proof.
  intros cl cur v vn i D Hv. destruct cl.
  - exfalso. destruct (vdec_server cur v Hv) as [[_ E]|[_ (e & E)]]; congruence.
  - destruct (vdec_client_inv _ _ _ Hv D) as (x & _ & _ & Hi & _). auto.
Qed.

Lemma switch_index : forall fuel g fs r ok t v r' b, rx_switch fuel g fs r ok t v = RNext r' b -> bytes_ok v ->
  index_ok (s_vi (r_s r)) -> index_ok (s_vi (r_s r')).
Proof.
  intros fuel g fs r ok t v r' b H Hv Hi. unfold rx_switch, rx_store in H. cbv zeta in H.
  repeat match type of H with
  | (if ?c then _ else _) = _ => destruct c
  | context [tp_varint_decode ?s ?o ?w] =>
      destruct (tp_varint_spec s o w Hv) as [(? & ? & Q)|[? (? & Q)]]; rewrite Q in H; clear Q
  | context [tp_version_decode ?a ?c ?w] => let D := fresh "D" in destruct (tp_version_decode a c w) as [?|[[? ?]|]] eqn:D;
      [|apply version_index_ok in D; [|exact Hv]|]
  | (let (_, _) := ?p in _) = _ => destruct p
  | (match ?x with _ => _ end) = _ => destruct x
  end; try discriminate H; injection H as <- <-; cbn [rx_s r_s set_rem with_remote with_limits with_reset with_hcid with_vn with_vi with_address conn_error s_vi]; try exact Hi; try tauto.
  all: match goal with |- index_ok (s_vi (if ?c then _ else _)) => destruct c end; exact Hi.
Qed.

Lemma switch_hang : forall fuel g r ok t v, rx_switch fuel g (g_client g) r ok t v = RHang -> bytes_ok v -> (0 < fuel)%nat ->
  index_ok (s_vi (r_s r)) -> bad_version g (version_of (s_vi (r_s r))) t v.
Proof.
  intros fuel g r ok t v H Hv Hf Hi. pose proof (switch_fails fuel g r t v Hv Hf Hi) as F.
  assert (E : rx_switch fuel g (g_client g) r true t v = RHang); [|rewrite E in F; exact F]. clear F.
  unfold rx_switch, rx_store in *. cbv zeta in *.
  repeat match type of H with
  | (if ?c then _ else _) = _ => destruct c
  | context [tp_varint_decode ?s ok ?w] =>
      let Q := fresh in destruct (tp_varint_spec s ok w Hv) as [(? & ? & Q)|[? (? & Q)]]; rewrite Q in H; clear Q
  | (let (_, _) := ?p in _) = _ => destruct p
  | (match ?x with _ => _ end) = _ => destruct x
  end; try discriminate H; exact H.
Qed.


Lemma some_bad_here : forall g bt bl v rest t i, is_varint t bt -> is_varint (blen v) bl -> index_ok i -> bad_version g (version_of i) t v ->
  some_bad_version g (bt ++ bl ++ v ++ rest).
Proof.
  intros g bt bl v rest t i Ht Hl Hi B. exists (bt ++ bl ++ v), rest, [], t, v, i. split; [rewrite <- !app_assoc; reflexivity|]. split; [|auto].
  cbn [app]. rewrite <- (app_nil_r v) at 1. apply ps_cons; [exact Ht|exact Hl|constructor].
Qed.

Lemma some_bad_later : forall g bt bl v rest t, is_varint t bt -> is_varint (blen v) bl -> some_bad_version g rest ->
  some_bad_version g (bt ++ bl ++ v ++ rest).
Proof.
  intros g bt bl v rest t Ht Hl (head & tl & pre & t' & v' & i & -> & P & Hi & B).
  exists (bt ++ bl ++ v ++ head), tl, ((t, v) :: pre), t', v', i. split; [rewrite <- !app_assoc; reflexivity|]. split; [|auto].
  cbn [app]. apply ps_cons; assumption.
Qed.

Lemma loop_hang : forall n fuel g r bytes, bytes_ok bytes -> (length bytes < n)%nat -> (0 < fuel)%nat ->
  index_ok (s_vi (r_s r)) -> rx_loop n fuel g (g_client g) r bytes = RHang -> some_bad_version g bytes.
Proof.
  intro n. induction n as [|n IH]; intros fuel g r bytes Hb Hn Hf Hi H; [lia|].
  destruct bytes as [|b0 bytes0] eqn:Eb; [discriminate|]. rewrite <- Eb in *.
  destruct (loop_step bytes Hb ltac:(rewrite Eb; discriminate)) as [(t & v & rest & bt & bl & E & Ht & Hl & Hv & Hr & HL)|[Hno HL]].
  2: { destruct (HL n fuel g (g_client g) r) as (r' & HL' & _). congruence. }
  rewrite HL in H.
  assert (Hlen : (length rest < n)%nat).
  { rewrite E, !app_length in Hn. apply is_varint_pos in Ht. apply is_varint_pos in Hl. unfold blen in *. lia. }
  assert (Hsw : exists r0 ok, rx_param fuel g (g_client g) r t v = rx_switch fuel g (g_client g) r0 ok t v /\ s_vi (r_s r0) = s_vi (r_s r)).
  { unfold rx_param. destruct (t <? 64); [destruct (existsb _ _)|]; eexists; eexists; split; reflexivity. }
  destruct Hsw as (r0 & ok & Esw & Evi). rewrite Esw in H. rewrite <- Evi in Hi.
  rewrite E. destruct (rx_switch fuel g (g_client g) r0 ok t v) as [r1 [|]|] eqn:W; try discriminate.
  - apply switch_index in W; [|exact Hv|exact Hi]. eapply some_bad_later; [exact Ht|exact Hl|]. exact (IH _ _ _ _ Hr Hlen Hf W H).
  - apply switch_hang in W; try assumption. eapply some_bad_here; eassumption.
Qed.

(** The reading of a block: all parameters valid, or a failure. *)
Definition refusal (g : tcfg) (r : rx) (bytes : list N) (res : rres) : Prop :=
  match res with
  | RNext r' true => s_error (r_s r') <> None
  | RNext r' false => s_error (r_s r') <> None \/ some_bad_version g bytes
  | RHang => some_bad_version g bytes
  end.

Lemma steps_index : forall g r t v r1, index_ok (s_vi (r_s r)) -> effect g (mark r t) r1 t v -> index_ok (s_vi (r_s r1)).
Proof.
  intros g r t v r1 Hi E. pose proof (e_vi _ _ _ _ _ E) as V. rewrite mark_s in V. destruct (_ && _); [tauto|]. rewrite V. exact Hi.
Qed.

(** Validity of the parameters one after the other. *)
Fixpoint okl (g : tcfg) (present : list N) (cur : N) (ps : list (N * list N)) : Prop :=
  match ps with
  | [] => True
  | (t, v) :: ps => (t < 64 -> ~ In t present) /\ good_param false (g_client g) cur (g_remote_cid g) t v /\
      okl g (if t <? 64 then t :: present else present) cur ps
  end.

Definition tied (r : rx) (cur : N) : Prop := version_of (s_vi (r_s r)) = cur \/ In 17 (r_present r).

Lemma good_cur : forall strict fs cur cur' h t v, t <> 17 -> good_param strict fs cur h t v -> good_param strict fs cur' h t v.
Proof.
  intros strict fs cur cur' h t v Ht G. destruct G; try (exfalso; apply Ht; reflexivity);
    [eapply gp_plain|eapply gp_packet_size|eapply gp_ack_delay|eapply gp_reset_token|eapply gp_flag|eapply gp_preferred
    |eapply gp_preferred_empty|eapply gp_cid|eapply gp_hcid|eapply gp_loss_bit|eapply gp_min_ack_delay|eapply gp_time_stamp|eapply gp_bdp
    |eapply gp_address|eapply gp_unknown]; eassumption.
Qed.

Lemma good_tied : forall g r cur t v, tied r cur -> (t < 64 -> ~ In t (r_present r)) ->
  (good_param false (g_client g) cur (g_remote_cid g) t v <->
   good_param false (g_client g) (version_of (s_vi (r_s r))) (g_remote_cid g) t v).
Proof.
  intros g r cur t v [<- |H17] Hfr; [reflexivity|].
  assert (t <> 17) by (intros ->; apply Hfr; [lia|exact H17]).
  split; apply good_cur; assumption.
Qed.

Lemma mark_present : forall r t, r_present (mark r t) = if t <? 64 then t :: r_present r else r_present r.
Proof. intros r t. unfold mark. destruct (t <? 64); reflexivity. Qed.

Lemma tied_step : forall g r cur t v r1, tied r cur -> effect g (mark r t) r1 t v -> tied r1 cur.
Proof.
  intros g r cur t v r1 [H|H] E; unfold tied; rewrite (e_present _ _ _ _ _ E), mark_present.
  - destruct (N.eq_dec t 17) as [->|n]; [right; left; reflexivity|]. left.
    pose proof (e_vi _ _ _ _ _ E) as V. rewrite (proj2 (N.eqb_neq _ _) n) in V. cbn [andb] in V. rewrite V, mark_s. exact H.
  - right. destruct (t <? 64); [right|]; exact H.
Qed.

Lemma loop_cases : forall n fuel g r bytes cur, bytes_ok bytes -> (length bytes < n)%nat -> (0 < fuel)%nat ->
  index_ok (s_vi (r_s r)) -> s_error (r_s r) = None -> tied r cur ->
  (exists ps r', params bytes ps /\ okl g (r_present r) cur ps /\ steps g r ps r' /\ rx_loop n fuel g (g_client g) r bytes = RNext r' true /\
     s_error (r_s r') = None) \/
  ((forall ps, params bytes ps -> ~ okl g (r_present r) cur ps) /\ refusal g r bytes (rx_loop n fuel g (g_client g) r bytes)).
Proof.
  intro n. induction n as [|n IH]; intros fuel g r bytes cur Hb Hn Hf Hi He HT; [lia|].
  destruct bytes as [|b0 bytes0] eqn:Eb.
  { left. exists [], r. split; [constructor|]. split; [exact I|]. split; [constructor|]. split; [reflexivity|exact He]. }
  rewrite <- Eb in *.
  destruct (loop_step bytes Hb ltac:(rewrite Eb; discriminate)) as [(t & v & rest & bt & bl & E & Ht & Hl & Hv & Hr & HL)|[Hno HL]].
  2: { right. destruct (HL n fuel g (g_client g) r) as (r' & -> & He'). split; [intros ps P _; exact (Hno ps P)|left; exact He']. }
  assert (Hlen : (length rest < n)%nat).
  { rewrite E, !app_length in Hn. apply is_varint_pos in Ht. apply is_varint_pos in Hl. unfold blen in *. lia. }
  (* a failure recorded here stays *)
  assert (ERR : forall r0 ok r1 ok1, rx_param fuel g (g_client g) r t v = rx_switch fuel g (g_client g) r0 ok t v ->
    rx_switch fuel g (g_client g) r0 ok t v = RNext r1 ok1 -> s_error (r_s r1) <> None ->
    refusal g r bytes (rx_loop (S n) fuel g (g_client g) r bytes)).
  { intros r0 ok r1 ok1 P W K. destruct (rx_loop (S n) fuel g (g_client g) r bytes) as [r2 ok2|] eqn:W2.
    - assert (s_error (r_s r2) <> None).
      { rewrite HL, P, W in W2. destruct ok1; [exact (loop_keeps _ _ _ _ _ _ _ _ W2 K)|injection W2 as <- <-; exact K]. }
      destruct ok2; [exact H|left; exact H].
    - apply loop_hang in W2; assumption. }
  assert (HP : forall ps, params bytes ps -> exists ps', ps = (t, v) :: ps' /\ params rest ps').
  { intros ps P. rewrite E in P. exact (params_head _ _ _ _ _ _ Ht Hl Hv Hr P). }
  destruct (fresh_dec r t) as [Hfr|[H64 Hin]].
  2: { right. split.
    - intros ps P S. destruct (HP ps P) as (ps' & -> & _). exact (proj1 S H64 Hin).
    - pose proof (param_dup fuel g (g_client g) r t v H64 Hin) as PD.
      destruct (rx_switch fuel g (g_client g) (rx_s r (conn_error (r_s r) 8)) false t v) as [r1 ok|] eqn:W.
      + eapply ERR; [rewrite PD; symmetry; exact W|exact W|]. apply switch_keeps in W; [exact W|]; seterr; apply conn_error_some.
      + rewrite HL, PD. cbn [refusal]. rewrite E. apply switch_hang in W; try assumption. eapply some_bad_here; eassumption. }
  pose proof (param_fresh fuel g (g_client g) r t v Hfr) as PF.
  assert (Hi0 : index_ok (s_vi (r_s (mark r t)))) by (rewrite mark_s; exact Hi).
  pose proof (switch_fails fuel g (mark r t) t v Hv Hf Hi0) as F.
  destruct (switch_cases fuel g (mark r t) v Hv Hf Hi0 t) as [(G & r1 & W & Eff)|[NG W]]; rewrite mark_s in *.
  - assert (Hi1 : index_ok (s_vi (r_s r1))) by exact (steps_index _ _ _ _ _ Hi Eff).
    assert (He1 : s_error (r_s r1) = None) by (rewrite (e_error _ _ _ _ _ Eff), mark_s; exact He).
    rewrite HL, PF, W.
    pose proof (e_present _ _ _ _ _ Eff) as EP. rewrite mark_present in EP.
    destruct (IH fuel g r1 rest cur Hr Hlen Hf Hi1 He1 (tied_step _ _ _ _ _ _ HT Eff)) as [(ps & r' & P & O & S & L & He')|[Hno L]]; rewrite EP in *.
    + left. exists ((t, v) :: ps), r'. split; [rewrite E; apply ps_cons; assumption|].
      split; [split; [exact Hfr|split; [apply (good_tied g r cur); assumption|exact O]]|]. split; [econstructor; eassumption|auto].
    + right. split.
      * intros ps P O. destruct (HP ps P) as (ps' & -> & P'). destruct O as (_ & _ & O). exact (Hno ps' P' O).
      * destruct (rx_loop n fuel g (g_client g) r1 rest) as [r2 [|]|]; cbn [refusal] in *; [exact L| |];
          [destruct L as [L|L]; [left; exact L|right]|]; rewrite E; eapply some_bad_later; eassumption.
  - right. split.
    + intros ps P O. destruct (HP ps P) as (ps' & -> & P'). destruct O as (_ & G & _). apply NG. apply (good_tied g r cur); assumption.
    + destruct (rx_switch fuel g (g_client g) (mark r t) true t v) as [r1 [|]|] eqn:W1.
      * eapply ERR; [rewrite PF; symmetry; exact W1|exact W1|]. apply (W r1). reflexivity.
      * destruct F as [F|F]; [eapply ERR; [rewrite PF; symmetry; exact W1|exact W1|exact F]|].
        rewrite HL, PF. right. rewrite E. eapply some_bad_here; eassumption.
      * rewrite HL, PF. cbn [refusal]. rewrite E. eapply some_bad_here; eassumption.
Qed.

(** Validity of a list of parameters. *)
Lemma okl_iff : forall g cur ps present, okl g present cur ps <->
  NoDup (filter (fun t => t <? 64) (map fst ps)) /\ (forall t, In t (filter (fun t => t <? 64) (map fst ps)) -> ~ In t present) /\
  Forall (fun p => good_param false (g_client g) cur (g_remote_cid g) (fst p) (snd p)) ps.
Proof.
  intros g cur ps. induction ps as [|[t v] ps IH]; intro present.
  - cbn. split; [intros _; split; [constructor|split; [intros t []|constructor]]|auto].
  - cbn [okl map fst filter]. rewrite IH. destruct (N.ltb_spec t 64) as [h|h].
    + split.
      * intros (H1 & H2 & H3 & H4 & H5). split; [constructor; [|exact H3]|].
        { intro Hin. exact (H4 t Hin (or_introl eq_refl)). }
        split; [|constructor; assumption]. intros x [<-|Hx]; [exact (H1 h)|]. intro Hp. exact (H4 x Hx (or_intror Hp)).
      * intros (H1 & H2 & H3). inversion H1; subst. inversion H3; subst. split; [intros _; exact (H2 t (or_introl eq_refl))|].
        split; [assumption|]. split; [assumption|]. split; [|assumption]. intros x Hx [<-|Hp]; [contradiction|]. exact (H2 x (or_intror Hx) Hp).
    + split.
      * intros (_ & H2 & H3 & H4 & H5). split; [exact H3|]. split; [exact H4|constructor; assumption].
      * intros (H1 & H2 & H3). inversion H3; subst. split; [lia|]. split; [assumption|]. split; [assumption|]. split; assumption.
Qed.
