(** Refusal of forbidden types, agreement of skipping with decoding, round trip
    of the written frames. *)
From Verif Require Import Base Tac Varint_model Varint_spec Varint_proofs Sack_model Ack_model
  Ack2_proofs Frames_model Frames_spec Frames_proofs Frames2_proofs.

Lemma head_type_small : forall b l, b < 64 -> frames_varint_decode (b :: l) = Some (b, l).
Proof.
  intros b l Hb.
  assert (H : varint_bytes b = [b]).
  { unfold varint_bytes. replace (b <? 16384) with true by lia. replace (b <? 64) with true by lia.
    unfold u8. rewrite N.mod_small by lia. reflexivity. }
  change (b :: l) with ([b] ++ l). rewrite <- H. apply frames_varint_decode_bytes. unfold two62. lia.
Qed.

Lemma stream_type_range : forall b, is_stream_type b = true -> 8 <= b <= 15.
Proof.
  intros b H. unfold is_stream_type in H. apply N.eqb_eq in H.
  change (N.lxor ft_stream_min ft_stream_max) with (N.ones 3) in H.
  rewrite N.ldiff_ones_r in H. rewrite N.shiftl_mul_pow2, N.shiftr_div_pow2 in H.
  change (2 ^ 3) with 8 in H. unfold ft_stream_min in H. lia.
Qed.

Lemma in_stream_app : forall b, 8 <= b <= 15 -> In b types_app.
Proof.
  intros b H. unfold types_app. cbn [In].
  assert (b = 8 \/ b = 9 \/ b = 10 \/ b = 11 \/ b = 12 \/ b = 13 \/ b = 14 \/ b = 15) by lia.
  repeat match goal with H : _ \/ _ |- _ => destruct H as [H|H] end; subst b; tauto.
Qed.

Lemma memb_in : forall t l, existsb (N.eqb t) l = true -> In t l.
Proof.
  intros t l H. apply existsb_exists in H. destruct H as [x [H1 H2]]. apply N.eqb_eq in H2. subst x.
  exact H1.
Qed.

(** In the extension branch the type is either known or refused. *)
Lemma extension_forbidden : forall S (h : handlers S) o epoch b t s l0 l,
  (epoch = 1 \/ epoch = 3) -> ~ type_permitted epoch t ->
  exists ft, decode_extension h o epoch b t s l0 l = Halt (h_error h s err_protocol_violation ft).
Proof.
  intros S h o epoch b t s l0 l He Hf. unfold decode_extension.
  destruct ((epoch =? epoch_0rtt) && negb (t =? ft_bdp)) eqn:E0; [exists b; reflexivity|].
  assert (H3 : In t types_1rtt -> False).
  { intro Hin. destruct He as [He|He].
    - subst epoch. apply andb_false_iff in E0. destruct E0 as [E0|E0]; [discriminate|].
      apply negb_false_iff, N.eqb_eq in E0. subst t. cbn in Hin.
      repeat (destruct Hin as [Hin|Hin]; [discriminate|]). contradiction.
    - apply Hf. unfold type_permitted. clear - Hin He. tauto. }
  assert (Ha : In t types_app -> False).
  { intro Hin. apply Hf. unfold type_permitted. clear - Hin He. tauto. }
  Ltac known T H := exfalso; apply H; apply N.eqb_eq in T; rewrite T; apply memb_in; reflexivity.
  destruct (t =? ft_ack_frequency) eqn:T1; [known T1 H3|].
  destruct (t =? ft_immediate_ack) eqn:T2; [known T2 H3|].
  destruct (t =? ft_time_stamp) eqn:T3; [known T3 H3|].
  destruct (t =? ft_path_ack) eqn:T4; [known T4 H3|].
  destruct (t =? ft_path_ack_ecn) eqn:T5; [known T5 H3|].
  destruct (t =? ft_path_abandon) eqn:T6; [known T6 H3|].
  destruct (t =? ft_path_backup) eqn:T7; [known T7 H3|].
  destruct (t =? ft_path_available) eqn:T8; [known T8 H3|]. cbn [orb].
  destruct (t =? ft_max_path_id) eqn:T9; [known T9 H3|].
  destruct (t =? ft_paths_blocked) eqn:T10; [known T10 H3|].
  destruct (t =? ft_path_cid_blocked) eqn:T11; [known T11 H3|].
  destruct (t =? ft_path_new_connection_id) eqn:T12; [known T12 H3|].
  destruct (t =? ft_path_retire_connection_id) eqn:T13; [known T13 H3|].
  destruct (t =? ft_bdp) eqn:T14; [known T14 Ha|].
  destruct (t =? ft_observed_address_v4) eqn:T15; [known T15 H3|].
  destruct (t =? ft_observed_address_v6) eqn:T16; [known T16 H3|]. cbn [orb].
  exists t. reflexivity.
Qed.

Lemma one_forbidden : forall S (h : handlers S) o epoch s b l t,
  head_type (b :: l) = Some t -> ~ type_permitted epoch t ->
  exists ft, decode_one h o epoch s b l = Halt (h_error h s err_protocol_violation ft).
Proof.
  intros S h o epoch s b l t Ht Hf. unfold decode_one.
  unfold head_type in Ht. 
  assert (Hsmall : b < 64 -> t = b).
  { intro Hb. rewrite head_type_small in Ht by exact Hb. apply some_inj in Ht. congruence. }
  destruct (is_stream_type b) eqn:Z0.
  { apply stream_type_range in Z0. assert (t = b) by (apply Hsmall; lia). subst t.
    destruct (negb (epoch =? epoch_0rtt) && negb (epoch =? epoch_1rtt)) eqn:E; [exists b; reflexivity|].
    exfalso. apply Hf. right. right. left. split; [apply in_stream_app, Z0|].
    unfold epoch_0rtt, epoch_1rtt in E. clear - E. lia. }
  destruct (b =? ft_ack) eqn:Z1.
  { apply N.eqb_eq in Z1. assert (t = b) by (apply Hsmall; subst b; reflexivity). subst t.
    destruct (epoch =? epoch_0rtt) eqn:E; [exists b; reflexivity|].
    exfalso. apply Hf. right. left. split; [subst b; apply memb_in; reflexivity|]. apply N.eqb_neq in E. exact E. }
  destruct (b =? ft_ack_ecn) eqn:Z2.
  { apply N.eqb_eq in Z2. assert (t = b) by (apply Hsmall; subst b; reflexivity). subst t.
    destruct (epoch =? epoch_0rtt) eqn:E; [exists b; reflexivity|].
    exfalso. apply Hf. right. left. split; [subst b; apply memb_in; reflexivity|]. apply N.eqb_neq in E. exact E. }
  match goal with |- context [if ?c then _ else _] => destruct c eqn:G1 end; [exists b; reflexivity|].
  match goal with |- context [if ?c then _ else _] => destruct c eqn:G2 end; [exists b; reflexivity|].
  assert (Happ : b <> ft_padding -> b <> ft_ping -> b <> ft_connection_close -> b <> ft_crypto_hs ->
    epoch = 1 \/ epoch = 3).
  { intros. unfold epoch_0rtt, epoch_1rtt in G1. clear - G1 H H0 H1 H2. lia. }
  assert (Hno : b = ft_crypto_hs \/ b = ft_handshake_done \/ b = ft_new_token \/ b = ft_path_response
    \/ b = ft_retire_connection_id -> epoch <> 1).
  { intros H. unfold epoch_0rtt in G2. clear - G2 H. lia. }
  clear G1 G2.
  assert (Hall : b < 64 -> In b types_all -> False).
  { intros Hb Hin. apply Hf. rewrite (Hsmall Hb). left. exact Hin. }
  assert (Hap : b < 64 -> In b types_app -> (epoch = 1 \/ epoch = 3) -> False).
  { intros Hb Hin He. apply Hf. rewrite (Hsmall Hb). unfold type_permitted. clear - Hin He. tauto. }
  unfold decode_by_type.
  Ltac all_epochs T H := exfalso; apply N.eqb_eq in T; apply H; rewrite T; [reflexivity|apply memb_in; reflexivity].
  Ltac app_epochs T H Happ := exfalso; apply N.eqb_eq in T; apply H;
    [rewrite T; reflexivity|rewrite T; apply memb_in; reflexivity|apply Happ; rewrite T; discriminate].
  destruct (b =? ft_padding) eqn:T0; [all_epochs T0 Hall|].
  destruct (b =? ft_reset_stream) eqn:T1; [app_epochs T1 Hap Happ|].
  destruct (b =? ft_connection_close) eqn:T2; [all_epochs T2 Hall|].
  destruct (b =? ft_application_close) eqn:T3; [app_epochs T3 Hap Happ|].
  destruct (b =? ft_max_data) eqn:T4; [app_epochs T4 Hap Happ|].
  destruct (b =? ft_max_stream_data) eqn:T5; [app_epochs T5 Hap Happ|].
  destruct (b =? ft_max_streams_bidir) eqn:T6; [app_epochs T6 Hap Happ|].
  destruct (b =? ft_max_streams_unidir) eqn:T6b; [app_epochs T6b Hap Happ|]. cbn [orb].
  destruct (b =? ft_ping) eqn:T7; [all_epochs T7 Hall|].
  destruct (b =? ft_data_blocked) eqn:T8; [app_epochs T8 Hap Happ|].
  destruct (b =? ft_stream_data_blocked) eqn:T9; [app_epochs T9 Hap Happ|].
  destruct (b =? ft_streams_blocked_bidir) eqn:T10; [app_epochs T10 Hap Happ|].
  destruct (b =? ft_streams_blocked_unidir) eqn:T10b; [app_epochs T10b Hap Happ|]. cbn [orb].
  destruct (b =? ft_new_connection_id) eqn:T11; [app_epochs T11 Hap Happ|].
  destruct (b =? ft_stop_sending) eqn:T12; [app_epochs T12 Hap Happ|].
  destruct (b =? ft_path_challenge) eqn:T13; [app_epochs T13 Hap Happ|].
  assert (H3 : b < 64 -> In b types_1rtt -> epoch = 3 -> False).
  { intros Hb Hin He. apply Hf. rewrite (Hsmall Hb). unfold type_permitted. clear - Hin He. tauto. }
  Ltac only_1rtt T H Happ Hno := exfalso; apply N.eqb_eq in T; apply H;
    [rewrite T; reflexivity|rewrite T; apply memb_in; reflexivity|
     destruct Happ as [E|E]; [rewrite T; discriminate|rewrite T; discriminate|rewrite T; discriminate
                             |rewrite T; discriminate
                             |exfalso; apply Hno; [clear - T; rewrite T; tauto|exact E]|exact E]].
  destruct (b =? ft_path_response) eqn:T14; [only_1rtt T14 H3 Happ Hno|].
  destruct (b =? ft_crypto_hs) eqn:T15.
  { exfalso. apply N.eqb_eq in T15. apply Hf. rewrite Hsmall by (subst b; reflexivity).
    right. left. split; [subst b; apply memb_in; reflexivity|]. apply Hno. clear - T15. tauto. }
  destruct (b =? ft_new_token) eqn:T16; [only_1rtt T16 H3 Happ Hno|].
  destruct (b =? ft_retire_connection_id) eqn:T17; [only_1rtt T17 H3 Happ Hno|].
  destruct (b =? ft_handshake_done) eqn:T18; [only_1rtt T18 H3 Happ Hno|].
  destruct (b =? ft_datagram) eqn:T19; [app_epochs T19 Hap Happ|].
  destruct (b =? ft_datagram_l) eqn:T19b; [app_epochs T19b Hap Happ|]. cbn [orb].
  destruct (frames_varint_decode (b :: l)) as [[t1 l1]|] eqn:E; [|discriminate].
  apply some_inj in Ht. subst t1.
  apply extension_forbidden; [|exact Hf]. apply Happ; intro; subst b; discriminate.
Qed.

Lemma forbidden_stops : forall S (h : handlers S) o epoch s l t,
  head_type l = Some t -> ~ type_permitted epoch t ->
  exists ft, decode_frames h o epoch s l = (h_error h s err_protocol_violation ft, Some false).
Proof.
  intros S h o epoch s l t Ht Hf. destruct l as [|b l]; [discriminate|].
  destruct (one_forbidden S h o epoch s b l t Ht Hf) as [ft H]. exists ft.
  unfold decode_frames. cbn [length decode_frames_loop]. rewrite H. reflexivity.
Qed.
