(** Proofs about one transport parameter. *)
From Verif Require Import Base Tac Varint_model Varint_spec Varint_proofs Header_model Header_spec Header_proofs
  Lb_spec Stream_model Tparam_model Tparam_spec Tparam_proofs Tparam2_proofs.

(** Storage of a value in its field. *)
Definition cut (f : tpf) (x : N) : N :=
  match f with FExponent => u8 x | FCidLimit | FDatagram => u32 x | FAckDelay => u32 (u32 (x / 1000) * 1000) | _ => x end.

(** The effect of a valid parameter. *)
Record effect (g : tcfg) (r r' : rx) (t : N) (v : list N) : Prop := mk_effect {
  e_fields : forall f, if field_type f =? t then exists x, means f v x /\ tp_n (s_remote (r_s r')) f = cut f x
             else tp_n (s_remote (r_s r')) f = tp_n (s_remote (r_s r)) f;
  e_pref : if t =? 13 then v = [] \/ exists a, is_pref a v /\ tp_pref (s_remote (r_s r')) = Some a
           else tp_pref (s_remote (r_s r')) = tp_pref (s_remote (r_s r));
  e_reset : s_reset (r_s r') = if t =? 2 then v else s_reset (r_s r);
  e_local : s_local (r_s r') = s_local (r_s r);
  e_vi : if (t =? 17) && negb (g_client g)
         then index_ok (s_vi (r_s r')) /\ version_list false (version_of (s_vi (r_s r))) v (version_of (s_vi (r_s r')))
         else s_vi (r_s r') = s_vi (r_s r);
  e_ocid : r_ocid r' = if t =? 0 then v else r_ocid r;
  e_rcid : r_rcid r' = if t =? 16 then v else r_rcid r;
  e_hcid : s_hcid (r_s r') = if t =? 15 then true else s_hcid (r_s r);
  e_vn : s_do_vn (r_s r') = if t =? 17 then true else s_do_vn (r_s r);
  e_maxdata : if t =? 4 then is_varint (s_maxdata (r_s r')) v else s_maxdata (r_s r') = s_maxdata (r_s r);
  e_bidir : if t =? 8 then exists n, is_varint n v /\
              s_bidir (r_s r') = id_of_rank (if n =? 4294967295 then 0 else n) (g_client g) false
            else s_bidir (r_s r') = s_bidir (r_s r);
  e_uni : if t =? 9 then exists n, is_varint n v /\
              s_uni (r_s r') = id_of_rank (if n =? 4294967295 then 0 else n) (g_client g) true
            else s_uni (r_s r') = s_uni (r_s r);
  e_af : s_af (r_s r') = if t =? 4278509083 then s_af (r_s r) || (0 <? tp_n (s_local (r_s r)) FMinAckDelay) else s_af (r_s r);
  e_present : r_present r' = r_present r;
  e_error : s_error (r_s r') = s_error (r_s r) }.

Definition fine_or_not (fuel : nat) (g : tcfg) (r : rx) (t : N) (v : list N) : Prop :=
  (good_param false (g_client g) (version_of (s_vi (r_s r))) (g_remote_cid g) t v /\
   exists r', rx_switch fuel g (g_client g) r true t v = RNext r' true /\ effect g r r' t v) \/
  (~ good_param false (g_client g) (version_of (s_vi (r_s r))) (g_remote_cid g) t v /\
   forall r', rx_switch fuel g (g_client g) r true t v = RNext r' true -> s_error (r_s r') <> None).

Ltac eff :=
  constructor; cbn [rx_s r_s r_present r_ocid r_hcid r_rcid set_rem with_remote with_limits with_reset with_hcid with_vn with_vi with_af with_address
    s_local s_remote s_vi s_hcid s_do_vn s_af s_reset s_error s_maxdata s_bidir s_uni s_sdr tp_set tp_n tp_pref N.eqb Pos.eqb andb];
  try reflexivity;
  try (let f := fresh in intro f; destruct f; cbn [field_type N.eqb Pos.eqb tpf_eqb means cut tp_n]; try reflexivity).

Ltac known_in H := cbn [In plain_types known_types app] in H; intuition discriminate.
Ltac bad := let G := fresh in intro G; inversion G; subst;
  solve [ match goal with H : In _ plain_types |- _ => exfalso; known_in H end
        | exfalso; intuition discriminate
        | match goal with H : ~ In _ known_types |- _ => exfalso; apply H; cbn [In plain_types known_types app]; tauto end
        | match goal with H : forall n, ~ is_varint n _, K : is_varint _ _ |- _ => exact (H _ K) end
        | match goal with K : is_varint ?a ?v, K' : is_varint ?b ?v |- _ => pose proof (varint_unique _ _ _ K K'); subst; lia end
        | congruence | lia ].

Ltac unknown := exfalso; match goal with H : ~ In _ known_types |- _ => apply H; cbn [In plain_types known_types app]; tauto end.
Ltac switch_at := unfold fine_or_not, rx_switch; cbn [N.eqb Pos.eqb
  ty_original_cid ty_idle ty_reset_token ty_packet_size ty_max_data ty_data_bidi_local ty_data_bidi_remote ty_data_uni ty_streams_bidi
  ty_streams_uni ty_exponent ty_ack_delay ty_no_migration ty_preferred ty_cid_limit ty_handshake_cid ty_retry_cid ty_version ty_datagram
  ty_loss_bit ty_grease ty_time_stamp ty_bdp ty_min_ack_delay ty_address ty_max_path_id].
Ltac plain Hv := let n := fresh "n" in let Hn := fresh "Hn" in let Hno := fresh "Hno" in switch_at; unfold rx_store;
  match goal with |- context [tp_varint_decode ?s ?ok ?v] =>
    destruct (tp_varint_spec s ok v Hv) as [(n & Hn & ->)|[Hno (n & ->)]] end;
  [left; split; [eapply gp_plain; [cbn [In plain_types]; tauto|exact Hn|discriminate]
    |eexists; split; [reflexivity|eff; try solve [exists n; split; [exact Hn|reflexivity] | exists 1; split; reflexivity | exact Hn]]]
  |right; split; [bad|intros r' E; discriminate E]].

Section Types.
  Variables (fuel : nat) (g : tcfg) (r : rx) (v : list N).
  Hypothesis Hv : bytes_ok v.

  Lemma sw_1 : fine_or_not fuel g r 1 v. Proof. plain Hv. Qed.
  Lemma sw_4 : fine_or_not fuel g r 4 v. Proof. plain Hv. Qed.
  Lemma sw_5 : fine_or_not fuel g r 5 v. Proof. plain Hv. Qed.
  Lemma sw_6 : fine_or_not fuel g r 6 v. Proof. plain Hv. Qed.
  Lemma sw_7 : fine_or_not fuel g r 7 v. Proof. plain Hv. Qed.
  Lemma sw_8 : fine_or_not fuel g r 8 v. Proof. plain Hv. Qed.
  Lemma sw_9 : fine_or_not fuel g r 9 v. Proof. plain Hv. Qed.
  Lemma sw_10 : fine_or_not fuel g r 10 v. Proof. plain Hv. Qed.
  Lemma sw_14 : fine_or_not fuel g r 14 v. Proof. plain Hv. Qed.
  Lemma sw_32 : fine_or_not fuel g r 32 v. Proof. plain Hv. Qed.
  Lemma sw_mp : fine_or_not fuel g r 0x0f739bbc1b666d0d v. Proof. plain Hv. Qed.

  Lemma sw_3 : fine_or_not fuel g r 3 v.
  Proof.
    switch_at. destruct (tp_varint_spec (r_s r) true v Hv) as [(n & Hn & ->)|[Hno (n & ->)]];
      [|right; split; [bad|intros r' E; discriminate E]].
    destruct ((n <? 1200) || (65527 <? n)) eqn:C.
    - right. split; [bad|intros r' E; discriminate E].
    - left. split; [eapply gp_packet_size; [exact Hn|lia]|]. eexists. split; [reflexivity|]. eff. exists n. split; [exact Hn|reflexivity].
  Qed.

  Lemma sw_11 : fine_or_not fuel g r 11 v.
  Proof.
    switch_at. destruct (tp_varint_spec (r_s r) true v Hv) as [(n & Hn & ->)|[Hno (n & ->)]]; cbv zeta.
    - assert (B : (16384000 <? u32 (u32 n * 1000)) = negb (u32 (u32 n * 1000) <=? 16384000)) by (rewrite N.ltb_antisym; reflexivity).
      rewrite B. destruct (N.leb_spec (u32 (u32 n * 1000)) 16384000) as [h|h]; cbn [negb].
      + left. split; [eapply gp_ack_delay; [exact Hn|exact h]|]. eexists. split; [reflexivity|]. eff.
        exists (n * 1000). split; [exists n; split; [exact Hn|reflexivity]|]. rewrite N.div_mul by discriminate. reflexivity.
      + right. split; [|intros r' E; discriminate E]. intro G. inversion G; subst; try solve [match goal with H : In _ plain_types |- _ => known_in H end];
          try solve [intuition discriminate]; try unknown.
        match goal with K : is_varint ?a ?v |- _ => pose proof (varint_unique _ _ _ K Hn); subst end. unfold u32 in h. 
        change (2 ^ 32) with 4294967296 in *. change (2 ^ 14 * 1000) with 16384000 in *. lia.
    - right. split; [bad|]. intros r' E. destruct (16384000 <? _); discriminate E.
  Qed.

  Lemma sw_2 : fine_or_not fuel g r 2 v.
  Proof.
    switch_at. destruct (g_client g) eqn:C; cbn [negb]; [|right; split; [bad|intros r' E; discriminate E]].
    destruct (N.eqb_spec (blen v) 16) as [h|h]; cbn [negb].
    - left. split; [apply gp_reset_token; [reflexivity|exact h]|]. eexists. split; [reflexivity|]. eff.
    - right. split; [bad|intros r' E; discriminate E].
  Qed.

  Lemma flags : forall t f, t = 12 /\ f = FNoMigration \/ t = 0x2ab2 /\ f = FGrease -> fine_or_not fuel g r t v.
  Proof.
    intros t f [[-> ->]|[-> ->]]; switch_at;
    (destruct (N.eqb_spec (blen v) 0) as [h|h]; cbn [negb];
     [destruct v as [|b w]; [|rewrite blen_cons in h; lia]; left; split; [apply gp_flag; tauto|]; eexists; (split; [reflexivity|]); eff;
       exists 1; split; reflexivity
     |right; split; [|intros r' E; discriminate E]; intro G; inversion G; subst; try solve [match goal with H : In _ plain_types |- _ => known_in H end];
          try solve [intuition discriminate]; try unknown; apply h; reflexivity]).
  Qed.

  Lemma sw_13 : fine_or_not fuel g r 13 v.
  Proof.
    switch_at. destruct (tp_pref_decode v) as [len a] eqn:D. destruct (N.eqb_spec len (blen v)) as [h|h]; cbn [negb].
    - left. destruct v as [|b w] eqn:Ev.
      + split; [apply gp_preferred_empty; reflexivity|]. rewrite <- Ev in *. eexists. split; [reflexivity|]. 
        rewrite Ev in *. vm_compute in D. apply pair_equal_spec in D. destruct D as [_ <-].
        eff. left. reflexivity.
      + rewrite <- Ev in *. destruct (pref_decode_inv v len a Hv D h) as (x & -> & Hx); [rewrite Ev; discriminate|].
        split; [exact (gp_preferred _ _ _ _ _ _ Hx)|]. eexists. split; [reflexivity|]. eff. right. exists x. split; [exact Hx|reflexivity].
    - right. split; [|intros r' E; discriminate E]. intro G. inversion G; subst; try solve [match goal with H : In _ plain_types |- _ => known_in H end];
          try solve [intuition discriminate]; try unknown.
      + match goal with H : is_pref _ _ |- _ => apply pref_decode_ok in H; rewrite H in D end. apply pair_equal_spec in D. destruct D as [D _]. congruence.
      + vm_compute in D. apply pair_equal_spec in D. destruct D as [D _]. apply h. symmetry. exact D.
  Qed.

  Lemma cid_good : tp_cid_decode v = (v, true) /\ blen v <= 20 \/ snd (tp_cid_decode v) = false /\ 20 < blen v.
  Proof.
    unfold tp_cid_decode. cbv zeta. destruct (N.leb_spec (blen v) 20) as [h|h].
    - left. split; [|exact h]. unfold u8. rewrite N.mod_small by lia. destruct (N.leb_spec (blen v) 20); [|lia].
      rewrite N.eqb_refl. f_equal. unfold blen. rewrite Nat2N.id. apply firstn_all.
    - right. split; [|exact h]. destruct (N.leb_spec (u8 (blen v)) 20); cbn [snd].
      + apply N.eqb_neq. lia.
      + apply N.eqb_neq. lia.
  Qed.

  Lemma cids : forall t, t = 0 \/ t = 16 -> fine_or_not fuel g r t v.
  Proof.
    intros t Ht. destruct cid_good as [[E L]|[E L]].
    - left. split; [apply gp_cid; [exact Ht|exact L]|]. destruct Ht as [-> | ->]; unfold rx_switch; cbn [N.eqb Pos.eqb
        ty_original_cid ty_idle ty_reset_token ty_packet_size ty_max_data ty_data_bidi_local ty_data_bidi_remote ty_data_uni ty_streams_bidi
        ty_streams_uni ty_exponent ty_ack_delay ty_no_migration ty_preferred ty_cid_limit ty_handshake_cid ty_retry_cid];
      rewrite E; eexists; (split; [reflexivity|]); eff.
    - right. destruct Ht as [-> | ->]; (split; [bad|]); switch_at; destruct (tp_cid_decode v) as [c b]; cbn [snd] in E; subst b;
        intros r' X; discriminate X.
  Qed.

  Lemma sw_15 : fine_or_not fuel g r 15 v.
  Proof.
    switch_at. destruct cid_good as [[E L]|[E L]].
    - rewrite E. destruct (list_eq_dec N.eq_dec (g_remote_cid g) v) as [h|h].
      + left. split; [rewrite h; apply gp_hcid; exact L|]. eexists. split; [reflexivity|]. eff.
      + right. split; [bad|intros r' X; discriminate X].
    - right. destruct (tp_cid_decode v) as [c b]. cbn [snd] in E. subst b. split; [|intros r' X; discriminate X].
      intro G. inversion G; subst; try solve [match goal with H : In _ plain_types |- _ => known_in H end];
          try solve [intuition discriminate]; try unknown. lia.
  Qed.

  Ltac ranged := switch_at; destruct (tp_varint_spec (r_s r) true v Hv) as [(n & Hn & ->)|[Hno (n & ->)]];
      [|right; split; [bad|intros r' E; discriminate E]].

  Lemma sw_loss : fine_or_not fuel g r 0x1057 v.
  Proof.
    ranged. destruct (N.eqb_spec n 0) as [h|h]; [|destruct (N.eqb_spec n 1) as [h1|h1]].
    - left. split; [eapply gp_loss_bit; [exact Hn|lia]|]. eexists. split; [reflexivity|]. eff. exists 1. split; [|reflexivity]. exists n. split; [exact Hn|subst n; reflexivity].
    - left. split; [eapply gp_loss_bit; [exact Hn|lia]|]. eexists. split; [reflexivity|]. eff. exists 2. split; [|reflexivity]. exists n. split; [exact Hn|subst n; reflexivity].
    - right. split; [bad|intros r' E; discriminate E].
  Qed.

  Lemma sw_min : fine_or_not fuel g r 0xff04de1b v.
  Proof.
    switch_at. destruct (tp_varint_spec (r_s r) true v Hv) as [(n & Hn & ->)|[Hno (n & ->)]]; cbv zeta.
    - cbn [andb]. destruct ((n =? 0) || (16777215 <? n)) eqn:C.
      + right. split; [bad|intros r' E; discriminate E].
      + left. split; [eapply gp_min_ack_delay; [exact Hn|change (2 ^ 24) with 16777216; lia]|]. eexists. split; [reflexivity|].
        change (s_local (set_rem (r_s r) FMinAckDelay n)) with (s_local (r_s r)).
        destruct (0 <? tp_n (s_local (r_s r)) FMinAckDelay) eqn:Z; eff; try solve [exists n; split; [exact Hn|reflexivity]];
        destruct (s_af (r_s r)); rewrite Z; reflexivity.
    - right. split; [bad|]. cbn [andb]. intros r' E. discriminate E.
  Qed.

  Lemma sw_ts : fine_or_not fuel g r 0x7158 v.
  Proof.
    ranged. destruct ((n <? 1) || (3 <? n)) eqn:C.
    - right. split; [bad|intros r' E; discriminate E].
    - left. split; [eapply gp_time_stamp; [exact Hn|lia]|]. eexists. split; [reflexivity|]. eff. exists n. split; [exact Hn|reflexivity].
  Qed.

  Lemma sw_bdp : fine_or_not fuel g r 0xebd9 v.
  Proof.
    ranged. destruct (1 <? n) eqn:C.
    - right. split; [bad|intros r' E; discriminate E].
    - left. split; [eapply gp_bdp; [exact Hn|lia]|]. eexists. split; [reflexivity|]. eff. exists n. split; [exact Hn|reflexivity].
  Qed.

  Lemma sw_addr : fine_or_not fuel g r 0x9f81a176 v.
  Proof.
    ranged. destruct (2 <? n) eqn:C.
    - right. split; [bad|intros r' E; discriminate E].
    - left. split; [eapply gp_address; [exact Hn|lia]|]. eexists. split; [reflexivity|]. eff. exists (n + 1). split; [|reflexivity]. exists n. split; [exact Hn|reflexivity].
  Qed.

  Hypothesis Hf : (0 < fuel)%nat.
  Hypothesis Hi : index_ok (s_vi (r_s r)).

  Lemma sw_17 : fine_or_not fuel g r 17 v.
  Proof.
    switch_at. destruct (g_client g) eqn:C.
    - destruct (vdec_server (version_of (s_vi (r_s r))) v Hv) as [[(vs & Hvs) ->]|[Hno (e & ->)]].
      + left. split; [exact (gp_version_server _ _ _ _ _ _ eq_refl Hvs)|]. eexists. split; [reflexivity|]. eff. rewrite C. reflexivity.
      + right. split; [|intros r' E; discriminate E]. intro G. inversion G; subst; try solve [match goal with H : In _ plain_types |- _ => known_in H end];
          try solve [intuition discriminate]; try unknown. apply Hno. eexists. eassumption.
    - destruct (tp_version_decode false (version_of (s_vi (r_s r))) v) as [e|o] eqn:D.
      + right. split; [|intros r' E; discriminate E]. intro G. inversion G; subst; try solve [match goal with H : In _ plain_types |- _ => known_in H end];
          try solve [intuition discriminate]; try unknown.
        match goal with H : version_list _ _ _ _ |- _ => destruct (vdec_client _ _ _ _ H) as (o & Eo & _) end. congruence.
      + destruct (vdec_client_inv _ _ _ Hv D) as (x & Hx & Ho).
        assert (Hnogood : ~ can_upgrade (version_of (s_vi (r_s r))) x -> ~ good_param false false (version_of (s_vi (r_s r))) (g_remote_cid g) 17 v).
        { intros Hn G. inversion G; subst; try solve [match goal with H : In _ plain_types |- _ => known_in H end];
          try solve [intuition discriminate]; try unknown.
          match goal with H : version_list _ _ _ ?y |- _ => assert (y = x); [|subst; contradiction]; destruct (vdec_client _ _ _ _ H) as (o' & Eo & Oy) end.
          rewrite D in Eo. injection Eo as <-. unfold outcome_is in *. destruct o as [[vn i]|]; [|congruence]. destruct Ho as [<- _], Oy as [<- _]. reflexivity. }
        destruct o as [[vn i]|]; unfold outcome_is in Ho.
        * destruct Ho as (-> & Hix & Hvx). cbn [with_vn s_vi].
          assert (Hnz : (x =? 0) = false).
          { pose proof (version_supported i Hix) as S. rewrite Hvx in S. apply N.eqb_neq. intros ->. cbn in S. intuition discriminate. }
          rewrite Hnz. cbn [negb andb]. destruct (N.eqb_spec (s_vi (r_s r)) i) as [h|h]; cbn [negb].
          -- left. split; [eapply gp_version_client; [reflexivity|exact Hx|left; rewrite <- Hvx, h; reflexivity]|].
             eexists. split; [reflexivity|]. eff. rewrite C. cbn [negb]. split; [exact Hi|]. rewrite h in *. rewrite Hvx in *. exact Hx.
          -- destruct (process_version_upgrade fuel (s_vi (r_s r)) i) eqn:U.
             ++ left. apply upgrade_yes in U; try assumption. split; [eapply gp_version_client; [reflexivity|exact Hx|rewrite <- Hvx; exact U]|].
                eexists. split; [reflexivity|]. eff. rewrite C. cbn [negb]. split; [exact Hix|]. rewrite Hvx. exact Hx.
             ++ right. split; [|intros r' E; discriminate E]. apply Hnogood. intro K. rewrite <- Hvx in K. apply (upgrade_yes fuel) in K; try assumption. congruence.
             ++ right. split; [|intros r' E; discriminate E]. apply Hnogood. intro K. rewrite <- Hvx in K. apply (upgrade_yes fuel) in K; try assumption. congruence.
        * subst x. left. split; [eapply gp_version_client; [reflexivity|exact Hx|left; reflexivity]|].
          eexists. split; [reflexivity|]. eff. rewrite C. cbn [negb]. split; [exact Hi|exact Hx].
  Qed.

  Lemma sw_other : forall t, ~ In t known_types -> fine_or_not fuel g r t v.
  Proof.
    intros t Ht. left. split; [apply gp_unknown; exact Ht|].
    assert (K : forall c, In c known_types -> (t =? c) = false). { intros c Hc. apply N.eqb_neq. intros ->. contradiction. }
    assert (K' : forall c, In c known_types -> (c =? t) = false). { intros c Hc. rewrite N.eqb_sym. apply K. exact Hc. }
    exists r. split.
    - unfold rx_switch.
      rewrite !K by (cbn [In known_types plain_types app]; unfold ty_original_cid, ty_idle, ty_reset_token, ty_packet_size, ty_max_data,
        ty_data_bidi_local, ty_data_bidi_remote, ty_data_uni, ty_streams_bidi, ty_streams_uni, ty_exponent, ty_ack_delay, ty_no_migration,
        ty_preferred, ty_cid_limit, ty_handshake_cid, ty_retry_cid, ty_version, ty_datagram, ty_loss_bit, ty_grease, ty_time_stamp, ty_bdp,
        ty_min_ack_delay, ty_address, ty_max_path_id; tauto). reflexivity.
    - constructor; try (intro f; destruct f; cbn [field_type]); rewrite ?K, ?K' by (cbn [In known_types plain_types app]; tauto); reflexivity.
  Qed.

  Lemma switch_cases : forall t, fine_or_not fuel g r t v.
  Proof.
    intro t. destruct (in_dec N.eq_dec t known_types) as [H|H]; [|apply sw_other; exact H].
    cbn [In known_types plain_types app] in H.
    repeat (destruct H as [<- | H]; [solve [apply sw_1|apply sw_4|apply sw_5|apply sw_6|apply sw_7|apply sw_8|apply sw_9|apply sw_10|apply sw_14|apply sw_32
      |apply sw_mp|apply sw_3|apply sw_11|apply sw_2|apply sw_13|apply cids; tauto|apply sw_15|apply sw_loss|apply sw_min|apply sw_ts|apply sw_bdp
      |apply sw_addr|apply sw_17|eapply flags; left; split; reflexivity|eapply flags; right; split; reflexivity]|]). contradiction.
  Qed.
End Types.
