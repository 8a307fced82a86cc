(** The dispatcher hands a frame over only where it is permitted, and always
    progresses. *)
From Verif Require Import Base Tac Varint_model Varint_spec Varint_proofs Sack_model Ack_model
  Ack2_proofs Frames_model Frames_spec Frames_proofs.

Lemma length_data_tail : forall l d r, length_data l = Some (d, r) -> tail_of l r.
Proof.
  intros l d r H. unfold length_data, rbind in H.
  destruct (frames_varint_decode l) as [[n r1]|] eqn:E; [|discriminate].
  eapply tail_trans; [apply progress_tail; eapply varint_decode_progress, E|].
  eapply take_bytes_tail, H.
Qed.

Definition reads {A} (r : reader A) : Prop := forall l a rest, r l = Some (a, rest) -> tail_of l rest.

Lemma reads_varint : reads frames_varint_decode.
Proof. intros l a rest H. apply progress_tail. eapply varint_decode_progress, H. Qed.

Lemma reads_ret : forall A (a : A), reads (rret a).
Proof. intros A a l x rest H. unfold rret in H. inv_pair H. apply tail_refl. Qed.

Lemma reads_bind : forall A B (r : reader A) (f : A -> reader B),
  reads r -> (forall a, reads (f a)) -> reads (rbind r f).
Proof.
  intros A B r f Hr Hf l b rest H. unfold rbind in H.
  destruct (r l) as [[a l1]|] eqn:E; [|discriminate].
  eapply tail_trans; [eapply Hr, E|eapply Hf, H].
Qed.

Lemma reads_rskip : forall s, (forall l l', s l = Some l' -> tail_of l l') -> reads (rskip s).
Proof.
  intros s Hs l a rest H. unfold rskip in H. destruct (s l) as [l'|] eqn:E; [|discriminate].
  inv_pair H. apply Hs, E.
Qed.

Lemma reads_take : forall n, reads (take_bytes n).
Proof. intros n l a rest H. eapply take_bytes_tail, H. Qed.

Lemma reads_length_data : reads length_data.
Proof. intros l a rest H. eapply length_data_tail, H. Qed.

Lemma reads_fail : forall A, reads (@rfail A).
Proof. intros A l a rest H. discriminate. Qed.

Lemma reads_uint8 : reads frames_uint8_decode.
Proof.
  intros l a rest H. unfold frames_uint8_decode in H. destruct l as [|b l]; [discriminate|].
  inv_pair H. apply progress_tail, tail_cons, tail_refl.
Qed.

Lemma reads_uint16 : reads frames_uint16_decode.
Proof.
  intros l a rest H. unfold frames_uint16_decode in H. destruct l as [|b [|c l]]; try discriminate.
  apply some_pair_inj in H. destruct H as [_ <-]. exists [b; c]. reflexivity.
Qed.

Lemma reads_uint32 : reads frames_uint32_decode.
Proof.
  intros l a rest H. unfold frames_uint32_decode in H.
  destruct l as [|b [|c [|d [|e l]]]]; try discriminate.
  apply some_pair_inj in H. destruct H as [_ <-]. exists [b; c; d; e]. reflexivity.
Qed.

Lemma reads_uint64 : reads frames_uint64_decode.
Proof.
  intros l a rest H. unfold frames_uint64_decode in H.
  destruct (frames_uint32_decode l) as [[hi l1]|] eqn:E1; [|discriminate].
  destruct (frames_uint32_decode l1) as [[lo l2]|] eqn:E2; [|discriminate].
  apply some_pair_inj in H. destruct H as [_ <-].
  eapply tail_trans; eapply reads_uint32; eassumption.
Qed.

Lemma varint_read_tail : reads varint_read.
Proof.
  intros l a rest H. unfold varint_read in H. destruct (varint_decode l) as [[n v]| |]; try discriminate.
  destruct (n =? 0); [discriminate|]. apply some_pair_inj in H. destruct H as [_ <-]. apply skipn_tail.
Qed.

Lemma parse_stream_tail : forall b, reads (parse_stream b).
Proof.
  intros b l a rest H. unfold parse_stream in H.
  destruct (varint_read l) as [[sid l1]|] eqn:E1; [|discriminate]. apply varint_read_tail in E1.
  destruct (if N.land b 4 =? 0 then Some (0, l1) else varint_read l1) as [[off l2]|] eqn:E2;
    [|discriminate].
  assert (E2' : tail_of l1 l2).
  { destruct (N.land b 4 =? 0); [inv_pair E2; apply tail_refl|eapply varint_read_tail, E2]. }
  destruct (N.land b 2 =? 0).
  - apply some_pair_inj in H. destruct H as [_ <-]. apply nil_tail.
  - destruct (varint_read l2) as [[len l3]|] eqn:E3; [|discriminate]. apply varint_read_tail in E3.
    destruct (take_bytes len l3) as [[d r]|] eqn:E4; [|discriminate]. apply take_bytes_tail in E4.
    apply some_pair_inj in H. destruct H as [_ <-].
    eapply tail_trans; [exact E1|]. eapply tail_trans; [exact E2'|].
    eapply tail_trans; [exact E3|exact E4].
Qed.

(** On bytes, the header parsers read varints like everything else. *)
Lemma varint_read_eq : forall l, bytes_ok l -> varint_read l = frames_varint_decode l.
Proof.
  intros l Hok. unfold varint_read. rewrite varint_decode_agree by exact Hok.
  destruct (frames_varint_decode l) as [[v r]|] eqn:E; [|reflexivity].
  pose proof (frames_varint_decode_len _ _ _ E) as Hl.
  replace (blen l - blen r =? 0) with false by lia.
  f_equal. f_equal. destruct (frames_varint_decode_suffix _ _ _ E) as (p & -> & _).
  rewrite blen_app. replace (N.to_nat (blen p + blen r - blen r)) with (length p) by (unfold blen; lia).
  rewrite skipn_app, skipn_all, Nat.sub_diag. reflexivity.
Qed.

Lemma parse_ack_header_progress : forall hp ex l a rest,
  parse_ack_header hp ex l = Some (a, rest) -> progress l rest.
Proof.
  intros hp e l a rest H. destruct l as [|b t]; [discriminate|].
  change (parse_ack_header hp e (b :: t)) with
    (let skip := decode_varint_length b in
     if blen (b :: t) <? skip then None
     else
      let l0 := skipn (N.to_nat skip) (b :: t) in
      match (if hp then vd l0 else Some (0, l0)) with
      | None => None
      | Some (path_id, l1) =>
        match vd l1 with
        | None => None
        | Some (largest, l2) =>
          match vd l2 with
          | None => None
          | Some (delay, l3) =>
            match vd l3 with
            | None => None
            | Some (nb, l4) => Some ((path_id, largest, u64 (N.shiftl delay e), nb), l4)
            end
          end
        end
      end) in H.
  cbv zeta in H.
  destruct (blen (b :: t) <? decode_varint_length b); [discriminate|].
  assert (Hvd : forall l v r, vd l = Some (v, r) -> tail_of l r).
  { intros l0 v r Hv. unfold vd in Hv. destruct (varint_decode l0) as [[n w]| |]; try discriminate.
    destruct n; [discriminate|]. inv_pair Hv. apply skipn_tail. }
  assert (Hd : progress (b :: t) (skipn (N.to_nat (decode_varint_length b)) (b :: t))).
  { assert (Hpos : 1 <= decode_varint_length b).
    { unfold decode_varint_length. rewrite N.shiftl_1_l.
      apply N.lt_pred_le. apply N.neq_0_lt_0. apply N.pow_nonzero. discriminate. }
    replace (N.to_nat (decode_varint_length b)) with (S (N.to_nat (decode_varint_length b - 1))) by lia.
    cbn [skipn]. apply tail_cons, skipn_tail. }
  set (l0 := skipn (N.to_nat (decode_varint_length b)) (b :: t)) in *. clearbody l0.
  destruct (if hp then vd l0 else Some (0, l0)) as [[p l1]|] eqn:E0; [|discriminate].
  assert (T0 : tail_of l0 l1) by (destruct hp; [eapply Hvd, E0|inv_pair E0; apply tail_refl]).
  destruct (vd l1) as [[x l2]|] eqn:E1; [|discriminate].
  destruct (vd l2) as [[y l3]|] eqn:E2; [|discriminate].
  destruct (vd l3) as [[z l4]|] eqn:E3; [|discriminate].
  apply some_pair_inj in H. destruct H as [_ <-].
  eapply progress_trans; [exact Hd|]. eapply tail_trans; [exact T0|].
  eapply tail_trans; [eapply Hvd, E1|]. eapply tail_trans; [eapply Hvd, E2|]. eapply Hvd, E3.
Qed.

Lemma read_ranges_tail : forall fuel largest nb l rs rest,
  read_ranges fuel largest nb l = RangesOk rs rest -> tail_of l rest.
Proof.
  induction fuel as [|f IH]; intros largest nb l rs rest H; cbn [read_ranges] in H; [discriminate|].
  destruct (frames_varint_decode l) as [[r0 l1]|] eqn:E1; [|discriminate].
  destruct (u64 (largest + 1) <? u64 (r0 + 1)); [discriminate|].
  apply varint_decode_progress, progress_tail in E1.
  destruct (nb =? 0); [injection H as _ <-; exact E1|].
  destruct (frames_varint_decode l1) as [[gap l2]|] eqn:E2; [|discriminate].
  apply varint_decode_progress, progress_tail in E2.
  match type of H with (if ?c then _ else _) = _ => destruct c; [discriminate|] end.
  match type of H with match read_ranges f ?a ?b ?c with _ => _ end = _ =>
    destruct (read_ranges f a b c) as [rs2 rest2|rs2|] eqn:E3; try discriminate end.
  injection H as _ <-. eapply tail_trans; [exact E1|]. eapply tail_trans; [exact E2|]. eapply IH, E3.
Qed.

Section inv.
Context {S : Type} (h : handlers S) (o : options) (epoch : N) (I : S -> Prop).
Hypothesis Hh : forall s f, permitted (o_client o) epoch f -> announced o f -> I s -> I (fst (h_frame h s f)).
Hypothesis He : forall s c t, I s -> I (h_error h s c t).

Definition turn_ok (l : list N) (t : turn S) : Prop :=
  match t with Halt s => I s | Continue s rest => I s /\ progress l rest end.

Lemma ok_error : forall s c t l, I s -> turn_ok l (halt_error h s c t).
Proof. intros. unfold halt_error, turn_ok. apply He. assumption. Qed.

Lemma ok_deliver : forall s f l rest, I s -> permitted (o_client o) epoch f -> announced o f -> progress l rest ->
  turn_ok l (deliver h s f rest).
Proof.
  intros s f l rest Hs Hp Hn P. unfold deliver. pose proof (Hh s f Hp Hn Hs) as H.
  destruct (h_frame h s f) as [s' ok]. cbn [fst] in H. destruct ok; cbn; auto.
Qed.

Lemma ok_with : forall A (r : reader A) k ft s l0 l, I s -> reads r -> progress l0 l ->
  (forall a, permitted (o_client o) epoch (k a)) -> (forall a, announced o (k a)) -> turn_ok l0 (decode_with h r k ft s l).
Proof.
  intros A r k ft s l0 l Hs Hr P Hp Hn. unfold decode_with.
  destruct (r l) as [[a rest]|] eqn:E; [|apply ok_error, Hs].
  apply ok_deliver; [exact Hs|apply Hp|apply Hn|]. eapply progress_trans; [exact P|eapply Hr, E].
Qed.

Lemma ok_with_p : forall A (r : reader A) k ft s l, I s ->
  (forall a rest, r l = Some (a, rest) -> progress l rest) ->
  (forall a, permitted (o_client o) epoch (k a)) -> (forall a, announced o (k a)) -> turn_ok l (decode_with h r k ft s l).
Proof.
  intros A r k ft s l Hs Hr Hp Hn. unfold decode_with.
  destruct (r l) as [[a rest]|] eqn:E; [|apply ok_error, Hs].
  apply ok_deliver; [exact Hs|apply Hp|apply Hn|]. eapply Hr. reflexivity.
Qed.

Lemma ok_negotiated : forall A n (r : reader A) k ft s l0 l, I s -> reads r -> progress l0 l ->
  (forall a, permitted (o_client o) epoch (k a)) -> (n = true -> forall a, announced o (k a)) -> turn_ok l0 (decode_negotiated h n r k ft s l).
Proof.
  intros A n r k ft s l0 l Hs Hr P Hp Hn. unfold decode_negotiated. destruct n.
  - apply ok_with; auto.
  - cbn. split; [apply He, Hs|exact P].
Qed.

Lemma ok_ack : forall ecn hp s l, I s ->
  (hp = false -> epoch <> 1) -> (hp = true -> epoch = 3) ->
  turn_ok l (decode_ack h o epoch ecn hp s l).
Proof.
  intros ecn hp s l Hs H0 H1. unfold decode_ack.
  destruct (parse_ack_header hp (o_exponent o) l) as [[[[[p lg] d] nb] l1]|] eqn:E1;
    [|apply ok_error, Hs].
  apply parse_ack_header_progress in E1.
  destruct (hp && negb (o_multipath o)) eqn:Em; [apply ok_error, Hs|].
  match goal with |- context [if ?c then _ else _] => destruct c end.
  - pose proof (skip_ack_spec ecn hp l) as G.
    destruct (skip_ack_frame_maybe_ecn ecn hp l); cbn; auto.
  - assert (Hp : forall rs, permitted (o_client o) epoch
        (RAck ecn (if hp then Some p else None) lg d rs)).
    { intro rs. destruct hp; [rewrite H1 by reflexivity; apply p_path_ack|apply p_ack, H0; reflexivity]. }
    assert (Hn : forall rs, announced o (RAck ecn (if hp then Some p else None) lg d rs)).
    { intro rs. destruct hp; cbn [announced]; [destruct (o_multipath o); [reflexivity|discriminate]|exact Logic.I]. }
    destruct (read_ranges (Datatypes.S (length l1)) lg nb l1) as [rs l2|rs|] eqn:E2.
    + apply read_ranges_tail in E2. pose proof (Hh s _ (Hp rs) (Hn rs) Hs) as H.
      destruct (h_frame h s (RAck ecn (if hp then Some p else None) lg d rs)) as [s' ok].
      cbn [fst] in H. destruct ok; [|exact H].
      destruct (read_ecn ecn l2) as [rest|] eqn:E3; [|apply ok_error, H].
      split; [exact H|]. eapply progress_trans; [exact E1|]. eapply tail_trans; [exact E2|].
      unfold read_ecn in E3. destruct ecn; [|apply some_inj in E3; subst; apply tail_refl].
      eapply (skip_varints_tail 3). cbn [skip_varints]. unfold sbind in *.
      destruct (frames_varint_skip l2) as [x|]; [|discriminate].
      destruct (frames_varint_skip x) as [y|]; [|discriminate].
      rewrite E3. reflexivity.
    + apply ok_error. apply Hh; [apply Hp|apply Hn|exact Hs].
    + exact Hs.
Qed.

Lemma app_epoch : forall e, negb (negb (e =? epoch_0rtt) && negb (e =? epoch_1rtt)) = true ->
  e = 1 \/ e = 3.
Proof. intros e H. unfold epoch_0rtt, epoch_1rtt in H. lia. Qed.

Lemma ok_new_cid : forall mp s l, I s -> (epoch = 1 \/ epoch = 3) -> (mp = true -> epoch = 3) ->
  turn_ok l (decode_new_connection_id h o mp s l).
Proof.
  intros mp s l Hs Ha Hm. unfold decode_new_connection_id.
  destruct (mp && negb (o_multipath o)) eqn:Em; [apply ok_error, He, Hs|].
  destruct (parse_new_connection_id mp l) as [[[[[[p q] r] c] d] rest]|] eqn:E; [|apply ok_error, Hs].
  destruct (q <? r) eqn:Eq; [apply ok_error, Hs|]. destruct (20 <? blen c) eqn:Ec; [apply ok_error, Hs|].
  apply ok_deliver; [exact Hs| | |].
  - destruct mp; [rewrite Hm by reflexivity; apply p_path_new_cid|apply p_new_cid, Ha].
  - cbn [announced]. clear - Em Eq Ec. split; [destruct mp, (o_multipath o); cbn in *; congruence|lia].
  - unfold parse_new_connection_id, rbind at 1, rskip at 1 in E.
    destruct (frames_varint_skip l) as [l1|] eqn:E1; [|discriminate].
    apply varint_skip_progress in E1. eapply progress_trans; [exact E1|].
    eapply reads_bind; [| |exact E]; [destruct mp; [apply reads_varint|apply reads_ret]|].
    intro x. apply reads_bind; [apply reads_varint|]. intro y.
    apply reads_bind; [apply reads_varint|]. intro z. apply reads_bind; [apply reads_uint8|]. intro w.
    apply reads_bind; [apply reads_take|]. intro v. apply reads_ret.
Qed.

Lemma ok_retire : forall mp s l, I s -> epoch = 3 ->
  turn_ok l (decode_retire_connection_id h o mp s l).
Proof.
  intros mp s l Hs H3. unfold decode_retire_connection_id.
  destruct (mp && negb (o_multipath o)) eqn:Em; [apply ok_error, Hs|].
  apply ok_with_p; [exact Hs| |intro a; rewrite H3; apply p_retire_cid|
    intro a; destruct mp; cbn [announced]; [destruct (o_multipath o); [reflexivity|discriminate]|exact Logic.I]].
  intros a rest E. unfold parse_retire_connection_id, rbind at 1, rskip at 1 in E.
  destruct (frames_varint_skip l) as [l1|] eqn:E1; [|discriminate].
  apply varint_skip_progress in E1. eapply progress_trans; [exact E1|].
  eapply reads_bind; [| |exact E]; [destruct mp; [apply reads_varint|apply reads_ret]|].
  intro x. apply reads_bind; [apply reads_varint|]. intro y. apply reads_ret.
Qed.

(** Nothing to announce. *)
Ltac ann := intros; repeat (match goal with x : (_ * _)%type |- _ => destruct x end); cbn [announced]; first [exact Logic.I|assumption].

Lemma reads_two : reads two_varints.
Proof.
  apply reads_bind; [apply reads_varint|]. intro a. apply reads_bind; [apply reads_varint|].
  intro b. apply reads_ret.
Qed.

Ltac rd :=
  first [ apply reads_varint | apply reads_two | apply reads_ret | apply reads_take
        | apply reads_length_data | apply reads_uint64 | apply reads_uint16 | apply reads_fail
        | apply reads_rskip; solve [tails]
        | apply reads_bind; [rd|intro; rd]
        | match goal with |- reads (if ?c then _ else _) => destruct c; rd end ].

Lemma ok_extension : forall b t s l0 l, I s -> progress l0 l -> (epoch = 1 \/ epoch = 3) ->
  turn_ok l0 (decode_extension h o epoch b t s l0 l).
Proof.
  intros b t s l0 l Hs P Ha. unfold decode_extension.
  match goal with |- context [if ?c then _ else _] => destruct c eqn:E0 end; [apply ok_error, Hs|].
  assert (H3 : t <> ft_bdp -> epoch = 3) by (unfold epoch_0rtt in E0; lia).
  assert (Hx : forall f, (epoch = 3 -> permitted (o_client o) 3 f) -> t <> ft_bdp ->
    permitted (o_client o) epoch f).
  { intros f Hf Ht. rewrite (H3 Ht). apply Hf, H3, Ht. }
  destruct (t =? ft_ack_frequency) eqn:T1.
  { assert (t <> ft_bdp) by (apply N.eqb_eq in T1; subst t; discriminate).
    unfold decode_ack_frequency.
    match goal with |- context [match ?r l with _ => _ end] => destruct (r l) as [[[[[x y] z] w] rest]|] eqn:E end;
      [|exact Hs].
    match goal with |- context [if ?c then _ else _] => destruct c eqn:Ef end; [apply ok_error, Hs|].
    apply ok_deliver; [exact Hs|apply Hx; [intros; constructor|assumption]| |].
    { cbn [announced]. clear - Ef. destruct (o_ack_frequency o); cbn in Ef; lia. }
    eapply progress_trans; [exact P|]. revert E. match goal with |- ?r l = _ -> _ => assert (R : reads r) by rd end.
    intro E. eapply R, E. }
  destruct (t =? ft_immediate_ack) eqn:T2.
  { assert (t <> ft_bdp) by (apply N.eqb_eq in T2; subst t; discriminate).
    unfold decode_immediate_ack. destruct l as [|c l]; [split; assumption|].
    destruct (o_ack_frequency o) eqn:Ef; [|apply ok_error, Hs].
    apply ok_deliver; [exact Hs|apply Hx; [intros; constructor|assumption]|exact Ef|exact P]. }
  destruct (t =? ft_time_stamp) eqn:T3.
  { assert (t <> ft_bdp) by (apply N.eqb_eq in T3; subst t; discriminate).
    unfold decode_time_stamp. destruct (frames_varint_decode l) as [[v rest]|] eqn:E; [|exact Hs].
    destruct (o_time_stamp o) eqn:Ef; [|apply ok_error, Hs].
    apply ok_deliver; [exact Hs|apply Hx; [intros; constructor|assumption]|exact Ef|].
    eapply progress_trans; [exact P|eapply reads_varint, E]. }
  destruct (t =? ft_path_ack) eqn:T4.
  { assert (t <> ft_bdp) by (apply N.eqb_eq in T4; subst t; discriminate).
    apply ok_ack; [exact Hs|discriminate|intros _; apply H3; assumption]. }
  destruct (t =? ft_path_ack_ecn) eqn:T5.
  { assert (t <> ft_bdp) by (apply N.eqb_eq in T5; subst t; discriminate).
    apply ok_ack; [exact Hs|discriminate|intros _; apply H3; assumption]. }
  destruct (t =? ft_path_abandon) eqn:T6.
  { assert (t <> ft_bdp) by (apply N.eqb_eq in T6; subst t; discriminate).
    apply ok_negotiated; [exact Hs|rd|exact P|intro a; apply Hx; [intros; constructor|assumption]|ann]. }
  destruct ((t =? ft_path_backup) || (t =? ft_path_available)) eqn:T7.
  { assert (t <> ft_bdp) by (clear - T7; unfold ft_path_backup, ft_path_available, ft_bdp in *; lia).
    apply ok_negotiated; [exact Hs|rd|exact P|intro a; apply Hx; [intros; constructor|assumption]|ann]. }
  destruct (t =? ft_max_path_id) eqn:T8.
  { assert (t <> ft_bdp) by (apply N.eqb_eq in T8; subst t; discriminate).
    apply ok_negotiated; [exact Hs|rd|exact P|intro a; apply Hx; [intros; constructor|assumption]|ann]. }
  destruct (t =? ft_paths_blocked) eqn:T9.
  { assert (t <> ft_bdp) by (apply N.eqb_eq in T9; subst t; discriminate).
    apply ok_negotiated; [exact Hs|rd|exact P|intro a; apply Hx; [intros; constructor|assumption]|ann]. }
  destruct (t =? ft_path_cid_blocked) eqn:T10.
  { assert (t <> ft_bdp) by (apply N.eqb_eq in T10; subst t; discriminate).
    apply ok_negotiated; [exact Hs|rd|exact P|intro a; apply Hx; [intros; constructor|assumption]|ann]. }
  destruct (t =? ft_path_new_connection_id) eqn:T11.
  { assert (t <> ft_bdp) by (apply N.eqb_eq in T11; subst t; discriminate).
    apply ok_new_cid; [exact Hs|exact Ha|intros _; apply H3; assumption]. }
  destruct (t =? ft_path_retire_connection_id) eqn:T12.
  { assert (t <> ft_bdp) by (apply N.eqb_eq in T12; subst t; discriminate).
    apply ok_retire; [exact Hs|apply H3; assumption]. }
  destruct (t =? ft_bdp) eqn:T13.
  { unfold decode_bdp.
    match goal with |- context [if ?c then _ else _] => destruct c eqn:B1 end; [apply ok_error, Hs|].
    match goal with |- context [if ?c then _ else _] => destruct c eqn:B2 end; [apply ok_error, Hs|].
    match goal with |- context [if ?c then _ else _] => destruct c eqn:B3 end; [apply ok_error, Hs|].
    apply ok_with; [exact Hs|unfold parse_bdp; rd|exact P| |].
    2: { intros [[[x y] z] w]. cbn [announced]. clear - B3. destruct (o_client o), (o_bdp o); cbn in *; congruence. }
    intros [[[x y] z] w]. apply p_bdp. unfold epoch_1rtt, epoch_0rtt in *. clear - B1 B2 Ha. destruct (o_client o); lia. }
  destruct ((t =? ft_observed_address_v4) || (t =? ft_observed_address_v6)) eqn:T14.
  { assert (t <> ft_bdp) by (clear - T14; unfold ft_observed_address_v4, ft_observed_address_v6, ft_bdp in *; lia).
    apply ok_negotiated; [exact Hs|unfold parse_observed_address; rd|exact P| |ann].
    intros [[x y] z]. apply Hx; [intros; constructor|assumption]. }
  apply ok_error, Hs.
Qed.

Lemma ok_one : forall s b l, I s -> turn_ok (b :: l) (decode_one h o epoch s b l).
Proof.
  intros s b l Hs. unfold decode_one.
  assert (P : progress (b :: l) l) by apply tail_cons, tail_refl.
  destruct (is_stream_type b) eqn:Z0.
  { match goal with |- context [if ?c then _ else _] => destruct c eqn:E0 end; [apply ok_error, Hs|].
    unfold decode_stream. destruct (parse_stream b l) as [[[[[sid off] fin] d] rest]|] eqn:E; [|exact Hs].
    destruct (two62 <=? off + blen d) eqn:Eo; [apply ok_error, Hs|].
    apply ok_deliver; [exact Hs|apply p_stream, app_epoch; rewrite E0; reflexivity|cbn [announced]; clear - Eo; lia|].
    eapply progress_trans; [exact P|eapply parse_stream_tail, E]. }
  destruct (b =? ft_ack) eqn:Z1.
  { destruct (epoch =? epoch_0rtt) eqn:E0; [apply ok_error, Hs|].
    apply ok_ack; [exact Hs|intros _; unfold epoch_0rtt in E0; lia|discriminate]. }
  destruct (b =? ft_ack_ecn) eqn:Z2.
  { destruct (epoch =? epoch_0rtt) eqn:E0; [apply ok_error, Hs|].
    apply ok_ack; [exact Hs|intros _; unfold epoch_0rtt in E0; lia|discriminate]. }
  match goal with |- context [if ?c then _ else _] => destruct c eqn:G1 end; [apply ok_error, Hs|].
  match goal with |- context [if ?c then _ else _] => destruct c eqn:G2 end; [apply ok_error, Hs|].
  assert (Happ : b <> ft_padding -> b <> ft_ping -> b <> ft_connection_close -> b <> ft_crypto_hs ->
    epoch = 1 \/ epoch = 3).
  { intros. unfold epoch_0rtt, epoch_1rtt in G1. clear - G1 H H0 H1 H2. lia. }
  assert (Hno : b = ft_crypto_hs \/ b = ft_handshake_done \/ b = ft_new_token \/ b = ft_path_response
    \/ b = ft_retire_connection_id -> epoch <> 1).
  { intros H. unfold epoch_0rtt in G2. clear - G2 H. lia. }
  unfold decode_by_type.
  destruct (b =? ft_padding) eqn:T0.
  { apply ok_deliver; [exact Hs|constructor|exact Logic.I|]. apply tail_cons, skip_run_tail. }
  destruct (b =? ft_reset_stream) eqn:T1.
  { apply ok_with; [exact Hs|rd|exact P|intros [[x y] z]; apply p_reset, Happ;
      apply N.eqb_eq in T1; subst b; discriminate|ann]. }
  destruct (b =? ft_connection_close) eqn:T2.
  { apply ok_with; [exact Hs|rd|exact P|intro a; constructor|ann]. }
  destruct (b =? ft_application_close) eqn:T3.
  { apply ok_with; [exact Hs|rd|exact P|intro a; apply p_app_close, Happ;
      apply N.eqb_eq in T3; subst b; discriminate|ann]. }
  destruct (b =? ft_max_data) eqn:T4.
  { apply ok_with; [exact Hs|rd|exact P|intro a; apply p_max_data, Happ;
      apply N.eqb_eq in T4; subst b; discriminate|ann]. }
  destruct (b =? ft_max_stream_data) eqn:T5.
  { apply ok_with; [exact Hs|rd|exact P|intro a; apply p_max_stream_data, Happ;
      apply N.eqb_eq in T5; subst b; discriminate|ann]. }
  destruct ((b =? ft_max_streams_bidir) || (b =? ft_max_streams_unidir)) eqn:T6.
  { apply ok_with; [exact Hs|rd|exact P|intro a; apply p_max_streams, Happ; intro; subst b; discriminate|ann]. }
  destruct (b =? ft_ping) eqn:T7.
  { apply ok_deliver; [exact Hs|constructor|exact Logic.I|]. apply tail_cons, skip_run_tail. }
  destruct (b =? ft_data_blocked) eqn:T8.
  { apply ok_with; [exact Hs|rd|exact P|intro a; apply p_data_blocked, Happ;
      apply N.eqb_eq in T8; subst b; discriminate|ann]. }
  destruct (b =? ft_stream_data_blocked) eqn:T9.
  { apply ok_with; [exact Hs|rd|exact P|intro a; apply p_stream_data_blocked, Happ;
      apply N.eqb_eq in T9; subst b; discriminate|ann]. }
  destruct ((b =? ft_streams_blocked_bidir) || (b =? ft_streams_blocked_unidir)) eqn:T10.
  { apply ok_with; [exact Hs|rd|exact P|intro a; apply p_streams_blocked, Happ; intro; subst b; discriminate|ann]. }
  destruct (b =? ft_new_connection_id) eqn:T11.
  { apply ok_new_cid; [exact Hs|apply Happ; apply N.eqb_eq in T11; subst b; discriminate|discriminate]. }
  destruct (b =? ft_stop_sending) eqn:T12.
  { apply ok_with; [exact Hs|rd|exact P|intro a; apply p_stop, Happ;
      apply N.eqb_eq in T12; subst b; discriminate|ann]. }
  destruct (b =? ft_path_challenge) eqn:T13.
  { apply ok_with; [exact Hs|rd|exact P|intro a; apply p_challenge, Happ;
      apply N.eqb_eq in T13; subst b; discriminate|ann]. }
  destruct (b =? ft_path_response) eqn:T14.
  { apply N.eqb_eq in T14.
    assert (epoch = 3).
    { destruct Happ as [H|H]; try exact H; try (subst b; discriminate). exfalso. apply Hno; [tauto|exact H]. }
    apply ok_with; [exact Hs|rd|exact P|intro a; rewrite H; constructor|ann]. }
  destruct (b =? ft_crypto_hs) eqn:T15.
  { apply N.eqb_eq in T15. apply ok_with; [exact Hs|rd|exact P|intro a; apply p_crypto, Hno; tauto|ann]. }
  destruct (b =? ft_new_token) eqn:T16.
  { apply N.eqb_eq in T16.
    assert (H3 : epoch = 3).
    { destruct Happ as [H|H]; try exact H; try (subst b; discriminate). exfalso. apply Hno; [tauto|exact H]. }
    unfold decode_new_token. destruct (length_data l) as [[tk rest]|] eqn:E; [|apply ok_error, Hs].
    assert (Ec : {o_client o = true} + {o_client o = false}) by (destruct (o_client o); auto).
    destruct Ec as [Ec|Ec]; rewrite Ec; [|apply ok_error, Hs].
    apply ok_deliver; [exact Hs|rewrite H3, Ec; constructor; reflexivity|exact Logic.I|].
    eapply progress_trans; [exact P|eapply length_data_tail, E]. }
  destruct (b =? ft_retire_connection_id) eqn:T17.
  { apply N.eqb_eq in T17.
    apply ok_retire; [exact Hs|].
    destruct Happ as [H|H]; try exact H; try (subst b; discriminate). exfalso. apply Hno; [tauto|exact H]. }
  destruct (b =? ft_handshake_done) eqn:T18.
  { apply N.eqb_eq in T18.
    assert (H3 : epoch = 3).
    { destruct Happ as [H|H]; try exact H; try (subst b; discriminate). exfalso. apply Hno; [tauto|exact H]. }
    unfold decode_handshake_done. assert (Ec : {o_client o = true} + {o_client o = false}) by (destruct (o_client o); auto).
    destruct Ec as [Ec|Ec]; rewrite Ec; [|apply ok_error, Hs].
    apply ok_deliver; [exact Hs|rewrite H3, Ec; constructor; reflexivity|exact Logic.I|exact P]. }
  destruct ((b =? ft_datagram) || (b =? ft_datagram_l)) eqn:T19.
  { assert (Hd : epoch = 1 \/ epoch = 3) by (apply Happ; intro; subst b; discriminate).
    unfold decode_datagram. destruct (N.land b 1 =? 0).
    - destruct (o_max_datagram o <? blen l) eqn:Eo; [apply ok_error, Hs|].
      apply ok_deliver; [exact Hs|apply p_datagram, Hd|cbn [announced]; clear - Eo; lia|apply tail_cons, nil_tail].
    - destruct (frames_varint_decode l) as [[n l1]|] eqn:E; [|apply ok_error, Hs].
      match goal with |- context [if ?c then _ else _] => destruct c eqn:Eo end; [apply ok_error, Hs|].
      apply ok_deliver; [exact Hs|apply p_datagram, Hd| |].
      { cbn [announced]. clear - Eo. unfold blen in *. rewrite firstn_length. lia. }
      eapply progress_trans; [exact P|]. eapply tail_trans; [eapply reads_varint, E|apply skipn_tail]. }
  destruct (frames_varint_decode (b :: l)) as [[t l1]|] eqn:E; [|exact Hs].
  apply ok_extension; [exact Hs|eapply varint_decode_progress, E|].
  apply Happ; intro; subst b; discriminate.
Qed.

Lemma loop_ok : forall fuel s l, (length l <= fuel)%nat -> I s ->
  I (fst (decode_frames_loop h o epoch fuel s l)) /\
  snd (decode_frames_loop h o epoch fuel s l) <> None.
Proof.
  induction fuel as [|f IH]; intros s l Hf Hs.
  - destruct l; [|cbn [length] in Hf; lia]. cbn. split; [exact Hs|discriminate].
  - destruct l as [|b l]; [cbn; split; [exact Hs|discriminate]|]. cbn [decode_frames_loop].
    pose proof (ok_one s b l Hs) as T. destruct (decode_one h o epoch s b l) as [s'|s' rest]; cbn in T.
    + cbn. split; [exact T|discriminate].
    + destruct T as [Hs' P]. apply IH; [|exact Hs']. apply progress_len in P. cbn [length] in *. lia.
Qed.

End inv.

Lemma dispatch_invariant : forall S (h : handlers S) o epoch (I : S -> Prop) s l,
  (forall s f, permitted (o_client o) epoch f -> announced o f -> I s -> I (fst (h_frame h s f))) ->
  (forall s c t, I s -> I (h_error h s c t)) ->
  I s -> I (fst (decode_frames h o epoch s l)).
Proof.
  intros S h o epoch I s l Hh He Hs. unfold decode_frames.
  apply (loop_ok h o epoch I Hh He); [reflexivity|exact Hs].
Qed.

Lemma dispatch_terminates : forall S (h : handlers S) o epoch s l,
  snd (decode_frames h o epoch s l) <> None.
Proof.
  intros. unfold decode_frames.
  apply (loop_ok h o epoch (fun _ => True)); auto.
Qed.

Lemma one_progress : forall S (h : handlers S) o epoch s b l s' rest,
  decode_one h o epoch s b l = Continue s' rest -> progress (b :: l) rest.
Proof.
  intros S h o epoch s b l s' rest H.
  pose proof (ok_one h o epoch (fun _ => True) (fun _ _ _ _ _ => I) (fun _ _ _ _ => I) s b l I) as T.
  rewrite H in T. apply T.
Qed.
