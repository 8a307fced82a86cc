(** Lemmas about ACK frames: completeness of construction, parsing and
    processing. *)
From Verif Require Import Base Tac Varint_model Varint_spec Varint_proofs
  Sack_model Sack_spec Sack_proofs Ack_model Ack_spec Ack_proofs.
From Coq Require Import Sorting.Sorted.

(** ** Parsing *)
Lemma decode_step : forall l v l', bytes_ok l -> frames_varint_decode l = Some (v, l') ->
  exists p, l = p ++ l' /\ is_varint v p /\ bytes_ok l' /\ v < two62.
Proof.
  intros l v l' Hok H. pose proof (frames_varint_decode_lt _ _ _ H Hok) as Hlt.
  apply varint_decode_iff in H; [|exact Hok].
  destruct H as (p & -> & Hp). apply Forall_app in Hok. exists p. tauto.
Qed.

Lemma is_varint_lt : forall v p, is_varint v p -> v < two62.
Proof.
  intros v p H. pose proof (is_varint_decode v p [] H (Forall_nil _)) as E.
  eapply frames_varint_decode_lt; [exact E|]. rewrite app_nil_r. apply (is_varint_ok _ _ H).
Qed.

Definition vd (l : list N) : option (N * list N) :=
  match varint_decode l with
  | Ok (0, _) => None
  | Ok (n, v) => Some (v, skipn (N.to_nat n) l)
  | _ => None end.

Lemma vd_eq : forall l, bytes_ok l -> vd l = frames_varint_decode l.
Proof.
  intros l Hok. unfold vd. rewrite varint_decode_agree by exact Hok.
  destruct (frames_varint_decode l) as [[v r]|] eqn:E; [|reflexivity].
  pose proof (frames_varint_decode_suffix _ _ _ E) as (p & -> & Hp).
  rewrite blen_app. replace (blen p + blen r - blen r) with (blen p) by lia.
  destruct (blen p) as [|k] eqn:Ek; [lia|]. rewrite <- Ek. unfold blen. rewrite Nat2N.id.
  rewrite skipn_app, skipn_all, Nat.sub_diag. reflexivity.
Qed.

Lemma decode_varint_length_eq : forall b, b < 256 -> decode_varint_length b = varint_len b.
Proof.
  intros b Hb. pose proof (varint_len_eq b) as H. clear H.
  apply N.eqb_eq.
  assert (H : forallb (fun b => decode_varint_length (N.of_nat b) =? varint_len (N.of_nat b)) (seq 0 256) = true)
    by (vm_compute; reflexivity).
  rewrite forallb_forall in H. specialize (H (N.to_nat b)). rewrite N2Nat.id in H. apply H.
  apply in_seq. lia.
Qed.

Definition header_values (path : option N) (largest delay nb : N) : list N :=
  match path with Some p => [p] | None => [] end ++ [largest; delay; nb].

Lemma parse_ack_header_eq : forall hp e l, bytes_ok l ->
  parse_ack_header hp e l =
  match frames_varint_decode l with
  | None => None
  | Some (_, l0) =>
    match (if hp then frames_varint_decode l0 else Some (0, l0)) with
    | None => None
    | Some (path_id, l1) =>
      match frames_varint_decode l1 with
      | None => None
      | Some (largest, l2) =>
        match frames_varint_decode l2 with
        | None => None
        | Some (delay, l3) =>
          match frames_varint_decode l3 with
          | None => None
          | Some (nb, l4) => Some ((path_id, largest, u64 (N.shiftl delay e), nb), l4)
          end
        end
      end
    end
  end.
Proof.
  intros hp e l Hok. 
  destruct l as [|b t]; [reflexivity|].
  change (parse_ack_header hp e (b :: t)) with
    (let skip := decode_varint_length b in
     if blen (b :: t) <? skip then None
     else
      let l0 := skipn (N.to_nat skip) (b :: t) in
      match (if hp then vd l0 else Some (0, l0)) with
      | None => None
      | Some (path_id, l1) =>
        match vd l1 with
        | None => None
        | Some (largest, l2) =>
          match vd l2 with
          | None => None
          | Some (delay, l3) =>
            match vd l3 with
            | None => None
            | Some (nb, l4) => Some ((path_id, largest, u64 (N.shiftl delay e), nb), l4)
            end
          end
        end
      end).
  cbv zeta.
  assert (Hb : b < 256) by (inversion Hok; assumption).
  rewrite decode_varint_length_eq by exact Hb.
  pose proof (frames_varint_skip_decode (b :: t)) as Hs.
  unfold frames_varint_skip, frames_fixed_skip in Hs.
  destruct (frames_varint_decode (b :: t)) as [[v0 l0]|] eqn:E.
  2:{ destruct (varint_len b <=? blen (b :: t)) eqn:E2; [discriminate|].
      replace (blen (b :: t) <? varint_len b) with true by (symmetry; apply N.ltb_lt; lia). reflexivity. }
  destruct (varint_len b <=? blen (b :: t)) eqn:E2; [|discriminate].
  apply some_inj in Hs. rewrite Hs.
  replace (blen (b :: t) <? varint_len b) with false by (symmetry; apply N.ltb_ge; lia).
  destruct (decode_step _ _ _ Hok E) as (p0 & _ & _ & Hok0 & _).
  rewrite vd_eq by exact Hok0.
  destruct hp.
  - destruct (frames_varint_decode l0) as [[path l1]|] eqn:E1; [|reflexivity].
    destruct (decode_step _ _ _ Hok0 E1) as (p1 & _ & _ & Hok1 & _). rewrite vd_eq by exact Hok1.
    destruct (frames_varint_decode l1) as [[la l2]|] eqn:E3; [|reflexivity].
    destruct (decode_step _ _ _ Hok1 E3) as (p2 & _ & _ & Hok2 & _). rewrite vd_eq by exact Hok2.
    destruct (frames_varint_decode l2) as [[de l3]|] eqn:E4; [|reflexivity].
    destruct (decode_step _ _ _ Hok2 E4) as (p3 & _ & _ & Hok3 & _). rewrite vd_eq by exact Hok3.
    reflexivity.
  - rewrite vd_eq by exact Hok0.
    destruct (frames_varint_decode l0) as [[la l2]|] eqn:E3; [|reflexivity].
    destruct (decode_step _ _ _ Hok0 E3) as (p2 & _ & _ & Hok2 & _). rewrite vd_eq by exact Hok2.
    destruct (frames_varint_decode l2) as [[de l3]|] eqn:E4; [|reflexivity].
    destruct (decode_step _ _ _ Hok2 E4) as (p3 & _ & _ & Hok3 & _). rewrite vd_eq by exact Hok3.
    reflexivity.
Qed.

Lemma parse_ack_header_sound : forall e l path largest delay nb l1, bytes_ok l ->
  parse_ack_header false e l = Some ((path, largest, delay, nb), l1) ->
  exists ty d0 pre, l = pre ++ l1 /\ varints [ty; largest; d0; nb] pre /\ bytes_ok l1 /\
    delay = u64 (d0 * 2 ^ e).
Proof.
  intros e l path largest delay nb l1 Hok H. rewrite parse_ack_header_eq in H by exact Hok.
  destruct (frames_varint_decode l) as [[ty r0]|] eqn:E0; [|discriminate].
  destruct (decode_step _ _ _ Hok E0) as (p0 & -> & V0 & Hok0 & _).
  destruct (frames_varint_decode r0) as [[la r1]|] eqn:E1; [|discriminate].
  destruct (decode_step _ _ _ Hok0 E1) as (p1 & -> & V1 & Hok1 & _).
  destruct (frames_varint_decode r1) as [[d0 r2]|] eqn:E2; [|discriminate].
  destruct (decode_step _ _ _ Hok1 E2) as (p2 & -> & V2 & Hok2 & _).
  destruct (frames_varint_decode r2) as [[n r3]|] eqn:E3; [|discriminate].
  destruct (decode_step _ _ _ Hok2 E3) as (p3 & -> & V3 & Hok3 & _).
  apply some_pair_inj in H. destruct H as [H ->].
  assert (path = 0 /\ largest = la /\ delay = u64 (N.shiftl d0 e) /\ nb = n) as (-> & -> & -> & ->)
    by (inversion H; auto).
  exists ty, d0, (p0 ++ p1 ++ p2 ++ p3). rewrite <- !app_assoc. split; [reflexivity|].
  split; [|split; [exact Hok3|rewrite N.shiftl_mul_pow2; reflexivity]].
  constructor; [exact V0|]. constructor; [exact V1|]. constructor; [exact V2|]. apply varints_one; exact V3.
Qed.

Lemma parse_ack_header_complete : forall e ty largest d0 nb pre l1,
  varints [ty; largest; d0; nb] pre -> bytes_ok l1 ->
  parse_ack_header false e (pre ++ l1) = Some ((0, largest, u64 (d0 * 2 ^ e), nb), l1).
Proof.
  intros e ty largest d0 nb pre l1 H Hok.
  assert (Hokp := varints_ok _ _ H).
  rewrite parse_ack_header_eq by (apply Forall_app; split; assumption).
  inversion H as [|? ? p0 b0 V0 H0]; subst; clear H.
  inversion H0 as [|? ? p1 b1 V1 H1]; subst; clear H0.
  inversion H1 as [|? ? p2 b2 V2 H2]; subst; clear H1.
  inversion H2 as [|? ? p3 b3 V3 H3]; subst; clear H2. inversion H3; subst; clear H3.
  rewrite app_nil_r in *.
  apply is_varint_ok in V0 as K0; apply is_varint_ok in V1 as K1;
    apply is_varint_ok in V2 as K2; apply is_varint_ok in V3 as K3.
  rewrite <- !app_assoc.
  rewrite (is_varint_decode ty p0) by (try exact V0; repeat (apply Forall_app; split); assumption).
  rewrite (is_varint_decode largest p1) by (try exact V1; repeat (apply Forall_app; split); assumption).
  rewrite (is_varint_decode d0 p2) by (try exact V2; repeat (apply Forall_app; split); assumption).
  rewrite (is_varint_decode nb p3) by assumption.
  rewrite N.shiftl_mul_pow2. reflexivity.
Qed.

Lemma read_ranges_sound : forall fuel largest nb l rs rest, bytes_ok l -> largest < two62 ->
  read_ranges fuel largest nb l = RangesOk rs rest ->
  exists first blocks p, l = p ++ rest /\ varints (first :: block_numbers blocks) p /\
    nb = N.of_nat (length blocks) /\ rfc_ranges largest first blocks = Some rs /\ bytes_ok rest.
Proof.
  induction fuel as [|f IH]; intros largest nb l rs rest Hok Hl H; cbn [read_ranges] in H; [discriminate|].
  destruct (frames_varint_decode l) as [[r0 l1]|] eqn:E0; [|discriminate].
  destruct (decode_step _ _ _ Hok E0) as (p0 & -> & V0 & Hok0 & L0).
  rewrite (u64_small (r0 + 1)) in H by (unfold two62, two64 in *; lia).
  rewrite (u64_small (largest + 1)) in H by (unfold two62, two64 in *; lia).
  destruct (largest + 1 <? r0 + 1) eqn:E1; [discriminate|].
  destruct (nb =? 0) eqn:E2.
  - inversion H; subst; clear H. exists r0, [], p0. split; [reflexivity|].
    split; [apply varints_one; exact V0|]. split; [cbn; lia|]. split; [|exact Hok0].
    unfold rfc_ranges. replace (r0 <=? largest) with true by (symmetry; apply N.leb_le; lia).
    cbn [rfc_blocks]. replace (largest + 1 - (r0 + 1)) with (largest - r0) by lia. reflexivity.
  - destruct (frames_varint_decode l1) as [[gap l2]|] eqn:E3; [|discriminate].
    destruct (decode_step _ _ _ Hok0 E3) as (p1 & -> & V1 & Hok1 & L1).
    rewrite (u64_small (gap + 1)) in H by (unfold two62, two64 in *; lia).
    rewrite (u64_small (gap + 1 + (r0 + 1))) in H by (unfold two62, two64 in *; lia).
    destruct (largest <? gap + 1 + (r0 + 1)) eqn:E4; [discriminate|].
    destruct (read_ranges f (largest - (gap + 1 + (r0 + 1))) (nb - 1) l2) as [rs2 rest2|rs2|] eqn:E5;
      try discriminate.
    inversion H; subst; clear H.
    apply IH in E5; [|exact Hok1|unfold two62 in *; lia].
    destruct E5 as (first & blocks & p & -> & V & Hn & R & Hokr).
    exists r0, ((gap, first) :: blocks), (p0 ++ p1 ++ p). rewrite <- !app_assoc. split; [reflexivity|].
    split.
    { constructor; [exact V0|]. cbn [block_numbers flat_map fst snd app]. constructor; [exact V1|exact V]. }
    split; [cbn [length]; lia|]. split; [|exact Hokr].
    unfold rfc_ranges in *. replace (r0 <=? largest) with true by (symmetry; apply N.leb_le; lia).
    cbn [rfc_blocks].
    replace (largest - (gap + 1 + (r0 + 1))) with (largest - r0 - gap - 2) in R by lia.
    destruct (first <=? largest - r0 - gap - 2) eqn:E6; [|discriminate].
    replace (gap + 2 + first <=? largest - r0) with true by (symmetry; apply N.leb_le; lia).
    destruct (rfc_blocks (largest - r0 - gap - 2 - first) blocks); [|discriminate].
    apply some_inj in R. subst rs2. replace (largest + 1 - (r0 + 1)) with (largest - r0) by lia. reflexivity.
Qed.

Lemma read_ranges_complete : forall blocks fuel largest first p rs rest,
  varints (first :: block_numbers blocks) p -> bytes_ok rest -> largest < two62 ->
  rfc_ranges largest first blocks = Some rs -> (length p < fuel)%nat ->
  read_ranges fuel largest (N.of_nat (length blocks)) (p ++ rest) = RangesOk rs rest.
Proof.
  induction blocks as [|[gap len] blocks IH]; intros fuel largest first p rs rest V Hok Hl R Hf.
  - destruct fuel as [|f]; [lia|]. cbn [block_numbers flat_map] in V.
    inversion V as [|? ? p0 b0 V0 Vn]; subst. inversion Vn; subst. rewrite app_nil_r in *.
    cbn [read_ranges]. rewrite (is_varint_decode first) by assumption.
    apply is_varint_lt in V0. unfold rfc_ranges in R. destruct (first <=? largest) eqn:E; [|discriminate].
    cbn [rfc_blocks] in R. apply some_inj in R. subst rs.
    rewrite (u64_small (first + 1)) by (unfold two62, two64 in *; lia).
    rewrite (u64_small (largest + 1)) by (unfold two62, two64 in *; lia).
    replace (largest + 1 <? first + 1) with false by (symmetry; apply N.ltb_ge; lia).
    cbn [length N.of_nat]. change (0 =? 0) with true. cbv iota.
    replace (largest + 1 - (first + 1)) with (largest - first) by lia. reflexivity.
  - destruct fuel as [|f]; [lia|]. cbn [block_numbers flat_map fst snd app] in V.
    change (flat_map (fun b : N * N => [fst b; snd b]) blocks) with (block_numbers blocks) in V.
    inversion V as [|? ? p0 b0 V0 Vn]; subst. clear V.
    inversion Vn as [|? ? p1 b1 V1 Vn2]; subst. clear Vn.
    pose proof (varints_ok _ _ Vn2) as Hok2.
    pose proof (is_varint_ok _ _ V1) as Hok1.
    cbn [read_ranges]. rewrite <- !app_assoc.
    rewrite (is_varint_decode first) by (try exact V0; repeat (apply Forall_app; split); assumption).
    pose proof (is_varint_lt _ _ V0) as L0. pose proof (is_varint_lt _ _ V1) as L1.
    unfold rfc_ranges in R. destruct (first <=? largest) eqn:E; [|discriminate].
    cbn [rfc_blocks] in R. destruct (gap + 2 + len <=? largest - first) eqn:E2; [|discriminate].
    destruct (rfc_blocks (largest - first - gap - 2 - len) blocks) as [rs2|] eqn:E3; [|discriminate].
    apply some_inj in R. subst rs.
    rewrite (u64_small (first + 1)) by (unfold two62, two64 in *; lia).
    rewrite (u64_small (largest + 1)) by (unfold two62, two64 in *; lia).
    replace (largest + 1 <? first + 1) with false by (symmetry; apply N.ltb_ge; lia).
    cbn [length]. replace (N.of_nat (S (length blocks)) =? 0) with false by (symmetry; apply N.eqb_neq; lia).
    rewrite (is_varint_decode gap) by (try exact V1; repeat (apply Forall_app; split); assumption).
    rewrite (u64_small (gap + 1)) by (unfold two62, two64 in *; lia).
    rewrite (u64_small (gap + 1 + (first + 1))) by (unfold two62, two64 in *; lia).
    replace (largest <? gap + 1 + (first + 1)) with false by (symmetry; apply N.ltb_ge; lia).
    replace (N.of_nat (S (length blocks)) - 1) with (N.of_nat (length blocks)) by lia.
    rewrite (IH f (largest - (gap + 1 + (first + 1))) len b1 ((largest - first - gap - 2 - len, largest - first - gap - 2) :: rs2) rest);
      try assumption.
    + replace (largest + 1 - (first + 1)) with (largest - first) by lia. reflexivity.
    + unfold two62 in *; lia.
    + unfold rfc_ranges. replace (largest - (gap + 1 + (first + 1))) with (largest - first - gap - 2) by lia.
      replace (len <=? largest - first - gap - 2) with true by (symmetry; apply N.leb_le; lia).
      rewrite E3. reflexivity.
    + apply is_varint_pos in V0. unfold blen in V0. rewrite app_length in Hf. rewrite app_length in Hf. lia.
Qed.

Lemma read_ranges_fuel : forall fuel largest nb l, (length l < fuel)%nat ->
  read_ranges fuel largest nb l <> RangesFuel.
Proof.
  induction fuel as [|f IH]; intros largest nb l Hf; [lia|]. cbn [read_ranges].
  destruct (frames_varint_decode l) as [[r0 l1]|] eqn:E0; [|discriminate].
  destruct (_ <? _); [discriminate|]. destruct (nb =? 0); [discriminate|].
  destruct (frames_varint_decode l1) as [[gap l2]|] eqn:E1; [|discriminate].
  destruct (_ <? _); [discriminate|].
  apply frames_varint_decode_len in E0. apply frames_varint_decode_len in E1. unfold blen in *.
  match goal with |- context [read_ranges f ?a ?b l2] => specialize (IH a b l2); destruct (read_ranges f a b l2) end;
    try discriminate. apply IH. lia.
Qed.

(** ** Processing *)
Definition below (x p : sent_packet) : Prop := p_seq p < p_seq x.
Definition descending (q : list sent_packet) : Prop := StronglySorted (fun a b => p_seq b < p_seq a) q.

Lemma filter_all : forall {A} (f : A -> bool) l, (forall x, In x l -> f x = true) -> filter f l = l.
Proof.
  induction l as [|x l IH]; intros H; cbn [filter]; [reflexivity|].
  rewrite H by (left; reflexivity). f_equal. apply IH. intros y Hy. apply H. right. exact Hy.
Qed.

Lemma filter_none : forall {A} (f : A -> bool) l, (forall x, In x l -> f x = false) -> filter f l = [].
Proof.
  induction l as [|x l IH]; intros H; cbn [filter]; [reflexivity|].
  rewrite H by (left; reflexivity). apply IH. intros y Hy. apply H. right. exact Hy.
Qed.

Lemma filter_ext_in' : forall {A} (f g : A -> bool) l, (forall x, In x l -> f x = g x) -> filter f l = filter g l.
Proof. intros. apply filter_ext_in. assumption. Qed.

Definition inr (low high : N) (p : sent_packet) : bool := (low <=? p_seq p) && (p_seq p <=? high).

Lemma process_ack_range_spec : forall ds highest range, descending ds -> range <= highest + 1 ->
  (forall p, In p ds -> inr (highest + 1 - range) highest p = true -> p_trap p = false) ->
  0 < range ->
  let r := process_ack_range ds highest range in
  rr_error r = false /\
  rr_passed r = filter (fun p => highest <? p_seq p) ds /\
  rr_left r = filter (fun p => p_seq p <? highest + 1 - range) ds /\
  rr_acked r = map p_seq (filter (inr (highest + 1 - range) highest) ds).
Proof.
  induction ds as [|p ds IH]; intros highest range Hd Hr Ht Hpos.
  - cbn. auto.
  - apply StronglySorted_inv in Hd. destruct Hd as [Hd Hp]. rewrite Forall_forall in Hp.
    cbn [process_ack_range]. cbv zeta.
    replace (range =? 0) with false by (symmetry; apply N.eqb_neq; lia).
    destruct (highest <? p_seq p) eqn:E1.
    + destruct (IH highest range Hd Hr) as (I1 & I2 & I3 & I4); [|exact Hpos|].
      { intros y Hy. apply Ht. right. exact Hy. }
      cbn [rr_passed rr_left rr_acked rr_error filter]. rewrite E1.
      replace (p_seq p <? highest + 1 - range) with false by (symmetry; apply N.ltb_ge; lia).
      assert (inr (highest + 1 - range) highest p = false) as ->.
      { unfold inr. apply andb_false_iff. right. apply N.leb_gt. lia. }
      rewrite I2. auto.
    + destruct (range <=? highest - p_seq p) eqn:E2.
      * cbn [rr_passed rr_left rr_acked rr_error].
        rewrite (filter_none (fun p => highest <? p_seq p)), (filter_all (fun q => p_seq q <? highest + 1 - range)),
          (filter_none (inr (highest + 1 - range) highest)); auto.
        -- intros y [<-|Hy]; unfold inr; apply andb_false_iff; left; apply N.leb_gt; [lia|].
           apply Hp in Hy. lia.
        -- intros y [<-|Hy]; apply N.ltb_lt; [lia|]. apply Hp in Hy. lia.
        -- intros y [<-|Hy]; apply N.ltb_ge; [lia|]. apply Hp in Hy. lia.
      * assert (Hin : inr (highest + 1 - range) highest p = true).
        { unfold inr. apply andb_true_iff. split; apply N.leb_le; lia. }
        rewrite (Ht p (or_introl eq_refl) Hin).
        cbn [rr_passed rr_left rr_acked rr_error filter]. rewrite E1, Hin.
        replace (p_seq p <? highest + 1 - range) with false by (symmetry; apply N.ltb_ge; lia).
        destruct (N.eq_dec (range - (highest - p_seq p) - 1) 0) as [Hz|Hnz].
        -- (* the range is exhausted *)
           rewrite Hz.
           assert (Hstop : process_ack_range ds (p_seq p - 1) 0 = mk_rr [] ds [] false)
             by (destruct ds; reflexivity).
           rewrite Hstop. cbn [rr_passed rr_left rr_acked rr_error map].
           rewrite (filter_none (fun p => highest <? p_seq p)), (filter_all (fun q => p_seq q <? highest + 1 - range)),
             (filter_none (inr (highest + 1 - range) highest)); auto.
           ++ intros y Hy; unfold inr; apply andb_false_iff; left; apply N.leb_gt.
              apply Hp in Hy. lia.
           ++ intros y Hy; apply N.ltb_lt. apply Hp in Hy. lia.
           ++ intros y Hy; apply N.ltb_ge. apply Hp in Hy. lia.
        -- assert (Heq : p_seq p - 1 + 1 - (range - (highest - p_seq p) - 1) = highest + 1 - range) by lia.
           destruct (IH (p_seq p - 1) (range - (highest - p_seq p) - 1) Hd) as (I1 & I2 & I3 & I4); try lia.
           { intros y Hy Hy2. apply Ht; [right; exact Hy|]. unfold inr in *.
             apply andb_true_iff in Hy2. apply andb_true_iff. rewrite !N.leb_le in *. lia. }
           rewrite Heq in *. rewrite I1, I2, I3, I4. cbn [map]. repeat split.
           ++ apply filter_ext_in. intros y Hy. apply Hp in Hy.
              destruct (p_seq p - 1 <? p_seq y) eqn:A; destruct (highest <? p_seq y) eqn:B; lia.
           ++ f_equal. f_equal. apply filter_ext_in. intros y Hy. apply Hp in Hy. unfold inr.
              f_equal. destruct (p_seq y <=? p_seq p - 1) eqn:A; destruct (p_seq y <=? highest) eqn:B; lia.
Qed.

(** if a trap is in the range, an error is reported *)
Lemma process_ack_range_trap : forall ds highest range, descending ds -> range <= highest + 1 -> 0 < range ->
  (exists p, In p ds /\ inr (highest + 1 - range) highest p = true /\ p_trap p = true) ->
  rr_error (process_ack_range ds highest range) = true.
Proof.
  induction ds as [|p ds IH]; intros highest range Hd Hr Hpos (t & Hin & Ht & Htrap); [destruct Hin|].
  apply StronglySorted_inv in Hd. destruct Hd as [Hd Hp]. rewrite Forall_forall in Hp.
  unfold inr in Ht. apply andb_true_iff in Ht. rewrite !N.leb_le in Ht.
  cbn [process_ack_range]. replace (range =? 0) with false by (symmetry; apply N.eqb_neq; lia).
  destruct (highest <? p_seq p) eqn:E1.
  - cbn [rr_error]. destruct Hin as [->|Hin]; [lia|]. apply IH; try assumption.
    exists t. repeat split; try assumption. unfold inr. apply andb_true_iff. rewrite !N.leb_le. lia.
  - destruct (range <=? highest - p_seq p) eqn:E2.
    + destruct Hin as [->|Hin]; [lia|]. apply Hp in Hin. lia.
    + destruct (p_trap p) eqn:E3; [reflexivity|]. cbn [rr_error].
      destruct Hin as [->|Hin]; [congruence|]. pose proof (Hp _ Hin) as Hlt.
      apply IH; try assumption; try lia. exists t. repeat split; try assumption.
      unfold inr. apply andb_true_iff. rewrite !N.leb_le. lia.
Qed.

(** ranges in decreasing order *)
Fixpoint rs_desc (top : N) (rs : list (N * N)) : Prop :=
  match rs with
  | [] => True
  | (low, high) :: rs' => low <= high /\ high < top /\ rs_desc low rs'
  end.

Lemma rs_desc_below : forall rs top low high, rs_desc top rs -> In (low, high) rs -> low <= high /\ high < top.
Proof.
  induction rs as [|[l h] rs IH]; intros top low high H Hin; cbn in *; [contradiction|].
  destruct H as (H1 & H2 & H3). destruct Hin as [E|Hin]; [inversion E; subst; auto|].
  apply IH with (low := low) (high := high) in H3; [lia|exact Hin].
Qed.

Lemma rfc_blocks_desc : forall blocks smallest rs, rfc_blocks smallest blocks = Some rs -> rs_desc smallest rs.
Proof.
  induction blocks as [|[g l] blocks IH]; intros smallest rs H; cbn [rfc_blocks] in H.
  - apply some_inj in H. subst. exact I.
  - destruct (g + 2 + l <=? smallest) eqn:E; [|discriminate].
    destruct (rfc_blocks (smallest - g - 2 - l) blocks) as [r|] eqn:E2; [|discriminate].
    apply some_inj in H. subst rs. cbn [rs_desc]. split; [lia|]. split; [lia|]. apply IH. exact E2.
Qed.

Lemma in_rangesb_spec : forall rs q, in_rangesb rs q = true <-> in_ranges rs q.
Proof.
  intros rs q. unfold in_rangesb, in_ranges. rewrite existsb_exists. split.
  - intros ([a b] & Hin & H). cbn [fst snd] in H. apply andb_true_iff in H. rewrite !N.leb_le in H. eauto.
  - intros (a & b & Hin & H). exists (a, b). split; [exact Hin|]. cbn [fst snd].
    apply andb_true_iff. rewrite !N.leb_le. exact H.
Qed.

Lemma filter_filter : forall {A} (f g : A -> bool) l,
  filter f (filter g l) = filter (fun x => g x && f x) l.
Proof.
  induction l as [|x l IH]; cbn [filter]; [reflexivity|].
  destruct (g x) eqn:E; cbn [filter andb]; [destruct (f x); rewrite IH; reflexivity|exact IH].
Qed.

Lemma filter_rev' : forall {A} (f : A -> bool) l, filter f (rev l) = rev (filter f l).
Proof.
  induction l as [|x l IH]; cbn [rev filter]; [reflexivity|].
  rewrite filter_app, IH. cbn [filter]. destruct (f x); cbn [rev]; [reflexivity|apply app_nil_r].
Qed.

Lemma ssorted_filter : forall {A} (R : A -> A -> Prop) f l, StronglySorted R l -> StronglySorted R (filter f l).
Proof.
  induction l as [|x l IH]; intros H; cbn [filter]; [constructor|].
  apply StronglySorted_inv in H. destruct H as [H Hx].
  destruct (f x); [constructor|]; auto. rewrite Forall_forall in *. intros y Hy. apply filter_In in Hy.
  apply Hx. tauto.
Qed.

Lemma desc_split : forall ds h l, descending ds -> l <= h ->
  rev (filter (fun p => p_seq p <? l) ds) ++ rev (filter (fun p => h <? p_seq p) ds) =
  rev (filter (fun p => negb (inr l h p)) ds).
Proof.
  induction ds as [|p ds IH]; intros h l Hd Hl; [reflexivity|].
  apply StronglySorted_inv in Hd. destruct Hd as [Hd Hp]. rewrite Forall_forall in Hp.
  cbn [filter]. unfold inr at 1.
  destruct (h <? p_seq p) eqn:E1.
  - replace (p_seq p <? l) with false by (symmetry; apply N.ltb_ge; lia).
    replace (p_seq p <=? h) with false by (symmetry; apply N.leb_gt; lia).
    rewrite andb_false_r. cbn [negb rev]. rewrite app_assoc, IH by assumption. reflexivity.
  - assert (Hf : filter (fun p => h <? p_seq p) ds = []).
    { apply filter_none. intros y Hy. apply Hp in Hy. apply N.ltb_ge. lia. }
    specialize (IH h l Hd Hl). rewrite Hf in *. cbn [rev] in *. rewrite app_nil_r in *.
    replace (p_seq p <=? h) with true by (symmetry; apply N.leb_le; lia). rewrite andb_true_r.
    destruct (p_seq p <? l) eqn:E2.
    + replace (l <=? p_seq p) with false by (symmetry; apply N.leb_gt; lia). cbn [negb rev]. rewrite IH. reflexivity.
    + replace (l <=? p_seq p) with true by (symmetry; apply N.leb_le; lia). cbn [negb]. exact IH.
Qed.

Lemma process_ranges_spec : forall rs ds passed top, descending ds -> rs_desc top rs ->
  (forall p, In p ds -> in_rangesb rs (p_seq p) = true -> p_trap p = false) ->
  exists acked,
  process_ranges ds passed rs = (rev (filter (fun p => negb (in_rangesb rs (p_seq p))) ds) ++ passed, acked, false) /\
  (forall q, In q acked <-> exists p, In p ds /\ p_seq p = q /\ in_rangesb rs q = true).
Proof.
  induction rs as [|[low high] rs IH]; intros ds passed top Hd Hr Ht.
  - exists []. cbn [process_ranges in_rangesb existsb negb]. rewrite filter_all by auto.
    split; [reflexivity|]. intros q. split; [intros []|]. intros (p & _ & _ & H). discriminate.
  - cbn [rs_desc] in Hr. destruct Hr as (R1 & R2 & R3). cbn [process_ranges].
    pose proof (process_ack_range_spec ds high (high + 1 - low) Hd) as X.
    replace (high + 1 - (high + 1 - low)) with low in X by lia.
    destruct X as (X1 & X2 & X3 & X4); try lia.
    { intros p Hp Hp2. apply Ht; [exact Hp|]. cbn [in_rangesb existsb fst snd]. unfold inr in Hp2.
      rewrite Hp2. reflexivity. }
    rewrite X1, X2, X3, X4.
    destruct (IH (filter (fun p => p_seq p <? low) ds) (rev (filter (fun p => high <? p_seq p) ds) ++ passed) low)
      as (acked & Hpr & Hac).
    { apply ssorted_filter. exact Hd. }
    { exact R3. }
    { intros p Hp Hp2. apply filter_In in Hp. apply Ht; [tauto|]. cbn [in_rangesb existsb fst snd].
      unfold in_rangesb in Hp2. rewrite Hp2. apply orb_true_r. }
    rewrite Hpr. exists (map p_seq (filter (inr low high) ds) ++ acked). split.
    + f_equal. f_equal. rewrite app_assoc. f_equal. rewrite filter_filter.
      (* the packets below low that stay *)
      rewrite <- (filter_rev' _ ds) at 1.
      assert (E1 : rev (filter (fun p => high <? p_seq p) ds) =
                   filter (fun p => negb (in_rangesb rs (p_seq p))) (rev (filter (fun p => high <? p_seq p) ds))).
      { symmetry. apply filter_all. intros y Hy. apply in_rev in Hy. apply filter_In in Hy.
        apply negb_true_iff. apply not_true_iff_false. intros Hc. apply in_rangesb_spec in Hc.
        destruct Hc as (a & b & Hin & Hc). apply (rs_desc_below _ _ _ _ R3) in Hin. lia. }
      rewrite E1.
      replace (filter (fun x => (p_seq x <? low) && negb (in_rangesb rs (p_seq x))) (rev ds))
        with (filter (fun p => negb (in_rangesb rs (p_seq p))) (filter (fun p => p_seq p <? low) (rev ds)))
        by apply filter_filter.
      rewrite (filter_rev' (fun p => p_seq p <? low)), <- filter_app, desc_split by assumption.
      rewrite filter_rev', filter_filter. f_equal. apply filter_ext. intros p.
      cbn [in_rangesb existsb fst snd]. unfold inr. rewrite negb_orb. reflexivity.
    + intros q. rewrite in_app_iff, Hac, in_map_iff. split.
      * intros [(p & <- & Hp)|(p & Hp & <- & Hq)].
        -- apply filter_In in Hp. destruct Hp as [Hp Hi]. exists p. repeat split; try assumption.
           cbn [in_rangesb existsb fst snd]. unfold inr in Hi. rewrite Hi. reflexivity.
        -- apply filter_In in Hp. exists p. repeat split; try tauto.
           cbn [in_rangesb existsb fst snd]. unfold in_rangesb in Hq. rewrite Hq. apply orb_true_r.
      * intros (p & Hp & <- & Hq). cbn [in_rangesb existsb fst snd] in Hq. apply orb_true_iff in Hq.
        destruct Hq as [Hq|Hq].
        -- left. exists p. split; [reflexivity|]. apply filter_In. split; [exact Hp|exact Hq].
        -- right. exists p. repeat split; [|exact Hq]. apply filter_In. split; [exact Hp|].
           apply in_rangesb_spec in Hq. destruct Hq as (a & b & Hin & Hc).
           apply (rs_desc_below _ _ _ _ R3) in Hin. apply N.ltb_lt. lia.
Qed.

Lemma process_ranges_trap : forall rs ds passed top, descending ds -> rs_desc top rs ->
  (exists p, In p ds /\ in_rangesb rs (p_seq p) = true /\ p_trap p = true) ->
  snd (process_ranges ds passed rs) = true.
Proof.
  induction rs as [|[low high] rs IH]; intros ds passed top Hd Hr (p & Hp & Hi & Ht); [discriminate|].
  cbn [rs_desc] in Hr. destruct Hr as (R1 & R2 & R3). cbn [process_ranges].
  destruct (existsb (fun p => inr low high p && p_trap p) ds) eqn:E.
  - apply existsb_exists in E. destruct E as (x & Hx & E). apply andb_true_iff in E.
    rewrite (process_ack_range_trap ds high (high + 1 - low)); try assumption; try lia; [reflexivity|].
    exists x. replace (high + 1 - (high + 1 - low)) with low by lia. tauto.
  - assert (Hno : forall x, In x ds -> inr low high x = true -> p_trap x = false).
    { intros x Hx Hi2. destruct (p_trap x) eqn:E2; [|reflexivity]. exfalso.
      assert (existsb (fun p => inr low high p && p_trap p) ds = true); [|congruence].
      apply existsb_exists. exists x. rewrite Hi2, E2. auto. }
    pose proof (process_ack_range_spec ds high (high + 1 - low) Hd) as X.
    replace (high + 1 - (high + 1 - low)) with low in X by lia.
    destruct X as (X1 & X2 & X3 & X4); try lia; try assumption.
    rewrite X1, X3.
    match goal with |- snd (let '(_, _) := ?e in _) = true => destruct e as [[q a] err] eqn:E2 end.
    cbn [snd]. change err with (snd (q, a, err)). rewrite <- E2. apply (IH _ _ low); try assumption.
    + apply ssorted_filter. exact Hd.
    + cbn [in_rangesb existsb fst snd] in Hi. apply orb_true_iff in Hi. destruct Hi as [Hi|Hi].
      * exfalso. rewrite (Hno p Hp Hi) in Ht. discriminate.
      * exists p. split; [|split; [exact Hi|exact Ht]]. apply filter_In. split; [exact Hp|].
        apply in_rangesb_spec in Hi. destruct Hi as (a0 & b0 & Hin & Hc).
        apply (rs_desc_below _ _ _ _ R3) in Hin. apply N.ltb_lt. lia.
Qed.

Lemma advance_spec : forall newer older largest o n, older <> [] ->
  advance older newer largest = (o, n) -> ascending (rev older ++ newer) ->
  rev o ++ n = rev older ++ newer /\ (forall p, In p n -> largest < p_seq p).
Proof.
  induction newer as [|x newer IH]; intros older largest o n Hne H Ha.
  - destruct older as [|p older]; [congruence|]. cbn [advance] in H. inversion H; subst.
    split; [reflexivity|]. intros p' [].
  - destruct older as [|p older]; [congruence|]. cbn [advance] in H.
    destruct (p_seq p <? largest) eqn:E.
    + apply IH in H; [|discriminate|].
      * destruct H as [H1 H2]. split; [|exact H2]. rewrite H1. cbn [rev]. rewrite <- !app_assoc. reflexivity.
      * cbn [rev]. rewrite <- !app_assoc. cbn [rev] in Ha. rewrite <- !app_assoc in Ha. exact Ha.
    + inversion H; subst. split; [reflexivity|]. intros y Hy. cbn [rev] in Ha. rewrite <- app_assoc in Ha.
      cbn [app] in Ha.
      assert (Hs : ascending (p :: x :: newer)).
      { clear - Ha. induction (rev older) as [|z l IHl]; [exact Ha|]. apply IHl.
        cbn [app] in Ha. apply StronglySorted_inv in Ha. tauto. }
      apply StronglySorted_inv in Hs. destruct Hs as [_ Hs]. rewrite Forall_forall in Hs.
      specialize (Hs y Hy). cbn beta in Hs. lia.
Qed.

Lemma ascending_rev : forall l, ascending l -> descending (rev l).
Proof.
  induction l as [|x l IH]; intros H; cbn [rev]; [constructor|].
  apply StronglySorted_inv in H. destruct H as [H Hx]. specialize (IH H).
  assert (Hall : forall y, In y (rev l) -> p_seq x < p_seq y).
  { intros y Hy. apply in_rev in Hy. rewrite Forall_forall in Hx. apply Hx. exact Hy. }
  clear - IH Hall. induction (rev l) as [|y m IHm]; cbn [app].
  - repeat constructor.
  - apply StronglySorted_inv in IH. destruct IH as [I1 I2]. constructor.
    + apply IHm; [exact I1|]. intros z Hz. apply Hall. right. exact Hz.
    + apply Forall_app. split; [exact I2|]. constructor; [|constructor]. apply Hall. left. reflexivity.
Qed.

Lemma ascending_app_l : forall a b, ascending (a ++ b) -> ascending a.
Proof.
  induction a as [|x a IH]; intros b H; [constructor|]. cbn [app] in H. apply StronglySorted_inv in H.
  destruct H as [H Hx]. apply Forall_app in Hx. constructor; [apply (IH b H)|tauto].
Qed.


Lemma find_acked_new : forall queue ha largest, ascending queue -> is_new ha largest ->
  exists o n, find_acked_packet queue ha largest = (o, n, true) /\ rev o ++ n = queue /\
    descending o /\ (forall p, In p n -> largest < p_seq p).
Proof.
  intros queue ha largest Ha Hn.
  assert (Hb : (ha <? largest) || (ha =? max64) = true).
  { apply orb_true_iff. rewrite N.ltb_lt, N.eqb_eq. exact Hn. }
  destruct queue as [|first rest]; cbn [find_acked_packet]; rewrite Hb.
  - exists [], []. repeat split; [constructor|intros p []].
  - destruct (advance [first] rest largest) as [o n] eqn:E. exists o, n.
    assert (Hne : [first] <> []) by discriminate.
    destruct (advance_spec _ _ _ _ _ Hne E Ha) as [E1 E2].
    split; [reflexivity|]. split; [exact E1|]. split; [|exact E2].
    cbn [rev app] in E1. rewrite <- (rev_involutive o). apply ascending_rev.
    apply (ascending_app_l _ n). rewrite E1. exact Ha.
Qed.

(** The effect of a valid ACK frame. *)
Lemma read_ecn_complete : forall (is_ecn : bool) ecn p rest, varints ecn p -> bytes_ok rest ->
  length ecn = (if is_ecn then 3%nat else 0%nat) -> read_ecn is_ecn (p ++ rest) = Some rest.
Proof.
  intros is_ecn ecn p rest V Hok Hl. unfold read_ecn. destruct is_ecn.
  - destruct ecn as [|a [|b [|c [|]]]]; try discriminate.
    inversion V as [|? ? p0 b0 V0 H0]; subst. inversion H0 as [|? ? p1 b1 V1 H1]; subst.
    inversion H1 as [|? ? p2 b2 V2 H2]; subst. inversion H2; subst. rewrite app_nil_r.
    unfold sbind. rewrite !frames_varint_skip_decode, <- !app_assoc.
    apply is_varint_ok in V0 as K0. apply is_varint_ok in V1 as K1. apply is_varint_ok in V2 as K2.
    rewrite (is_varint_decode a) by (try exact V0; repeat (apply Forall_app; split); assumption).
    rewrite frames_varint_skip_decode.
    rewrite (is_varint_decode b) by (try exact V1; repeat (apply Forall_app; split); assumption).
    rewrite frames_varint_skip_decode.
    rewrite (is_varint_decode c) by assumption. reflexivity.
  - destruct ecn; [|discriminate]. inversion V; subst. reflexivity.
Qed.

Lemma read_ecn_sound : forall (is_ecn : bool) l rest, bytes_ok l -> read_ecn is_ecn l = Some rest ->
  exists ecn p, l = p ++ rest /\ varints ecn p /\ length ecn = (if is_ecn then 3%nat else 0%nat).
Proof.
  intros is_ecn l rest Hok H. unfold read_ecn in H. destruct is_ecn.
  - unfold sbind in H. rewrite frames_varint_skip_decode in H.
    destruct (frames_varint_decode l) as [[a l1]|] eqn:E0; [|discriminate].
    destruct (decode_step _ _ _ Hok E0) as (p0 & -> & V0 & Hok0 & _).
    rewrite frames_varint_skip_decode in H.
    destruct (frames_varint_decode l1) as [[b l2]|] eqn:E1; [|discriminate].
    destruct (decode_step _ _ _ Hok0 E1) as (p1 & -> & V1 & Hok1 & _).
    rewrite frames_varint_skip_decode in H.
    destruct (frames_varint_decode l2) as [[c l3]|] eqn:E2; [|discriminate].
    destruct (decode_step _ _ _ Hok1 E2) as (p2 & -> & V2 & Hok2 & _).
    apply some_inj in H. subst l3. exists [a; b; c], (p0 ++ p1 ++ p2). rewrite <- !app_assoc.
    split; [reflexivity|]. split; [|reflexivity].
    constructor; [exact V0|]. constructor; [exact V1|]. apply varints_one. exact V2.
  - apply some_inj in H. subst l. exists [], []. repeat split. constructor.
Qed.

Lemma ack_frame_split : forall ty largest delay first blocks ecn bytes,
  ack_frame ty None largest delay first blocks ecn bytes <->
  exists p1 p2 p3, bytes = p1 ++ p2 ++ p3 /\
    varints [ty; largest; delay; N.of_nat (length blocks)] p1 /\
    varints (first :: block_numbers blocks) p2 /\ varints ecn p3.
Proof.
  intros. unfold ack_frame. cbn [app]. split.
  - intros H.
    change (ty :: largest :: delay :: N.of_nat (length blocks) :: first :: block_numbers blocks ++ ecn)
      with ([ty; largest; delay; N.of_nat (length blocks)] ++ (first :: block_numbers blocks) ++ ecn) in H.
    apply varints_app_inv in H. destruct H as (a & b & -> & Ha & Hb).
    apply varints_app_inv in Hb. destruct Hb as (c & d & -> & Hc & Hd). exists a, c, d. auto.
  - intros (p1 & p2 & p3 & -> & H1 & H2 & H3).
    apply (varints_app [ty; largest; delay; N.of_nat (length blocks)]
             (first :: block_numbers blocks ++ ecn)); [exact H1|].
    apply (varints_app (first :: block_numbers blocks) ecn); assumption.
Qed.

Lemma ack_frame_releases : forall queue ha sent (is_ecn : bool) e bytes rest ty largest delay first blocks ecn rs,
  ascending queue -> is_new ha largest -> largest < sent -> bytes_ok rest ->
  ack_frame ty None largest delay first blocks ecn bytes ->
  length ecn = (if is_ecn then 3%nat else 0%nat) ->
  rfc_ranges largest first blocks = Some rs ->
  (forall p, In p queue -> in_ranges rs (p_seq p) -> p_trap p = false) ->
  let out := decode_ack_frame queue ha sent is_ecn e (bytes ++ rest) in
  ao_rest out = Some rest /\
  ao_queue out = filter (fun p => negb (in_rangesb rs (p_seq p))) queue /\
  (forall q, In q (ao_acked out) <-> in_ranges rs q /\ In q (map p_seq queue)).
Proof.
  intros queue ha sent is_ecn e bytes rest ty largest delay first blocks ecn rs Ha Hn Hs Hok HF HL HR HT.
  apply ack_frame_split in HF. destruct HF as (p1 & p2 & p3 & -> & V1 & V2 & V3).
  pose proof (varints_ok _ _ V2) as K2. pose proof (varints_ok _ _ V3) as K3.
  assert (Hlt : largest < two62).
  { inversion V1 as [|? ? ? ? ? W]; subst. inversion W; subst. eapply is_varint_lt; eassumption. }
  unfold decode_ack_frame. rewrite <- !app_assoc.
  rewrite (parse_ack_header_complete e ty largest delay (N.of_nat (length blocks)))
    by (try exact V1; repeat (apply Forall_app; split); assumption).
  replace (sent <=? largest) with false by (symmetry; apply N.leb_gt; exact Hs).
  destruct (find_acked_new _ _ _ Ha Hn) as (o & n & -> & Hq & Hd & Hnew).
  rewrite (read_ranges_complete blocks _ largest first p2 rs (p3 ++ rest));
    try assumption; try (apply Forall_app; split; assumption).
  2:{ rewrite app_length. lia. }
  assert (Hdesc : rs_desc (largest + 1) rs).
  { unfold rfc_ranges in HR. destruct (first <=? largest) eqn:E; [|discriminate].
    destruct (rfc_blocks (largest - first) blocks) as [r|] eqn:E2; [|discriminate].
    apply some_inj in HR. subst rs. cbn [rs_desc]. split; [lia|]. split; [lia|].
    apply (rfc_blocks_desc blocks). exact E2. }
  destruct (process_ranges_spec rs o n _ Hd Hdesc) as (acked & Hp & Hac).
  { intros p Hp Hi. apply HT; [|apply in_rangesb_spec; exact Hi]. rewrite <- Hq.
    apply in_or_app. left. apply in_rev in Hp. exact Hp. }
  rewrite Hp. cbn [ao_rest ao_queue ao_acked].
  split; [apply (read_ecn_complete is_ecn ecn); assumption|].
  split.
  - rewrite <- filter_rev', <- Hq, filter_app. f_equal.
    symmetry. apply filter_all. intros y Hy. apply negb_true_iff. apply not_true_iff_false. intros Hc.
    apply in_rangesb_spec in Hc. destruct Hc as (a & b & Hin & Hc). apply Hnew in Hy.
    apply (rs_desc_below _ _ _ _ Hdesc) in Hin. lia.
  - intros q. rewrite Hac, <- Hq, map_app, in_app_iff, !in_map_iff. clear Hac. split.
    + intros (p & Hin & <- & Hr). apply in_rangesb_spec in Hr. split; [exact Hr|]. left. exists p.
      split; [reflexivity|]. apply in_rev in Hin. exact Hin.
    + intros (Hr & [(p & <- & Hin)|(p & <- & Hin)]).
      * exists p. apply in_rev in Hin. apply in_rangesb_spec in Hr. auto.
      * exfalso. destruct Hr as (a & b & Hin2 & Hc). apply Hnew in Hin.
        apply (rs_desc_below _ _ _ _ Hdesc) in Hin2. lia.
Qed.

(** A frame naming a number that was never sent. *)
Lemma ack_unsent_rejected : forall queue ha sent is_ecn e bytes rest ty largest delay first blocks ecn,
  ack_frame ty None largest delay first blocks ecn bytes -> bytes_ok rest -> sent <= largest ->
  decode_ack_frame queue ha sent is_ecn e (bytes ++ rest) = mk_ao queue [] None.
Proof.
  intros queue ha sent is_ecn e bytes rest ty largest delay first blocks ecn HF Hok Hs.
  apply ack_frame_split in HF. destruct HF as (p1 & p2 & p3 & -> & V1 & V2 & V3).
  pose proof (varints_ok _ _ V2) as K2. pose proof (varints_ok _ _ V3) as K3.
  unfold decode_ack_frame. rewrite <- !app_assoc.
  rewrite (parse_ack_header_complete e ty largest delay (N.of_nat (length blocks)))
    by (try exact V1; repeat (apply Forall_app; split); assumption).
  replace (sent <=? largest) with true by (symmetry; apply N.leb_le; exact Hs). reflexivity.
Qed.

(** What is accepted is a well formed frame. *)
Lemma ack_accepted_wf : forall queue ha sent (is_ecn : bool) e l rest, bytes_ok l ->
  ao_rest (decode_ack_frame queue ha sent is_ecn e l) = Some rest ->
  exists ty largest delay first blocks ecn rs bytes,
    l = bytes ++ rest /\ ack_frame ty None largest delay first blocks ecn bytes /\
    rfc_ranges largest first blocks = Some rs /\ largest < sent /\
    length ecn = (if is_ecn then 3%nat else 0%nat).
Proof.
  intros queue ha sent is_ecn e l rest Hok H. unfold decode_ack_frame in H.
  destruct (parse_ack_header false e l) as [[[[[path largest] delay] nb] l1]|] eqn:E; [|discriminate].
  destruct (parse_ack_header_sound _ _ _ _ _ _ _ Hok E) as (ty & d0 & pre & -> & V1 & Hok1 & _).
  assert (Hlt : largest < two62).
  { inversion V1 as [|? ? ? ? ? W]; subst. inversion W; subst. eapply is_varint_lt; eassumption. }
  destruct (sent <=? largest) eqn:Es; [discriminate|].
  destruct (find_acked_packet queue ha largest) as [[ds newer] nw].
  destruct (read_ranges (S (length l1)) largest nb l1) as [rs r|rs|] eqn:Er; try discriminate.
  2:{ destruct (process_ranges ds newer rs) as [[q a] er]. discriminate. }
  destruct (read_ranges_sound _ _ _ _ _ _ Hok1 Hlt Er) as (first & blocks & p & -> & V2 & -> & HR & Hokr).
  destruct (process_ranges ds newer rs) as [[q a] er]. cbn [ao_rest] in H. destruct er; [discriminate|].
  destruct (read_ecn_sound _ _ _ Hokr H) as (ecn & p3 & -> & V3 & HL).
  exists ty, largest, d0, first, blocks, ecn, rs, (pre ++ p ++ p3). rewrite <- !app_assoc.
  split; [reflexivity|]. split; [apply ack_frame_split; exists pre, p, p3; auto|].
  split; [exact HR|]. split; [lia|exact HL].
Qed.

(** An acknowledged trap is an error. *)
Lemma ack_trap_rejected : forall queue ha sent (is_ecn : bool) e bytes rest ty largest delay first blocks ecn rs,
  ascending queue -> is_new ha largest -> bytes_ok rest ->
  ack_frame ty None largest delay first blocks ecn bytes ->
  rfc_ranges largest first blocks = Some rs ->
  (exists p, In p queue /\ in_ranges rs (p_seq p) /\ p_trap p = true) ->
  ao_rest (decode_ack_frame queue ha sent is_ecn e (bytes ++ rest)) = None.
Proof.
  intros queue ha sent is_ecn e bytes rest ty largest delay first blocks ecn rs Ha Hn Hok HF HR (t & Hin & Hr & Ht).
  destruct (N.le_gt_cases sent largest) as [Hs|Hs].
  { rewrite (ack_unsent_rejected _ _ _ _ _ _ _ _ _ _ _ _ _ HF Hok Hs). reflexivity. }
  apply ack_frame_split in HF. destruct HF as (p1 & p2 & p3 & -> & V1 & V2 & V3).
  pose proof (varints_ok _ _ V2) as K2. pose proof (varints_ok _ _ V3) as K3.
  assert (Hlt : largest < two62).
  { inversion V1 as [|? ? ? ? ? W]; subst. inversion W; subst. eapply is_varint_lt; eassumption. }
  unfold decode_ack_frame. rewrite <- !app_assoc.
  rewrite (parse_ack_header_complete e ty largest delay (N.of_nat (length blocks)))
    by (try exact V1; repeat (apply Forall_app; split); assumption).
  replace (sent <=? largest) with false by (symmetry; apply N.leb_gt; exact Hs).
  destruct (find_acked_new _ _ _ Ha Hn) as (o & n & -> & Hq & Hd & Hnew).
  rewrite (read_ranges_complete blocks _ largest first p2 rs (p3 ++ rest));
    try assumption; try (apply Forall_app; split; assumption).
  2:{ rewrite app_length. lia. }
  assert (Hdesc : rs_desc (largest + 1) rs).
  { unfold rfc_ranges in HR. destruct (first <=? largest) eqn:E; [|discriminate].
    destruct (rfc_blocks (largest - first) blocks) as [r|] eqn:E2; [|discriminate].
    apply some_inj in HR. subst rs. cbn [rs_desc]. split; [lia|]. split; [lia|].
    apply (rfc_blocks_desc blocks). exact E2. }
  pose proof (process_ranges_trap rs o n _ Hd Hdesc) as X.
  destruct (process_ranges o n rs) as [[q a] er] eqn:E. cbn [snd] in X. rewrite X; [reflexivity|].
  exists t. split; [|split; [apply in_rangesb_spec; exact Hr|exact Ht]].
  rewrite <- Hq in Hin. apply in_app_or in Hin. destruct Hin as [Hin|Hin]; [apply in_rev; exact Hin|].
  exfalso. apply Hnew in Hin. destruct Hr as (a0 & b0 & Hin2 & Hc).
  apply (rs_desc_below _ _ _ _ Hdesc) in Hin2. lia.
Qed.

(** Whatever the frame, a packet leaves the queue only by being acknowledged. *)
Lemma process_ack_range_safe : forall ds highest range, range <= highest + 1 ->
  let r := process_ack_range ds highest range in
  (forall p, In p ds -> In p (rr_passed r) \/ In p (rr_left r) \/ In (p_seq p) (rr_acked r)) /\
  (forall p, In p (rr_passed r) \/ In p (rr_left r) -> In p ds) /\
  (forall q, In q (rr_acked r) -> highest + 1 - range <= q <= highest).
Proof.
  induction ds as [|p ds IH]; intros highest range Hr; cbn [process_ack_range]; cbv zeta.
  - cbn. intuition.
  - destruct (range =? 0) eqn:E0; [cbn; intuition|].
    destruct (highest <? p_seq p) eqn:E1.
    + destruct (IH highest range Hr) as (I1 & I2 & I3). cbn [rr_passed rr_left rr_acked].
      split; [|split; [|exact I3]].
      * intros x [<-|Hx]; [left; left; reflexivity|]. apply I1 in Hx. cbn [In]. tauto.
      * intros x [[<-|Hx]|Hx]; [left; reflexivity| |]; right; apply I2; tauto.
    + destruct (range <=? highest - p_seq p) eqn:E2; [cbn; intuition|].
      destruct (p_trap p); [cbn; intuition|].
      destruct (IH (p_seq p - 1) (range - (highest - p_seq p) - 1)) as (I1 & I2 & I3); [lia|].
      cbn [rr_passed rr_left rr_acked]. split; [|split].
      * intros x [<-|Hx]; [right; right; left; reflexivity|]. apply I1 in Hx. cbn [In]. tauto.
      * intros x Hx. right. apply I2. exact Hx.
      * intros q [<-|Hq]; [lia|]. apply I3 in Hq. lia.
Qed.

Lemma process_ranges_safe : forall rs ds passed q acked err,
  (forall a b, In (a, b) rs -> a <= b) ->
  process_ranges ds passed rs = (q, acked, err) ->
  (forall p, In p ds \/ In p passed -> In p q \/ In (p_seq p) acked) /\
  (forall p, In p q -> In p ds \/ In p passed) /\
  (forall x, In x acked -> in_ranges rs x).
Proof.
  induction rs as [|[low high] rs IH]; intros ds passed q acked err Hle H; cbn [process_ranges] in H.
  - inversion H; subst. repeat split; intros.
    + left. rewrite in_app_iff, <- in_rev. assumption.
    + rewrite in_app_iff, <- in_rev in H0. assumption.
    + destruct H0.
  - pose proof (Hle low high (or_introl eq_refl)) as Hlh.
    destruct (process_ack_range_safe ds high (high + 1 - low)) as (S1 & S2 & S3); [lia|].
    replace (high + 1 - (high + 1 - low)) with low in S3 by lia.
    set (r := process_ack_range ds high (high + 1 - low)) in *.
    destruct (rr_error r) eqn:Ee.
    + inversion H; subst; clear H. split; [|split].
      * intros p [Hp|Hp].
        -- apply S1 in Hp. rewrite !in_app_iff, <- !in_rev. tauto.
        -- left. rewrite !in_app_iff. tauto.
      * intros p Hp. rewrite !in_app_iff, <- !in_rev in Hp. destruct Hp as [Hp|[Hp|Hp]]; [| |right; exact Hp];
          left; apply S2; tauto.
      * intros x Hx. exists low, high. split; [left; reflexivity|]. apply S3. exact Hx.
    + destruct (process_ranges (rr_left r) (rev (rr_passed r) ++ passed) rs) as [[q2 a2] e2] eqn:E2.
      inversion H; subst; clear H.
      apply IH in E2; [|intros; apply Hle; right; assumption]. destruct E2 as (I1 & I2 & I3). split; [|split].
      * intros p Hp. rewrite in_app_iff.
        assert (Hx : (In p (rr_left r) \/ In p (rev (rr_passed r) ++ passed)) \/ In (p_seq p) (rr_acked r)).
        { rewrite in_app_iff, <- in_rev. destruct Hp as [Hp|Hp]; [apply S1 in Hp|]; tauto. }
        destruct Hx as [Hx|Hx]; [apply I1 in Hx|]; tauto.
      * intros p Hp. apply I2 in Hp. rewrite in_app_iff, <- in_rev in Hp.
        destruct Hp as [Hp|[Hp|Hp]]; [left; apply S2; tauto|left; apply S2; tauto|right; exact Hp].
      * intros x Hx. apply in_app_or in Hx. destruct Hx as [Hx|Hx].
        -- exists low, high. split; [left; reflexivity|]. apply S3. exact Hx.
        -- apply I3 in Hx. destruct Hx as (a & b & Hin & Hc). exists a, b. split; [right; exact Hin|exact Hc].
Qed.

Lemma advance_keeps : forall newer older largest o n, advance older newer largest = (o, n) ->
  rev o ++ n = rev older ++ newer.
Proof.
  induction newer as [|x newer IH]; intros older largest o n H; destruct older as [|p older]; cbn [advance] in H.
  - inversion H; reflexivity.
  - inversion H; reflexivity.
  - inversion H; reflexivity.
  - destruct (p_seq p <? largest); [|inversion H; reflexivity].
    apply IH in H. rewrite H. cbn [rev]. rewrite <- !app_assoc. reflexivity.
Qed.

Lemma find_acked_keeps : forall queue ha largest o n w, find_acked_packet queue ha largest = (o, n, w) ->
  rev o ++ n = queue.
Proof.
  intros queue ha largest o n w H. destruct queue as [|first rest]; cbn [find_acked_packet] in H.
  - inversion H; reflexivity.
  - destruct ((ha <? largest) || (ha =? max64)).
    + destruct (advance [first] rest largest) as [o1 n1] eqn:E. inversion H; subst.
      apply advance_keeps in E. rewrite E. reflexivity.
    + inversion H; reflexivity.
Qed.

(** [in_ranges] for accepted frames, also those that are not new. *)
Lemma ack_releases_only_named : forall queue ha sent is_ecn e bytes rest ty largest delay first blocks ecn rs,
  bytes_ok rest ->
  ack_frame ty None largest delay first blocks ecn bytes ->
  rfc_ranges largest first blocks = Some rs ->
  let out := decode_ack_frame queue ha sent is_ecn e (bytes ++ rest) in
  (forall p, In p queue -> In p (ao_queue out) \/ in_ranges rs (p_seq p)) /\
  (forall p, In p (ao_queue out) -> In p queue) /\
  (forall q, In q (ao_acked out) -> in_ranges rs q).
Proof.
  intros queue ha sent is_ecn e bytes rest ty largest delay first blocks ecn rs Hok HF HR.
  destruct (N.le_gt_cases sent largest) as [Hs|Hs].
  { rewrite (ack_unsent_rejected _ _ _ _ _ _ _ _ _ _ _ _ _ HF Hok Hs). cbn. intuition. }
  apply ack_frame_split in HF. destruct HF as (p1 & p2 & p3 & -> & V1 & V2 & V3).
  pose proof (varints_ok _ _ V2) as K2. pose proof (varints_ok _ _ V3) as K3.
  assert (Hlt : largest < two62).
  { inversion V1 as [|? ? ? ? ? W]; subst. inversion W; subst. eapply is_varint_lt; eassumption. }
  unfold decode_ack_frame. rewrite <- !app_assoc.
  rewrite (parse_ack_header_complete e ty largest delay (N.of_nat (length blocks)))
    by (try exact V1; repeat (apply Forall_app; split); assumption).
  replace (sent <=? largest) with false by (symmetry; apply N.leb_gt; exact Hs).
  destruct (find_acked_packet queue ha largest) as [[o n] w] eqn:Ef.
  apply find_acked_keeps in Ef.
  rewrite (read_ranges_complete blocks _ largest first p2 rs (p3 ++ rest));
    try assumption; try (apply Forall_app; split; assumption).
  2:{ rewrite app_length. lia. }
  assert (Hdesc : rs_desc (largest + 1) rs).
  { unfold rfc_ranges in HR. destruct (first <=? largest) eqn:E; [|discriminate].
    destruct (rfc_blocks (largest - first) blocks) as [r|] eqn:E2; [|discriminate].
    apply some_inj in HR. subst rs. cbn [rs_desc]. split; [lia|]. split; [lia|].
    apply (rfc_blocks_desc blocks). exact E2. }
  destruct (process_ranges o n rs) as [[q a] er] eqn:E. cbn [ao_queue ao_acked].
  apply process_ranges_safe in E.
  2:{ intros x y Hxy. apply (rs_desc_below _ _ _ _ Hdesc) in Hxy. tauto. }
  destruct E as (S1 & S2 & S3). rewrite <- Ef. split; [|split].
  - intros p Hp. rewrite in_app_iff, <- in_rev in Hp. apply S1 in Hp. destruct Hp; auto.
  - intros p Hp. apply S2 in Hp. rewrite in_app_iff, <- in_rev. exact Hp.
  - exact S3.
Qed.

(** ** Completeness of construction *)
Definition cnt_lt (f : sack_item -> N) (l : list sack_item) (m : N) : Z :=
  Z.of_nat (length (filter (fun it => f it <? m) l)).

Lemma cnt_lt_succ : forall f l m, cnt_lt f l (m + 1) = (cnt_lt f l m + cntf f l m)%Z.
Proof.
  induction l as [|x l IH]; intros m; [reflexivity|].
  unfold cnt_lt, cntf in *. cbn [filter]. specialize (IH m).
  destruct (f x <? m + 1) eqn:A; destruct (f x <? m) eqn:B; destruct (f x =? m) eqn:C; cbn [length]; lia.
Qed.

Lemma cnt_lt_le : forall f l m, (cnt_lt f l m <= Z.of_nat (length l))%Z.
Proof.
  intros. unfold cnt_lt. induction l as [|x l IH]; cbn [filter length]; [lia|].
  destruct (f x <? m); cbn [length]; lia.
Qed.

Lemma cnt_lt_full : forall f l m, cnt_lt f l m = Z.of_nat (length l) -> forall it, In it l -> f it < m.
Proof.
  intros f l m. unfold cnt_lt. induction l as [|x l IH]; intros H it Hin; [destruct Hin|].
  assert (Hle : (length (filter (fun it => (f it <? m)%N) l) <= length l)%nat).
  { clear. induction l as [|y l IH]; cbn [filter length]; [lia|]. destruct (f y <? m); cbn [length]; lia. }
  cbn [filter] in H. destruct (f x <? m) eqn:E; cbn [length] in H; [|lia].
  destruct Hin as [<-|Hin]; [lia|]. apply IH; [lia|exact Hin].
Qed.

Lemma select_loop_spec : forall fuel i cumul c fc f desc m k,
  (forall j, j < 4 -> (c j - (if N.eqb j fc then 1 else 0))%Z = cntf f desc j) ->
  i + N.of_nat fuel = 4 -> cumul = cnt_lt f desc i -> (length desc <= 32)%nat ->
  (forall it, In it desc -> f it <= 4) ->
  select_loop fuel i cumul c fc 32 = (m, k) ->
  (k <= 0)%Z /\ forall it, In it desc -> f it <= m.
Proof.
  induction fuel as [|fuel IH]; intros i cumul c fc f desc m k Hc Hi Hcu Hl Hle H; cbn [select_loop] in H.
  - inversion H; subst. split; [lia|exact Hle].
  - assert (Hcur : (if N.eqb i fc then cumul + c i - 1 else cumul + c i)%Z = cnt_lt f desc (i + 1)).
    { rewrite cnt_lt_succ. specialize (Hc i ltac:(lia)). destruct (i =? fc); lia. }
    rewrite Hcur in H. destruct (32 <=? cnt_lt f desc (i + 1))%Z eqn:E.
    + inversion H; subst. pose proof (cnt_lt_le f desc (m + 1)) as Hb. split; [lia|].
      intros it Hin. assert (f it < m + 1); [|lia]. apply (cnt_lt_full f desc (m + 1)); [lia|exact Hin].
    + eapply IH; [exact Hc| | |exact Hl|exact Hle|exact H]; [lia|reflexivity].
Qed.

Lemma encode_some : forall n room, 8 <= room -> exists p, frames_varint_encode n room = Some p /\ blen p <= 8.
Proof.
  intros n room H. rewrite frames_varint_encode_eq.
  assert (L : encode_varint_length n <= 8).
  { unfold encode_varint_length. repeat (destruct (_ <? _)); lia. }
  replace (encode_varint_length n <=? room) with true by (symmetry; apply N.leb_le; lia).
  eexists. split; [reflexivity|]. rewrite varint_bytes_length. exact L.
Qed.

Lemma wseq_some : forall (a b : writer) ka kb room,
  (forall r, ka <= r -> exists p, a r = Some p /\ blen p <= ka) ->
  (forall r, kb <= r -> exists p, b r = Some p /\ blen p <= kb) ->
  ka + kb <= room -> exists p, (a >>> b) room = Some p /\ blen p <= ka + kb.
Proof.
  intros a b ka kb room Ha Hb Hr. unfold wseq. destruct (Ha room) as (x & -> & Lx); [lia|].
  destruct (Hb (room - blen x)) as (y & -> & Ly); [lia|]. exists (x ++ y). split; [reflexivity|].
  rewrite blen_app. lia.
Qed.

Lemma format_ranges_all : forall (r : bool) desc c room nb nbmax skip lowest,
  desc_wf lowest desc -> lowest <= two62 -> (skip <= 0)%Z ->
  (forall it, In it desc -> (if r then nb1 it else nb0 it) <= nbmax) ->
  nb + N.of_nat (length desc) <= 32 -> 16 * N.of_nat (length desc) <= room ->
  exists b d2 c2 n2 blocks,
  format_ranges r desc c room nb nbmax skip lowest = (b, d2, c2, n2, false) /\
  n2 = nb + N.of_nat (length blocks) /\ blen b <= 16 * N.of_nat (length desc) /\
  varints (block_numbers blocks) b /\ rfc_blocks lowest blocks = Some (map rng desc).
Proof.
  induction desc as [|it d IH]; intros c room nb nbmax skip lowest Hd Hlo Hs Hn Hb Hr.
  - exists [], [], c, nb, []. cbn. refine (conj eq_refl (conj _ (conj _ (conj varints_nil eq_refl)))); lia.
  - cbn [desc_wf] in Hd. destruct Hd as (D1 & D2 & D3). cbn [format_ranges length] in *.
    replace (nb <? 32) with true by (symmetry; apply N.ltb_lt; lia).
    pose proof (Hn it (or_introl eq_refl)) as Hn1.
    replace ((if r then nb1 it else nb0 it) <=? nbmax) with true by (symmetry; apply N.leb_le; exact Hn1).
    replace (0 <? skip)%Z with false by (symmetry; apply Z.ltb_ge; exact Hs). rewrite andb_false_r.
    unfold two62 in *.
    rewrite u64_sub2 by (unfold two64; lia). rewrite u64_sub by (unfold two64; lia).
    destruct (wseq_some (frames_varint_encode (lowest - se it - 2)) (frames_varint_encode (se it - ss it)) 8 8 room)
      as (x & Ex & Lx); try (intros; apply encode_some; assumption); [lia|].
    rewrite Ex. apply wseq_inv in Ex. destruct Ex as (y & z & Ey & Ez & ->).
    apply encode_is_varint in Ey; [|unfold two62; lia]. destruct Ey as [Vy By].
    apply encode_is_varint in Ez; [|unfold two62; lia]. destruct Ez as [Vz Bz].
    destruct (IH (count_sent r c it) (room - blen (y ++ z)) (nb + 1) nbmax skip (ss it))
      as (b & d2 & c2 & n2 & blocks & Ef & L & Lb & V & R); try assumption; try lia.
    { intros x Hx. apply Hn. right. exact Hx. }
    rewrite Ef. exists ((y ++ z) ++ b), (item_sent r it :: d2), c2, n2,
      ((lowest - se it - 2, se it - ss it) :: blocks).
    split; [reflexivity|]. split; [cbn [length]; lia|]. split; [rewrite blen_app; lia|].
    split.
    { cbn [block_numbers flat_map fst snd app]. rewrite <- app_assoc.
      constructor; [exact Vy|]. constructor; [exact Vz|exact V]. }
    cbn [rfc_blocks]. replace (lowest - se it - 2 + 2 + (se it - ss it) <=? lowest) with true
      by (symmetry; apply N.leb_le; lia).
    replace (lowest - (lowest - se it - 2) - 2) with (se it) by lia.
    replace (se it - (se it - ss it)) with (ss it) by lia. rewrite R. reflexivity.
Qed.

Lemma record_sent_at_app : forall r a it b c,
  record_sent_at r (length a) (a ++ it :: b) c = (a ++ item_sent r it :: b, count_sent r c it).
Proof.
  induction a as [|x a IH]; intros it b c; cbn [length app record_sent_at]; [reflexivity|].
  rewrite IH. reflexivity.
Qed.

Definition is_sent (o : sack_op) : Prop := match o with OpSent _ _ => True | _ => False end.

Lemma sent_step : forall r a it b h dl c,
  sack_step (mk_sl (a ++ it :: b) h dl c) (OpSent r (length a)) =
  mk_sl (a ++ item_sent r it :: b) h dl (count_sent r c it).
Proof. intros. cbn [sack_step sl_items sl_rc]. rewrite record_sent_at_app. reflexivity. Qed.

Lemma format_ranges_history : forall r desc c room nb nbmax skip lowest b d2 c2 n2 m,
  format_ranges r desc c room nb nbmax skip lowest = (b, d2, c2, n2, m) ->
  exists sents, Forall is_sent sents /\ forall upper h dl,
    fold_left sack_step sents (mk_sl (rev desc ++ upper) h dl c) = mk_sl (rev d2 ++ upper) h dl c2.
Proof.
  induction desc as [|it d IH]; intros c room nb nbmax skip lowest b d2 c2 n2 m H; cbn [format_ranges] in H.
  - inversion H; subst. exists []. split; [constructor|reflexivity].
  - assert (Hsame : forall d0 c0, (exists sents, Forall is_sent sents /\ forall upper h dl,
      fold_left sack_step sents (mk_sl (rev d ++ upper) h dl c) = mk_sl (rev d0 ++ upper) h dl c0) ->
      exists sents, Forall is_sent sents /\ forall upper h dl,
      fold_left sack_step sents (mk_sl (rev (it :: d) ++ upper) h dl c) = mk_sl (rev (it :: d0) ++ upper) h dl c0).
    { intros d0 c0 (sents & Hs & Hf). exists sents. split; [exact Hs|]. intros. cbn [rev].
      rewrite <- !app_assoc. apply Hf. }
    destruct (nb <? 32).
    2:{ inversion H; subst. exists []. split; [constructor|reflexivity]. }
    destruct ((if r then nb1 it else nb0 it) <=? nbmax).
    + destruct (((if r then nb1 it else nb0 it) =? nbmax) && (0 <? skip)%Z).
      * destruct (format_ranges r d c room nb nbmax (skip - 1)%Z lowest) as [[[[b0 d0] c0] n0] m0] eqn:Ef.
        inversion H; subst. apply Hsame. eapply IH. exact Ef.
      * match type of H with match ?w with _ => _ end = _ => destruct w as [x|] end.
        2:{ inversion H; subst. exists []. split; [constructor|reflexivity]. }
        match type of H with (let '(_, _) := ?w in _) = _ => destruct w as [[[[b0 d0] c0] n0] m0] eqn:Ef end.
        inversion H; subst. apply IH in Ef. destruct Ef as (sents & Hs & Hf).
        exists (OpSent r (length (rev d)) :: sents). split; [constructor; [exact I|exact Hs]|].
        intros. cbn [rev]. rewrite <- !app_assoc. cbn [app fold_left]. rewrite sent_step. apply Hf.
    + destruct (format_ranges r d c room nb nbmax skip lowest) as [[[[b0 d0] c0] n0] m0] eqn:Ef.
      inversion H; subst. apply Hsame. eapply IH. exact Ef.
Qed.

(** Building an ACK frame is a sequence of range transmissions. *)
Lemma format_ack_frame_history : forall s r needed ecn mp delay room bytes s2 more,
  format_ack_frame s r needed ecn mp delay room = (bytes, s2, more) ->
  exists sents, Forall is_sent sents /\ s2 = fold_left sack_step sents s.
Proof.
  intros s r needed ecn mp delay room bytes s2 more H. unfold format_ack_frame in H.
  assert (Hid : exists sents, Forall is_sent sents /\ s = fold_left sack_step sents s).
  { exists []. split; [constructor|reflexivity]. }
  destruct (rev (sl_items s)) as [|last desc] eqn:Er; [inversion H; subst; exact Hid|].
  destruct (negb needed && _ && _); [inversion H; subst; exact Hid|].
  destruct (ack_prefix _ mp (se last) delay room) as [pre|]; [|inversion H; subst; exact Hid].
  destruct (room - blen pre <? 1); [inversion H; subst; exact Hid|].
  destruct (frames_varint_encode _ (room - blen pre - 1)) as [fr|]; [|inversion H; subst; exact Hid].
  destruct (select_ack_ranges _ _ _) as [nbmax skip].
  destruct (format_ranges _ _ _ _ _ _ _ _) as [[[[body desc2] c2] nb] m] eqn:Ef.
  apply format_ranges_history in Ef. destruct Ef as (sents & Hs & Hf).
  assert (Hres : s2 = mk_sl (rev (item_sent r last :: desc2)) (sl_horizon s) (sl_delay s) c2).
  { destruct ecn as [[[e0 e1] ce]|]; [|inversion H; reflexivity].
    match type of H with match ?w with _ => _ end = _ => destruct w end; inversion H; reflexivity. }
  exists (OpSent r (length (rev desc)) :: sents). split; [constructor; [exact I|exact Hs]|].
  rewrite Hres. cbn [fold_left rev].
  assert (Hitems : sl_items s = rev desc ++ [last]).
  { apply (f_equal (@rev _)) in Er. rewrite rev_involutive in Er. exact Er. }
  destruct s as [items h dl c]. cbn [sl_items sl_horizon sl_delay sl_rc] in *. rewrite Hitems.
  rewrite sent_step, Hf. reflexivity.
Qed.

(** All the ranges are named when there is room and few ranges. *)
Lemma format_ack_frame_all : forall s (r : bool) needed ecn mp delay room,
  (forall j, j < 4 -> (if r then rc1 (sl_rc s) j else rc0 (sl_rc s) j) =
                      cntf (if r then nb1 else nb0) (sl_items s) j) ->
  wf_from 0 (sl_items s) -> (forall it, In it (sl_items s) -> se it < two62) ->
  sl_items s <> [] ->
  (length (sl_items s) <= 33)%nat -> (forall it, In it (sl_items s) -> (if r then nb1 else nb0) it <= 4) ->
  needed = true -> 600 <= room -> (mp = None \/ ecn = None) ->
  delay < two62 -> (forall p, mp = Some p -> p < two62) ->
  (forall e0 e1 ce, ecn = Some (e0, e1, ce) -> e0 < two62 /\ e1 < two62 /\ ce < two62) ->
  exists bytes s2 ty first blocks ecns,
    format_ack_frame s r needed ecn mp delay room = (bytes, s2, false) /\
    ack_frame ty mp (sack_list_last s) delay first blocks ecns bytes /\
    rfc_ranges (sack_list_last s) first blocks = Some (rev (ranges s)) /\
    ecns = match ecn with Some (e0, e1, ce) => [e0; e1; ce] | None => [] end /\
    ty = match mp, ecn with None, None => 2 | None, Some _ => 3 | Some _, _ => ft_path_ack end.
Proof.
  intros s r needed ecn mp delay room Hc Hw Hs Hne Hlen Hnb -> Hroom Hor Hd Hmp Hecn.
  unfold format_ack_frame.
  destruct (rev (sl_items s)) as [|last desc] eqn:Er.
  { exfalso. apply Hne. apply (f_equal (@rev _)) in Er. rewrite rev_involutive in Er. exact Er. }
  assert (Hitems : sl_items s = rev desc ++ [last]).
  { apply (f_equal (@rev _)) in Er. rewrite rev_involutive in Er. exact Er. }
  assert (Hlast : In last (sl_items s)) by (rewrite Hitems; apply in_or_app; right; left; reflexivity).
  assert (Hld : (length desc <= 32)%nat) by (rewrite Hitems, app_length, rev_length in Hlen; cbn in Hlen; lia).
  cbn [negb andb].
  set (is_ecn := match ecn with Some _ => true | None => false end).
  pose proof (wf_from_bounds _ _ _ Hw Hlast) as (B1 & B2 & B3).
  pose proof (Hs _ Hlast) as B4.
  assert (Hdw : desc_wf (ss last) desc).
  { rewrite Hitems in Hw. apply wf_from_app in Hw. destruct Hw as [Hwa Hwp]. cbn [wf_from] in Hwp.
    pose proof (wf_desc _ _ Hwa (ss last)) as X. rewrite rev_involutive in X. apply X. lia. }
  assert (Hpre : exists pre, ack_prefix is_ecn mp (se last) delay room = Some pre /\ blen pre <= 32).
  { unfold ack_prefix. destruct mp as [p|].
    - destruct (wseq_some (frames_varint_encode (if is_ecn then ft_path_ack_ecn else ft_path_ack))
        (frames_varint_encode p >>> frames_varint_encode (se last) >>> frames_varint_encode delay) 8 24 room)
        as (x & Hx & Lx); [intros; apply encode_some; assumption| |lia|exists x; split; [exact Hx|lia]].
      intros r0 Hr0. apply (wseq_some _ _ 8 16); [intros; apply encode_some; assumption| |lia].
      intros r1 Hr1. apply (wseq_some _ _ 8 8); try (intros; apply encode_some; assumption). lia.
    - destruct (wseq_some (frames_varint_encode (if is_ecn then ft_ack_ecn else ft_ack))
        (frames_varint_encode (se last) >>> frames_varint_encode delay) 8 16 room)
        as (x & Hx & Lx); [intros; apply encode_some; assumption| |lia|exists x; split; [exact Hx|lia]].
      intros r1 Hr1. apply (wseq_some _ _ 8 8); try (intros; apply encode_some; assumption). lia. }
  destruct Hpre as (pre & Ep & Lp). rewrite Ep.
  replace (room - blen pre <? 1) with false by (symmetry; apply N.ltb_ge; lia).
  unfold two62 in *.
  rewrite u64_sub by (unfold two64; lia).
  destruct (encode_some (se last - ss last) (room - blen pre - 1)) as (fr & Ef & Lf); [lia|]. rewrite Ef.
  destruct (select_ack_ranges _ _ _) as [nbmax skip] eqn:Esel.
  unfold select_ack_ranges in Esel.
  apply (select_loop_spec _ _ _ _ _ (if r then nb1 else nb0) desc) in Esel; try reflexivity; try assumption.
  2:{ intros j Hj. specialize (Hc j Hj).
      assert (Hcnt : cntf (if r then nb1 else nb0) (sl_items s) j =
                (cntf (if r then nb1 else nb0) desc j +
                 (if N.eqb ((if r then nb1 else nb0) last) j then 1 else 0))%Z).
      { rewrite Hitems, cntf_app, cntf_cons, cntf_nil.
        assert (Hr : cntf (if r then nb1 else nb0) (rev desc) j = cntf (if r then nb1 else nb0) desc j).
        { unfold cntf. rewrite filter_rev', rev_length. reflexivity. }
        rewrite Hr. lia. }
      rewrite Hcnt in Hc. clear Hcnt.
      destruct r; cbn [count_sent item_sent rc0 rc1 nb0 nb1 bump_sent] in *; unfold bump_sent, bump, max_ack_range_repeat in *.
      - destruct (nb1 last <? 4) eqn:Ea; destruct (nb1 last + 1 <? 4) eqn:Eb;
        destruct (j =? nb1 last + 1) eqn:Ec; destruct (j =? nb1 last) eqn:Ed; destruct (nb1 last =? j) eqn:Eg; try lia.
      - destruct (nb0 last <? 4) eqn:Ea; destruct (nb0 last + 1 <? 4) eqn:Eb;
        destruct (j =? nb0 last + 1) eqn:Ec; destruct (j =? nb0 last) eqn:Ed; destruct (nb0 last =? j) eqn:Eg; try lia. }
  2:{ unfold cnt_lt. rewrite filter_none; [reflexivity|]. intros x _. apply N.ltb_ge. lia. }
  2:{ intros it Hin. apply Hnb. rewrite Hitems. apply in_or_app. left. apply in_rev. rewrite rev_involutive. exact Hin. }
  destruct Esel as [Hsk Hmx].
  destruct (format_ranges_all r desc (count_sent r (sl_rc s) last) (room - blen pre - 1 - blen fr) 0 nbmax skip (ss last))
    as (body & d2 & c2 & n2 & blocks & Efr & L & Lb & V & R); try assumption; try lia.
  { unfold two62. lia. }
  { intros it Hin. specialize (Hmx it Hin). destruct r; exact Hmx. }
  rewrite Efr.
  assert (Hnb2 : n2 <= 32).
  { assert (Hlb : length blocks = length desc).
    { clear - R. revert R. generalize (ss last). generalize dependent desc.
      induction blocks as [|[g l] bs IH]; intros desc lo R; cbn [rfc_blocks] in R.
      - apply some_inj in R. destruct desc; [reflexivity|discriminate].
      - destruct (g + 2 + l <=? lo); [|discriminate].
        destruct (rfc_blocks (lo - g - 2 - l) bs) as [rs|] eqn:E; [|discriminate].
        apply some_inj in R. destruct desc as [|x desc]; [discriminate|]. cbn [map] in R.
        cbn [length]. f_equal. apply (IH desc (lo - g - 2 - l)). rewrite E. f_equal. inversion R. reflexivity. }
    lia. }
  apply encode_is_varint in Ef; [|unfold two62 in *; lia]. destruct Ef as [Vf Bf].
  pose proof (ack_prefix_spec _ _ _ _ _ _ Ep B4 Hd Hmp) as [Vp Bp].
  assert (Hbytes : varints ((match mp with None => if is_ecn then ft_ack_ecn else ft_ack
                        | Some _ => if is_ecn then ft_path_ack_ecn else ft_path_ack end)
           :: match mp with Some p => [p] | None => [] end ++
              [se last; delay; N.of_nat (length blocks); se last - ss last] ++ block_numbers blocks)
              (pre ++ [u8 n2] ++ fr ++ body)).
  { match goal with |- varints ?v _ =>
      replace v with ((match mp with None => if is_ecn then ft_ack_ecn else ft_ack
                        | Some _ => if is_ecn then ft_path_ack_ecn else ft_path_ack end
           :: match mp with Some p => [p] | None => [] end ++ [se last; delay]) ++
           ([N.of_nat (length blocks); se last - ss last] ++ block_numbers blocks)) end.
    - apply varints_app; [exact Vp|].
      apply (varints_cons _ _ [u8 n2]).
      + replace (N.of_nat (length blocks)) with n2 by lia. apply byte_is_varint. lia.
      + constructor; [exact Vf|exact V].
    - destruct mp; reflexivity. }
  assert (Hlen2 : blen (pre ++ [u8 n2] ++ fr ++ body) <= 553).
  { rewrite !blen_app. change (blen [u8 n2]) with 1. lia. }
  assert (Hrg : rfc_ranges (se last) (se last - ss last) blocks = Some (rev (ranges s))).
  { unfold rfc_ranges. replace (se last - ss last <=? se last) with true by (symmetry; apply N.leb_le; lia).
    replace (se last - (se last - ss last)) with (ss last) by lia. rewrite R. f_equal.
    unfold ranges. rewrite Hitems, map_app, rev_app_distr, map_rev, rev_involutive. reflexivity. }
  assert (Hlst : sack_list_last s = se last) by (unfold sack_list_last; rewrite Er; reflexivity).
  rewrite Hlst.
  destruct ecn as [[[e0 e1] ce]|]; subst is_ecn; cbv iota in *.
  - destruct Hor as [->|]; [|discriminate]. cbn [app] in Hbytes.
    destruct (Hecn _ _ _ eq_refl) as (He0 & He1 & Hce).
    destruct (wseq_some (frames_varint_encode e0) (frames_varint_encode e1 >>> frames_varint_encode ce) 8 16
                (room - blen (pre ++ [u8 n2] ++ fr ++ body))) as (e & Ee & Le).
    { intros; apply encode_some; assumption. }
    { intros r1 Hr1. apply (wseq_some _ _ 8 8); try (intros; apply encode_some; assumption). lia. }
    { lia. }
    rewrite Ee. apply wseq_inv in Ee. destruct Ee as (y1 & z1 & E3 & Ee & ->).
    apply wseq_inv in Ee. destruct Ee as (y2 & z2 & E4 & Ee & ->).
    apply encode_is_varint in E3; [|assumption]. apply encode_is_varint in E4; [|assumption].
    apply encode_is_varint in Ee; [|assumption].
    eexists _, _, 3, (se last - ss last), blocks, [e0; e1; ce].
    split; [reflexivity|]. split; [|split; [exact Hrg|split; reflexivity]].
    unfold ack_frame. cbn [app].
    change (3 :: se last :: delay :: N.of_nat (length blocks) :: se last - ss last :: block_numbers blocks ++ [e0; e1; ce])
      with ((3 :: se last :: delay :: N.of_nat (length blocks) :: se last - ss last :: block_numbers blocks) ++ [e0; e1; ce]).
    change (pre ++ u8 n2 :: fr ++ body) with (pre ++ [u8 n2] ++ fr ++ body).
    apply varints_app; [exact Hbytes|].
    constructor; [tauto|]. constructor; [tauto|]. apply varints_one; tauto.
  - eexists _, _, _, (se last - ss last), blocks, [].
    split; [reflexivity|]. split; [|split; [exact Hrg|split; reflexivity]].
    unfold ack_frame. rewrite app_nil_r. destruct mp; exact Hbytes.
Qed.

(** ** Statements about reachable states *)
Lemma op62_valid : forall ops, Forall op62 ops -> Forall valid_op ops.
Proof.
  intros ops H. eapply Forall_impl; [|exact H]. intros [a b t|a b|r k]; cbn [op62 valid_op]; auto.
  intros [H1 H2]. split; [exact H1|]. unfold max64. change (2 ^ 62) with 4611686018427387904 in H2. lia.
Qed.

Lemma op62_items : forall ops, Forall op62 ops -> forall it, In it (sl_items (sack_run 0 ops)) -> se it < two62.
Proof.
  intros ops H it Hin. destruct (run_inv_run ops (op62_valid ops H)) as [Hd Hw Hs Hk Hm].
  pose proof (wf_from_bounds _ _ _ Hw Hin) as (B1 & B2 & B3).
  destruct (Hs (se it)) as (a & b & t & Hin2 & Hc).
  { exists it. split; [exact Hin|lia]. }
  rewrite Forall_forall in H. specialize (H _ Hin2). cbn [op62] in H.
  change (2 ^ 62) with 4611686018427387904 in H. unfold two62. lia.
Qed.

Lemma rfc_ranges_top : forall largest first blocks rs, rfc_ranges largest first blocks = Some rs ->
  in_ranges rs largest.
Proof.
  intros largest first blocks rs H. unfold rfc_ranges in H. destruct (first <=? largest) eqn:E; [|discriminate].
  destruct (rfc_blocks (largest - first) blocks); [|discriminate]. apply some_inj in H. subst rs.
  exists (largest - first), largest. split; [left; reflexivity|lia].
Qed.

Lemma ack_frame_of_history : forall ops r needed ecn mp delay room bytes s2 more,
  Forall op62 ops -> delay < 2 ^ 62 -> (forall p, mp = Some p -> p < 2 ^ 62) ->
  (forall e0 e1 ce, ecn = Some (e0, e1, ce) -> e0 < 2 ^ 62 /\ e1 < 2 ^ 62 /\ ce < 2 ^ 62) ->
  (mp = None \/ ecn = None) ->
  format_ack_frame (sack_run 0 ops) r needed ecn mp delay room = (bytes, s2, more) -> bytes <> [] ->
  exists ty largest first blocks ecns rs,
    ack_frame ty mp largest delay first blocks ecns bytes /\
    rfc_ranges largest first blocks = Some rs /\
    (forall q, in_ranges rs q -> recorded ops q) /\
    in_ranges rs largest /\ (forall q, recorded ops q -> q <= largest) /\
    blen bytes <= room /\
    (mp = None -> (ty = 2 /\ ecns = []) \/ (ty = 3 /\ length ecns = 3%nat)) /\
    (mp <> None -> ty = 354585600 /\ ecns = []).
Proof.
  intros ops r needed ecn mp delay room bytes s2 more Hops Hd Hmp Hecn Hor H Hne.
  pose proof (op62_valid ops Hops) as Hv.
  destruct (run_inv_run ops Hv) as [Hdl Hw Hs Hk Hm].
  apply format_ack_frame_spec in H; try assumption; [|apply op62_items; exact Hops].
  destruct H as [_ [H|H]]; [congruence|].
  destruct H as (ty & largest & first & blocks & ecns & rs & HF & HR & HI & HL & HN & H1 & H2 & HB).
  exists ty, largest, first, blocks, ecns, rs.
  split; [exact HF|]. split; [exact HR|].
  split.
  { intros q (a & b & Hin & Hc). apply HI in Hin. unfold ranges in Hin. apply in_map_iff in Hin.
    destruct Hin as (it & Hit & Hin). inversion Hit; subst. apply Hs. exists it. split; [exact Hin|exact Hc]. }
  split; [apply (rfc_ranges_top _ _ _ _ HR)|].
  split; [|split; [exact HB|split; [exact H1|exact H2]]].
  intros q Hq.
  (* the maximum recorded *)
  assert (Hmax : exists m, recorded ops m /\ forall r0, recorded ops r0 -> r0 <= m).
  { clear - Hq Hv. revert Hq Hv. revert q. induction ops as [|o ops IH]; intros q Hq Hv.
    - destruct Hq as (a & b & t & [] & _).
    - inversion Hv as [|? ? Ho Hv']; subst.
      assert (Hcase : (exists m, recorded ops m) \/ ~ exists m, recorded ops m).
      { clear. induction ops as [|o ops IH].
        - right. intros (m & a & b & t & [] & _).
        - destruct o as [a b t|a b|r k].
          + destruct (N.le_gt_cases a b) as [Hab|Hab].
            * left. exists a, a, b, t. split; [left; reflexivity|lia].
            * destruct IH as [(m & a0 & b0 & t0 & Hin & Hc)|IH].
              -- left. exists m, a0, b0, t0. split; [right; exact Hin|exact Hc].
              -- right. intros (m & a0 & b0 & t0 & [E|Hin] & Hc); [inversion E; subst; lia|].
                 apply IH. exists m, a0, b0, t0. auto.
          + destruct IH as [(m & a0 & b0 & t0 & Hin & Hc)|IH].
            * left. exists m, a0, b0, t0. split; [right; exact Hin|exact Hc].
            * right. intros (m & a0 & b0 & t0 & [E|Hin] & Hc); [discriminate|]. apply IH. exists m, a0, b0, t0. auto.
          + destruct IH as [(m & a0 & b0 & t0 & Hin & Hc)|IH].
            * left. exists m, a0, b0, t0. split; [right; exact Hin|exact Hc].
            * right. intros (m & a0 & b0 & t0 & [E|Hin] & Hc); [discriminate|]. apply IH. exists m, a0, b0, t0. auto. }
      destruct Hcase as [(m & Hmr)|Hno].
      + destruct (IH m Hmr Hv') as (x & Hx & Hxm).
        destruct o as [a b t|a b|r k].
        * destruct (N.le_gt_cases b x) as [Hbx|Hbx].
          -- exists x. split.
             ++ destruct Hx as (a0 & b0 & t0 & Hin & Hc). exists a0, b0, t0. split; [right; exact Hin|exact Hc].
             ++ intros y (a0 & b0 & t0 & [E|Hin] & Hc); [inversion E; subst; lia|]. apply Hxm. exists a0, b0, t0. auto.
          -- exists b. cbn [valid_op] in Ho. split; [exists a, b, t; split; [left; reflexivity|lia]|].
             intros y (a0 & b0 & t0 & [E|Hin] & Hc); [inversion E; subst; lia|].
             assert (y <= x) by (apply Hxm; exists a0, b0, t0; auto). lia.
        * exists x. split.
          -- destruct Hx as (a0 & b0 & t0 & Hin & Hc). exists a0, b0, t0. split; [right; exact Hin|exact Hc].
          -- intros y (a0 & b0 & t0 & [E|Hin] & Hc); [discriminate|]. apply Hxm. exists a0, b0, t0. auto.
        * exists x. split.
          -- destruct Hx as (a0 & b0 & t0 & Hin & Hc). exists a0, b0, t0. split; [right; exact Hin|exact Hc].
          -- intros y (a0 & b0 & t0 & [E|Hin] & Hc); [discriminate|]. apply Hxm. exists a0, b0, t0. auto.
      + destruct Hq as (a & b & t & [E|Hin] & Hc).
        * subst o. cbn [valid_op] in Ho. exists b. split; [exists a, b, t; split; [left; reflexivity|lia]|].
          intros y (a0 & b0 & t0 & [E|Hin] & Hc2); [inversion E; subst; lia|].
          exfalso. apply Hno. exists y, a0, b0, t0. auto.
        * exfalso. apply Hno. exists q, a, b, t. auto. }
  destruct Hmax as (m & Hmr & Hmm).
  destruct (last_is_max ops Hv m Hmr Hmm) as [HLm _]. rewrite HL, HLm. apply Hmm. exact Hq.
Qed.

(** What a peer releases on reception of our ACK was received by us. *)
Lemma ack_peer_release : forall ops r needed ecn delay room bytes s2 more queue ha sent e rest,
  Forall op62 ops -> delay < 2 ^ 62 ->
  (forall e0 e1 ce, ecn = Some (e0, e1, ce) -> e0 < 2 ^ 62 /\ e1 < 2 ^ 62 /\ ce < 2 ^ 62) ->
  format_ack_frame (sack_run 0 ops) r needed ecn None delay room = (bytes, s2, more) -> bytes <> [] ->
  bytes_ok rest ->
  forall q, In q (ao_acked (decode_ack_frame queue ha sent (N.eqb (hd 0 bytes) 3) e (bytes ++ rest))) -> recorded ops q.
Proof.
  intros ops r needed ecn delay room bytes s2 more queue ha sent e rest Hops Hd Hecn H Hne Hok q Hq.
  destruct (ack_frame_of_history ops r needed ecn None delay room bytes s2 more) as
    (ty & largest & first & blocks & ecns & rs & HF & HR & HI & _); auto.
  { intros p E. discriminate. }
  apply HI.
  destruct (ack_releases_only_named queue ha sent (N.eqb (hd 0 bytes) 3) e bytes rest ty largest delay first blocks ecns rs)
    as (_ & _ & X); auto.
Qed.

Lemma ack_all_ranges : forall ops (r : bool) ecn mp delay room,
  Forall op62 ops -> delay < 2 ^ 62 -> (forall p, mp = Some p -> p < 2 ^ 62) ->
  (forall e0 e1 ce, ecn = Some (e0, e1, ce) -> e0 < 2 ^ 62 /\ e1 < 2 ^ 62 /\ ce < 2 ^ 62) ->
  (mp = None \/ ecn = None) ->
  let s := sack_run 0 ops in
  sl_items s <> [] -> (length (sl_items s) <= 33)%nat ->
  (forall it, In it (sl_items s) -> (if r then nb1 else nb0) it <= 4) -> 600 <= room ->
  exists bytes s2 ty largest first blocks ecns,
    format_ack_frame s r true ecn mp delay room = (bytes, s2, false) /\
    ack_frame ty mp largest delay first blocks ecns bytes /\
    rfc_ranges largest first blocks = Some (rev (ranges s)) /\
    ecns = match ecn with Some (e0, e1, ce) => [e0; e1; ce] | None => [] end /\
    ty = match mp, ecn with None, None => 2 | None, Some _ => 3 | Some _, _ => 354585600 end.
Proof.
  intros ops r ecn mp delay room Hops Hd Hmp Hecn Hor s Hne Hlen Hnb Hroom.
  pose proof (op62_valid ops Hops) as Hv. destruct (run_inv_run ops Hv) as [Hdl Hw Hs Hk Hm].
  destruct (format_ack_frame_all s r true ecn mp delay room) as
    (bytes & s2 & ty & first & blocks & ecns & H1 & H2 & H3 & H4 & H5); auto.
  - intros j Hj. destruct (counts_exact ops j Hj) as [C0 C1]. destruct r; [exact C1|exact C0].
  - apply op62_items. exact Hops.
  - exists bytes, s2, ty, (sack_list_last s), first, blocks, ecns. auto.
Qed.

Lemma path_ack_ecn_invents : exists ops bytes s2 more frame rest,
  Forall op62 ops /\
  format_ack_frame (sack_run 0 ops) false true (Some (100, 0, 0)) (Some 1) 0 10 = (bytes, s2, more) /\
  bytes = frame ++ rest /\
  ack_frame 2 None 34 201392384 0 [] [] frame /\
  ~ recorded ops 34 /\
  ao_acked (decode_ack_frame [mk_sent 34 false] 20 40 false 0 bytes) = [34].
Proof.
  exists [OpUpdate 0 0 1]. eexists _, _, _, [2; 34; 140; 1; 1; 0; 0; 0], [0].
  split; [repeat constructor; vm_compute; congruence|].
  split; [vm_compute; reflexivity|].
  split; [reflexivity|].
  split.
  { unfold ack_frame. cbn [app length block_numbers flat_map N.of_nat].
    apply (varints_cons 2 _ [2]); [apply (byte_is_varint 2); reflexivity|].
    apply (varints_cons 34 _ [34]); [apply (byte_is_varint 34); reflexivity|].
    apply (varints_cons 201392384 _ [140; 1; 1; 0]).
    { exists 2. vm_compute. repeat split; try reflexivity; try discriminate. repeat constructor. }
    apply (varints_cons 0 _ [0]); [apply (byte_is_varint 0); reflexivity|].
    apply (varints_cons 0 _ [0]); [apply (byte_is_varint 0); reflexivity|]. constructor. }
  split; [|vm_compute; reflexivity].
  intros (a & b & t & [E|[]] & Hc). inversion E; subst. lia.
Qed.

Lemma old_ack_leaves_packets : exists queue bytes q,
  ascending queue /\ In q queue /\
  ack_frame 2 None 10 0 1 [] [] bytes /\ in_ranges [(9, 10)] (p_seq q) /\
  rfc_ranges 10 1 [] = Some [(9, 10)] /\
  ao_rest (decode_ack_frame queue 10 20 false 3 bytes) = Some [] /\
  In q (ao_queue (decode_ack_frame queue 10 20 false 3 bytes)).
Proof.
  exists [mk_sent 7 false; mk_sent 9 false], [2; 10; 0; 0; 1], (mk_sent 9 false).
  split; [repeat constructor; cbn; lia|].
  split; [right; left; reflexivity|].
  split.
  { unfold ack_frame. cbn [app length block_numbers flat_map N.of_nat].
    apply (varints_cons 2 _ [2]); [apply (byte_is_varint 2); reflexivity|].
    apply (varints_cons 10 _ [10]); [apply (byte_is_varint 10); reflexivity|].
    apply (varints_cons 0 _ [0]); [apply (byte_is_varint 0); reflexivity|].
    apply (varints_cons 0 _ [0]); [apply (byte_is_varint 0); reflexivity|].
    apply (varints_cons 1 _ [1]); [apply (byte_is_varint 1); reflexivity|]. constructor. }
  split; [exists 9, 10; cbn; split; [auto|lia]|].
  split; [reflexivity|]. split; [vm_compute; reflexivity|]. vm_compute. auto.
Qed.
