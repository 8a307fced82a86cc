(** Proofs about the serialization of tokens. *)
From Verif Require Import Base Tac Varint_model Varint_spec Varint_proofs Mem Mem_proofs Lb_spec Lb_proofs Token_model Token_spec.

Lemma format_16_be v : format_16 v = be_bytes 2 v.
Proof.
  unfold format_16, u8. rewrite shiftr8. cbn [be_bytes app]. reflexivity.
Qed.
Lemma format_64_be v : format_64 v = be_bytes 8 v.
Proof.
  unfold format_64, u8. rewrite shiftr8, shiftr16, shiftr24, shiftr32, shiftr40, shiftr48, shiftr56.
  cbn [be_bytes app]. rewrite !N.div_div by lia. reflexivity.
Qed.

Lemma parse_be_value l : parse_be l = be_value l.
Proof. reflexivity. Qed.

Lemma parse_16 v : v < 65536 -> parse_be (format_16 v) = v.
Proof. intros H. rewrite parse_be_value, format_16_be, be_bytes_value. apply N.mod_small. exact H. Qed.
Lemma parse_64 v : v < two64 -> parse_be (format_64 v) = v.
Proof. intros H. rewrite parse_be_value, format_64_be, be_bytes_value. apply N.mod_small. exact H. Qed.

Lemma format_16_len v : blen (format_16 v) = 2. Proof. reflexivity. Qed.
Lemma format_64_len v : blen (format_64 v) = 8. Proof. reflexivity. Qed.

Lemma be_2_lt l : bytes_ok l -> blen l = 2 -> parse_be l < 65536.
Proof. intros H E. rewrite parse_be_value. pose proof (be_value_lt l H) as B. rewrite E in B. exact B. Qed.

(** The bytes of a record. *)
Definition body (t : token) : list N :=
  format_64 (tk_valid t) ++ format_16 (blen (tk_sni t)) ++ tk_sni t ++ format_16 (blen (tk_ip t)) ++ tk_ip t ++
  format_16 (blen (tk_tok t)) ++ tk_tok t.

Lemma body_len t : blen (body t) = record_size t.
Proof. unfold body, record_size. rewrite !blen_app, format_64_len, !format_16_len. lia. Qed.

Lemma serialize_eq t m : serialize t m = if m <? record_size t then None else Some (body t).
Proof. reflexivity. Qed.

Lemma read_at a s b off n : off = blen a -> n = blen s -> mem_read off n (a ++ s ++ b) = Some s.
Proof. apply mem_split3. Qed.

Lemma body_read t : sane_token t ->
  mem_read 0 8 (body t) = Some (format_64 (tk_valid t)) /\
  mem_read 8 2 (body t) = Some (format_16 (blen (tk_sni t))) /\
  mem_read 10 (blen (tk_sni t)) (body t) = Some (tk_sni t) /\
  mem_read (10 + blen (tk_sni t)) 2 (body t) = Some (format_16 (blen (tk_ip t))) /\
  mem_read (10 + blen (tk_sni t) + 2) (blen (tk_ip t)) (body t) = Some (tk_ip t) /\
  mem_read (10 + blen (tk_sni t) + 2 + blen (tk_ip t)) 2 (body t) = Some (format_16 (blen (tk_tok t))) /\
  mem_read (10 + blen (tk_sni t) + 2 + blen (tk_ip t) + 2) (blen (tk_tok t)) (body t) = Some (tk_tok t).
Proof.
  intros _. unfold body.
  generalize (format_64_len (tk_valid t)) (format_16_len (blen (tk_sni t))) (format_16_len (blen (tk_ip t)))
    (format_16_len (blen (tk_tok t))).
  generalize (format_64 (tk_valid t)) (format_16 (blen (tk_sni t))) (format_16 (blen (tk_ip t))) (format_16 (blen (tk_tok t))).
  generalize (tk_sni t) (tk_ip t) (tk_tok t). intros s i k a b c d Ha Hb Hc Hd. repeat split.
  - apply (mem_split3 [] a); [reflexivity | lia].
  - apply (mem_split3 a b); lia.
  - rewrite (app_assoc a b). apply mem_split3; rewrite ?mem_blen_app; lia.
  - rewrite (app_assoc a b), (app_assoc (a ++ b) s). apply mem_split3; rewrite ?mem_blen_app; lia.
  - rewrite (app_assoc a b), (app_assoc (a ++ b) s), (app_assoc ((a ++ b) ++ s) c). apply mem_split3; rewrite ?mem_blen_app; lia.
  - rewrite (app_assoc a b), (app_assoc (a ++ b) s), (app_assoc ((a ++ b) ++ s) c), (app_assoc (((a ++ b) ++ s) ++ c) i).
    apply mem_split3; rewrite ?mem_blen_app; lia.
  - rewrite (app_assoc a b), (app_assoc (a ++ b) s), (app_assoc ((a ++ b) ++ s) c), (app_assoc (((a ++ b) ++ s) ++ c) i),
      (app_assoc ((((a ++ b) ++ s) ++ c) ++ i) d). rewrite <- (app_nil_r k) at 2. apply mem_split3; rewrite ?mem_blen_app; lia.
Qed.

Lemma read_nothing off m : off <= blen m -> mem_read off 0 m = Some [].
Proof. intros H. rewrite mem_read_some by lia. reflexivity. Qed.

Lemma blen_zero l : blen l = 0 -> l = [].
Proof. destruct l; [reflexivity | unfold blen; cbn; lia]. Qed.

Lemma deserialize_body t : sane_token t -> 14 < record_size t ->
  deserialize (body t) = Some (Some (set_used t false, record_size t)).
Proof.
  intros S Hr. destruct (body_read t S) as (R1 & R2 & R3 & R4 & R5 & R6 & R7).
  destruct S as (V1 & V2 & V3 & V4 & _).
  unfold deserialize. cbv zeta. rewrite body_len.
  rewrite (proj2 (N.ltb_lt _ _) Hr). rewrite R1, R2. cbn [obind]. rewrite parse_64, parse_16 by assumption. cbn [obind].
  unfold record_size, set_used in *. set (s := blen (tk_sni t)) in *. set (i := blen (tk_ip t)) in *. set (k := blen (tk_tok t)) in *.
  destruct (N.ltb_spec (14 + s) (14 + s + i + k)) as [H1 | H1].
  - rewrite R4. cbn [obind]. rewrite parse_16 by lia. unfold u8. rewrite (N.mod_small i) by lia. cbn [obind].
    destruct (N.ltb_spec (14 + s + i) (14 + s + i + k)) as [H2 | H2].
    + rewrite R6. cbn [obind]. rewrite parse_16 by lia. cbn [obind].
      rewrite N.ltb_irrefl. rewrite R3, R5, R7. reflexivity.
    + cbn [obind]. destruct (N.ltb_spec (14 + s + i + k) (14 + s + i)) as [X | _]; [lia |].
      rewrite R3, R5. cbn [obind]. rewrite read_nothing by lia. cbn [obind].
      replace (tk_tok t) with (@nil N) by (symmetry; apply blen_zero; fold k; lia). do 3 f_equal. lia.
  - cbn [obind]. destruct (N.ltb_spec (14 + s) (14 + s + i + k)) as [X | _]; [lia |]. cbn [obind].
    destruct (N.ltb_spec (14 + s + i + k) (14 + s)) as [X | _]; [lia |].
    rewrite R3. cbn [obind]. rewrite read_nothing by lia. cbn [obind]. 
    replace (tk_tok t) with (@nil N) by (symmetry; apply blen_zero; fold k; lia).
    replace (tk_ip t) with (@nil N) by (symmetry; apply blen_zero; fold i; lia). do 3 f_equal. lia.
Qed.

(** Round trip. *)
Lemma token_round_trip t b max : sane_token t -> 14 < record_size t -> serialize t max = Some b ->
  blen b = record_size t /\ blen b <= max /\ deserialize b = Some (Some (set_used t false, blen b)).
Proof.
  intros S Hr E. rewrite serialize_eq in E. destruct (N.ltb_spec max (record_size t)); [discriminate |].
  injection E as <-. rewrite body_len. split; [reflexivity |]. split; [assumption | apply deserialize_body; assumption].
Qed.

(** Parsing any bytes stays inside of them. *)
Lemma deserialize_safe m : bytes_ok m ->
  exists r, deserialize m = Some r /\
    forall t c, r = Some (t, c) -> c <= blen m /\ sane_token t /\ tk_used t = false /\ record_size t = c.
Proof.
  intros Hm.
  assert (Rd : forall off n, off + n <= blen m -> exists l, mem_read off n m = Some l /\ blen l = n /\ bytes_ok l).
  { intros off n H. destruct (mem_cut off n m H) as (a & s & b & E & A & B). exists s. split.
    - rewrite E. apply mem_split3; congruence.
    - split; [exact B |]. rewrite E in Hm. apply Forall_app in Hm. destruct Hm as (_ & Hm). apply Forall_app in Hm. tauto. }
  assert (Z8 : forall l, bytes_ok l -> blen l = 8 -> parse_be l < two64).
  { intros l B E. rewrite parse_be_value. pose proof (be_value_lt l B) as X. rewrite E in X. exact X. }
  unfold deserialize. cbv zeta. destruct (N.ltb_spec 14 (blen m)) as [H0 | H0].
  - destruct (Rd 0 8 ltac:(lia)) as (tm & -> & T1 & T2). destruct (Rd 8 2 ltac:(lia)) as (sl & -> & S1 & S2). cbn [obind].
    pose proof (be_2_lt _ S2 S1) as SL. pose proof (Z8 _ T2 T1) as TL. set (s := parse_be sl) in *.
    destruct (N.ltb_spec (14 + s) (blen m)) as [H1 | H1].
    + destruct (Rd (10 + s) 2 ltac:(lia)) as (il & -> & I1 & I2). cbn [obind].
      set (i := u8 (parse_be il)). assert (IL : i < 256) by (unfold i, u8; apply N.mod_lt; lia).
      destruct (N.ltb_spec (14 + s + i) (blen m)) as [H2 | H2].
      * destruct (Rd (10 + s + 2 + i) 2 ltac:(lia)) as (kl & -> & K1 & K2). cbn [obind].
        pose proof (be_2_lt _ K2 K1) as KL. set (k := parse_be kl) in *.
        destruct (N.ltb_spec (blen m) (14 + s + i + k)) as [H3 | H3]; [eexists; split; [reflexivity | discriminate] |].
        destruct (Rd 10 s ltac:(lia)) as (x & -> & X1 & X2). destruct (Rd (10 + s + 2) i ltac:(lia)) as (y & -> & Y1 & Y2).
        destruct (Rd (10 + s + 2 + i + 2) k ltac:(lia)) as (z & -> & Z1 & Z2). cbn [obind].
        eexists. split; [reflexivity |]. intros t c Etc. apply some_pair_inj in Etc. destruct Etc as [<- <-]. unfold sane_token, record_size. cbn [tk_valid tk_sni tk_ip tk_tok tk_used].
        rewrite X1, Y1, Z1. repeat split; try assumption; lia.
      * cbn [obind]. destruct (N.ltb_spec (blen m) (14 + s + i)) as [H3 | H3]; [eexists; split; [reflexivity | discriminate] |].
        destruct (Rd 10 s ltac:(lia)) as (x & -> & X1 & X2). destruct (Rd (10 + s + 2) i ltac:(lia)) as (y & -> & Y1 & Y2). cbn [obind].
        rewrite read_nothing by lia. cbn [obind].
        eexists. split; [reflexivity |]. intros t c Etc. apply some_pair_inj in Etc. destruct Etc as [<- <-]. unfold sane_token, record_size. cbn [tk_valid tk_sni tk_ip tk_tok tk_used].
        rewrite X1, Y1. change (blen []) with 0. repeat match goal with |- _ /\ _ => split end; try assumption; try reflexivity; try apply Forall_nil; lia.
    + cbn [obind]. destruct (N.ltb_spec (14 + s) (blen m)) as [X | _]; [lia |]. cbn [obind].
      destruct (N.ltb_spec (blen m) (14 + s)) as [H3 | H3]; [eexists; split; [reflexivity | discriminate] |].
      destruct (Rd 10 s ltac:(lia)) as (x & -> & X1 & X2). cbn [obind]. rewrite read_nothing by lia. cbn [obind].
      eexists. split; [reflexivity |]. intros t c Etc. apply some_pair_inj in Etc. destruct Etc as [<- <-]. unfold sane_token, record_size. cbn [tk_valid tk_sni tk_ip tk_tok tk_used].
      rewrite X1. change (blen []) with 0. repeat match goal with |- _ /\ _ => split end; try assumption; try reflexivity; try apply Forall_nil; lia.
  - cbn [obind]. destruct (N.ltb_spec 14 (blen m)) as [X | _]; [lia |]. cbn [obind].
    destruct (N.ltb_spec 14 (blen m)) as [X | _]; [lia |]. cbn [obind].
    destruct (N.ltb_spec (blen m) 14) as [H3 | H3]; [eexists; split; [reflexivity | discriminate] |].
    rewrite read_nothing by lia. cbn [obind].
    eexists. split; [reflexivity |]. intros t c Etc. apply some_pair_inj in Etc. destruct Etc as [<- <-]. unfold sane_token, record_size. cbn [tk_valid tk_sni tk_ip tk_tok tk_used].
    change (blen []) with 0. repeat match goal with |- _ /\ _ => split end; try reflexivity; try apply Forall_nil; unfold two64; lia.
Qed.

(** ** Files *)
Lemma le_32_len n : blen (le_32 n) = 4. Proof. reflexivity. Qed.
Lemma parse_le_32 n : n < 4294967296 -> parse_le (le_32 n) = n.
Proof.
  intros H. unfold parse_le, le_32, u8. rewrite shiftr8, shiftr16, shiftr24. cbn [rev app].
  unfold parse_be. cbn [fold_left]. lia.
Qed.

Definition record (t : token) : list N := le_32 (record_size t) ++ body t.
Definition records (l : list token) : list N := flat_map record l.
Definition keep (now : N) (t : token) : bool := (now <? tk_valid t) && negb (tk_used t).

(** What is saved is made of records of live tokens. *)
Lemma save_records now : forall l, exists ts rest, fst (save_tokens now l) = records ts /\
  filter (keep now) l = ts ++ rest /\ Forall (fun t => record_size t <= 2048) ts /\
  (snd (save_tokens now l) = true <-> rest = []) /\
  (forall t r, rest = t :: r -> 2048 < record_size t).
Proof.
  induction l as [| t l IH]; cbn [save_tokens filter].
  - exists [], []. repeat split; try constructor; auto; discriminate.
  - unfold keep at 1. destruct ((now <? tk_valid t) && negb (tk_used t)); [| exact IH].
    rewrite serialize_eq. destruct (N.ltb_spec 2048 (record_size t)) as [H | H].
    + exists [], (t :: filter (keep now) l). cbn [fst snd records flat_map app]. repeat split; try constructor; try discriminate.
      intros x r [= <- _]. exact H.
    + destruct IH as (ts & rest & E1 & E2 & E3 & E4 & E5). destruct (save_tokens now l) as [f ok]. cbn [fst snd] in *.
      exists (t :: ts), rest. cbn [fst snd records flat_map app]. unfold record at 1. rewrite E1, body_len.
      split; [rewrite <- app_assoc; reflexivity |]. split; [rewrite E2; reflexivity |]. split; [constructor; assumption |]. split; assumption.
Qed.

Lemma firstn_blen_app (a b : list N) n : n = blen a -> firstn (N.to_nat n) (a ++ b) = a.
Proof. intros ->. unfold blen. rewrite Nat2N.id, firstn_app, Nat.sub_diag, firstn_all. cbn. apply app_nil_r. Qed.
Lemma skipn_blen_app (a b : list N) n : n = blen a -> skipn (N.to_nat n) (a ++ b) = b.
Proof. intros ->. unfold blen. rewrite Nat2N.id, skipn_app, Nat.sub_diag, skipn_all. reflexivity. Qed.

Definition live (now : N) (t : token) : bool := negb (tk_valid t <? now).

(** One record of the file. *)
Lemma load_record fuel now t l acc : sane_token t -> 14 < record_size t -> record_size t <= 2016 ->
  load_loop (S fuel) now (record t ++ l) acc
  = load_loop fuel now l (if live now t then acc ++ [set_used t false] else acc).
Proof.
  intros S H1 H2. cbn [load_loop]. unfold record. rewrite <- app_assoc, blen_app, le_32_len.
  destruct (N.ltb_spec (4 + blen (body t ++ l)) 4) as [X | _]; [lia |].
  change 4%nat with (N.to_nat (blen (le_32 (record_size t)))). rewrite firstn_blen_app, skipn_blen_app by reflexivity.
  rewrite parse_le_32 by lia. unfold u32. rewrite N.mod_small by lia.
  destruct (N.ltb_spec 2048 (record_size t)) as [X | _]; [lia |].
  destruct (N.ltb_spec 2048 (record_size t + 32)) as [X | _]; [lia |]. cbn [orb].
  rewrite blen_app, body_len. destruct (N.ltb_spec (record_size t + blen l) (record_size t)) as [X | _]; [lia |].
  rewrite firstn_blen_app, skipn_blen_app by (rewrite body_len; reflexivity).
  rewrite deserialize_body by assumption. rewrite N.eqb_refl. cbn [negb]. unfold live. cbn [tk_valid set_used].
  destruct (tk_valid t <? now); reflexivity.
Qed.

(** A record that cannot be read back ends the loading. *)
Lemma load_record_big fuel now t l acc : 2016 < record_size t -> record_size t <= 2048 ->
  load_loop (S fuel) now (record t ++ l) acc = LdDone acc false.
Proof.
  intros H1 H2. cbn [load_loop]. unfold record. rewrite <- app_assoc, blen_app, le_32_len.
  destruct (N.ltb_spec (4 + blen (body t ++ l)) 4) as [X | _]; [lia |].
  change 4%nat with (N.to_nat (blen (le_32 (record_size t)))). rewrite firstn_blen_app, skipn_blen_app by reflexivity.
  rewrite parse_le_32 by lia. unfold u32. rewrite (N.mod_small (record_size t + 32)) by lia.
  destruct (N.ltb_spec 2048 (record_size t + 32)) as [_ | X]; [| lia]. rewrite orb_true_r. reflexivity.
Qed.

Lemma record_pos t : (4 <= length (record t))%nat.
Proof. unfold record. rewrite app_length. cbn. lia. Qed.

(** Loading what was saved. *)
Lemma load_records now : forall ts fuel acc, Forall sane_token ts ->
  Forall (fun t => 14 < record_size t <= 2048) ts -> (length (records ts) < fuel)%nat ->
  exists pre post, ts = pre ++ post /\
    load_loop fuel now (records ts) acc
    = LdDone (acc ++ map (fun t => set_used t false) (filter (live now) pre)) (match post with [] => true | _ => false end) /\
    (forall t r, post = t :: r -> 2016 < record_size t).
Proof.
  induction ts as [| t ts IH]; intros fuel acc HS HR HF; (destruct fuel as [| fuel]; [lia |]).
  - exists [], []. split; [reflexivity |]. split; [| discriminate]. cbn. rewrite app_nil_r. reflexivity.
  - inversion HS as [| ? ? S1 S2]; subst. inversion HR as [| ? ? R1 R2]; subst.
    cbn [records flat_map] in *. rewrite app_length in HF. pose proof (record_pos t).
    destruct (N.le_gt_cases (record_size t) 2016) as [L | L].
    + rewrite load_record by (assumption || lia).
      destruct (IH fuel (if live now t then acc ++ [set_used t false] else acc) S2 R2 ltac:(unfold records; lia))
        as (pre & post & E1 & E2 & E3).
      exists (t :: pre), post. split; [cbn; congruence |]. split; [| exact E3].
      change (flat_map record ts) with (records ts). rewrite E2. cbn [filter]. destruct (live now t); cbn [map]; [rewrite <- app_assoc |]; reflexivity.
    + rewrite load_record_big by lia. exists [], (t :: ts). split; [reflexivity |]. split.
      * cbn [filter map]. rewrite app_nil_r. reflexivity.
      * intros x r [= <- _]. exact L.
Qed.

(** Loading any file stays inside it and ends. *)
Lemma load_safe now : forall fuel file acc, bytes_ok file -> (length file < fuel)%nat ->
  exists l ok, load_loop fuel now file acc = LdDone l ok.
Proof.
  induction fuel as [| fuel IH]; intros file acc B F; [lia |]. cbn [load_loop].
  destruct (N.ltb_spec (blen file) 4); [eauto |].
  destruct ((2048 <? parse_le (firstn 4 file)) || _); [eauto |].
  destruct (blen (skipn 4 file) <? parse_le (firstn 4 file)); [eauto |].
  set (size := parse_le (firstn 4 file)). set (rest := skipn 4 file).
  assert (Br : bytes_ok rest) by (unfold rest; rewrite <- (firstn_skipn 4 file) in B; apply Forall_app in B; tauto).
  assert (Bf : forall n, bytes_ok (firstn n rest) /\ bytes_ok (skipn n rest)).
  { intros n. rewrite <- (firstn_skipn n rest) in Br. apply Forall_app in Br. exact Br. }
  destruct (deserialize_safe (firstn (N.to_nat size) rest) (proj1 (Bf _))) as (r & -> & _).
  destruct r as [[t c] |]; [| eauto]. destruct (negb (c =? size)); [eauto |].
  assert (L : (length (skipn (N.to_nat size) rest) < fuel)%nat).
  { rewrite skipn_length. unfold rest. rewrite skipn_length. unfold blen in *. lia. }
  destruct (tk_valid t <? now); apply IH; try exact L; apply Bf.
Qed.

Lemma load_tokens_safe now file l : bytes_ok file -> exists l' ok, load_tokens now file l = LdDone l' ok.
Proof.
  intros B. unfold load_tokens. destruct (load_safe now (S (length file)) file [] B ltac:(lia)) as (l' & ok & ->).
  destruct l'; eauto.
Qed.
