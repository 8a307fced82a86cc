(** The textual configuration of load-balancer ids. *)
From Verif Require Import Base Tac Mem Mem_proofs Lb_model Lb_spec Varint_spec Varint_proofs
  Lb_proofs Lb2_proofs.

(** ** No read outside a terminated text *)

Lemma mem_get_some : forall i m, i < blen m -> exists b, mem_get i m = Some b.
Proof. intros i m H. destruct (mem_get_lt i m H) as (b & Hb & _). exists b; exact Hb. Qed.

Lemma mem_get_byte : forall i m b, bytes_ok m -> mem_get i m = Some b -> b < 256.
Proof.
  intros i m b Hm H. apply nth_error_In in H. eapply Forall_forall in Hm; [ exact Hm | exact H ].
Qed.

Lemma parse_dec_ok : forall fuel txt len parsed acc field, len < blen txt -> parsed <= len -> field < 256 ->
  exists p f ok, parse_dec fuel txt len parsed acc field = Some (p, f, ok) /\ p <= len /\ f < 256.
Proof.
  induction fuel as [|fuel IH]; intros txt len parsed acc field Hl Hp Hf; cbn [parse_dec].
  - exists parsed, field, true. repeat split; assumption.
  - destruct (N.ltb_spec parsed len) as [H|H]; [ | exists parsed, field, true; repeat split; assumption ].
    destruct (mem_get_some parsed txt ltac:(lia)) as (x & ->). cbn [obind].
    destruct (is_digit x); [ | exists parsed, field, true; repeat split; assumption ].
    cbv zeta. destruct (N.ltb_spec (acc * 10 + (x - 48)) 256) as [H'|H'].
    + apply IH; lia.
    + exists (parsed + 1), field, false. repeat split; lia.
Qed.

Lemma parse_method_ok : forall txt len parsed ok, len < blen txt -> parsed <= len ->
  exists p m n ok', parse_method txt len parsed ok = Some (p, m, n, ok') /\ p <= len /\ n < 256 /\ m <> M_other.
Proof.
  intros txt len parsed ok Hl Hp. unfold parse_method.
  destruct (N.leb_spec len parsed) as [H|H].
  { exists parsed, M_clear, 0, false. repeat split; (lia || discriminate). }
  destruct ok; cbn [negb]; [ | exists parsed, M_clear, 0, false; repeat split; (lia || discriminate) ].
  destruct (mem_get_some parsed txt ltac:(lia)) as (c & ->). cbn [obind]. cbv zeta.
  destruct ((c =? 99) || (c =? 67)).
  { exists (parsed + 1), M_clear, 0, true. repeat split; (lia || discriminate). }
  destruct ((c =? 115) || (c =? 83)).
  { destruct (parse_dec_ok (N.to_nat len) txt len (parsed + 1) 0 0 Hl ltac:(lia) ltac:(lia)) as (p & f & ok & -> & Hp' & Hf).
    cbn [obind]. exists p, M_stream, f, ok. repeat split; (lia || discriminate). }
  destruct ((c =? 98) || (c =? 66)).
  - exists (parsed + 1), M_block, 0, true. repeat split; (lia || discriminate).
  - exists (parsed + 1), M_clear, 0, false. repeat split; (lia || discriminate).
Qed.

Lemma hexa_loop_ok : forall n l r, (length l <= n)%nat -> hexa_loop l = Some r ->
  length l = (2 * length r)%nat /\ bytes_ok r.
Proof.
  induction n; intros l r Hl H.
  - destruct l; [ | cbn in Hl; lia ]. cbn in H. injection H as <-. split; [ reflexivity | constructor ].
  - destruct l as [|x [|y l]]; cbn [hexa_loop] in H.
    + injection H as <-. split; [ reflexivity | constructor ].
    + discriminate.
    + destruct (hexa_digit x); [ | discriminate ]. destruct (hexa_digit y); [ | discriminate ].
      destruct (hexa_loop l) as [r'|] eqn:E; [ | discriminate ]. injection H as <-.
      cbn [length] in *. destruct (IHn l r' ltac:(lia) E) as (E1 & E2). split; [ lia | ].
      constructor; [ | exact E2 ]. unfold is_byte, u8. apply N.mod_lt. lia.
Qed.

Lemma parse_hexa_ok : forall l mx, 2 * blen (parse_hexa l mx) <= blen l /\ blen (parse_hexa l mx) <= mx /\
  bytes_ok (parse_hexa l mx).
Proof.
  intros l mx. unfold parse_hexa.
  destruct ((0 <? blen l) && N.even (blen l) && (blen l <=? 2 * mx)) eqn:E.
  - apply andb_prop in E. destruct E as (_ & E). apply N.leb_le in E.
    destruct (hexa_loop l) as [r|] eqn:Er.
    + destruct (hexa_loop_ok _ _ _ (le_n _) Er) as (Hl & Ho). unfold blen in *.
      split; [ lia | split; [ lia | exact Ho ] ].
    + change (blen []) with 0. repeat split; try lia. constructor.
  - change (blen []) with 0. repeat split; try lia. constructor.
Qed.

Lemma hex_length_le : forall l, (hex_length l <= length l)%nat.
Proof. induction l as [|x l IH]; cbn; [ lia | destruct (x =? 45); lia ]. Qed.

Lemma parse_key_ok : forall txt len parsed, len < blen txt -> parsed <= len ->
  exists p key ok, parse_key txt len parsed = Some (p, key, ok) /\
    bytes_ok key /\ (ok = true -> length key = 16%nat).
Proof.
  intros txt len parsed Hl Hp. unfold parse_key.
  destruct (mem_get_some parsed txt ltac:(lia)) as (h & ->). cbn [obind].
  destruct (h =? 45); cbn [negb].
  2: { eexists _, _, _; split; [ reflexivity | ]. split; [ apply (repeat_ok 16 0); lia | discriminate ]. }
  cbv zeta. destruct (N.ltb_spec len (parsed + 1 + 32)) as [H|H].
  { eexists _, _, _; split; [ reflexivity | ]. split; [ apply (repeat_ok 16 0); lia | discriminate ]. }
  rewrite mem_read_some by lia. cbn [obind].
  eexists _, _, _; split; [ reflexivity | ].
  destruct (parse_hexa_ok (firstn (N.to_nat (len - (parsed + 1))) (skipn (N.to_nat (parsed + 1)) txt)) 16) as (_ & _ & Ho).
  split; [ exact Ho | ]. intro E. apply N.eqb_eq in E. unfold blen in E. lia.
Qed.

(** The parser as a whole: it reads inside the terminated text, and what it
    accepts is a value of the structure with at most 8 bytes of server id. *)
Lemma config_parse_ok : forall txt len, len < blen txt -> bytes_ok txt ->
  exists r, lb_config_parse txt len = Some r /\
    forall c, r = Some c -> config_typed c /\ 1 <= c_sid_len c /\ c_sid_len c <= 8 /\
      c_sid64 c < 256 ^ c_sid_len c /\
      (c_cid_len c <> 0 -> 1 + c_sid_len c + c_nonce_len c <= c_cid_len c) /\
      c_method c <> M_other.
Proof.
  intros txt len Hl Hok. unfold lb_config_parse.
  destruct (N.ltb_spec len 4) as [H4|H4].
  { exists None; split; [ reflexivity | discriminate ]. }
  destruct (mem_get_some 0 txt ltac:(lia)) as (c0 & ->). cbn [obind].
  destruct (mem_get_some 1 txt ltac:(lia)) as (c1 & ->). cbn [obind]. cbv zeta.
  destruct (parse_dec_ok (N.to_nat len) txt len 2 0 0 Hl ltac:(lia) ltac:(lia)) as (p & cl & ok2 & -> & Hp & Hcl).
  cbn [obind].
  set (ok := ((48 <=? c0) && (c0 <=? 51)) && (((c1 =? 89) || (c1 =? 121)) || (c1 =? 78) || (c1 =? 110)) && ok2).
  assert (Hc0 : forall p' m' n', parse_method txt len p ok = Some (p', m', n', true) -> c0 - 48 < 4).
  { intros p' m' n' H. unfold parse_method in H. destruct (len <=? p); [ discriminate | ].
    destruct ok eqn:E; [ unfold ok in E; lia | discriminate ]. }
  destruct (parse_method_ok txt len p ok Hl Hp) as (p1 & m & n & ok3 & E3 & Hp1 & Hn & Hm).
  rewrite E3 in *. cbn [obind].
  destruct (mem_get_some p1 txt ltac:(lia)) as (h & ->). cbn [obind].
  destruct (h =? 45); cbn [negb]; [ | exists None; split; [ reflexivity | discriminate ] ].
  destruct (N.leb_spec len (p1 + 1)) as [H|H]; [ exists None; split; [ reflexivity | discriminate ] | ].
  destruct ok3; cbn [negb]; [ | exists None; split; [ reflexivity | discriminate ] ].
  specialize (Hc0 p1 m n eq_refl).
  rewrite mem_read_some by lia. cbn [obind].
  set (t := firstn (N.to_nat (len - (p1 + 1))) (skipn (N.to_nat (p1 + 1)) txt)).
  assert (Ht : blen t = len - (p1 + 1)).
  { unfold t, blen in *. rewrite firstn_length, skipn_length. lia. }
  destruct (parse_hexa_ok (firstn (hex_length t) t) 8) as (Hh1 & Hh2 & Hh3).
  set (sid := parse_hexa (firstn (hex_length t) t) 8) in *.
  assert (Hh4 : 2 * blen sid <= len - (p1 + 1)).
  { rewrite <- Ht. eapply N.le_trans; [ exact Hh1 | ]. unfold blen. rewrite firstn_length. lia. }
  destruct (N.eqb_spec (blen sid) 0) as [E|E]; [ exists None; split; [ reflexivity | discriminate ] | ].
  assert (Hkey : exists p2 key ok4,
    match m with M_stream | M_block => parse_key txt len (p1 + 1 + 2 * blen sid)
      | _ => Some (p1 + 1 + 2 * blen sid, mem_fill 0 16, true) end = Some (p2, key, ok4) /\
    bytes_ok key /\ (ok4 = true -> length key = 16%nat)).
  { destruct m.
    - eexists _, _, _; split; [ reflexivity | ]. split; [ apply (repeat_ok 16 0); lia | reflexivity ].
    - apply parse_key_ok; lia.
    - apply parse_key_ok; lia.
    - congruence. }
  destruct Hkey as (p2 & key & ok4 & -> & Hko & Hkl). cbn [obind].
  destruct ok4; cbn [negb]; [ | exists None; split; [ reflexivity | discriminate ] ].
  eexists; split; [ reflexivity | ]. intros c Hc. unfold parse_final in Hc.
  destruct (negb (p2 =? len)); [ discriminate | ].
  cbn [c_cid_len c_sid_len c_nonce_len c_method] in Hc.
  destruct (negb (cl =? 0) && _) eqn:Ef in Hc; [ discriminate | ].
  injection Hc as <-. cbn.
  assert (Hv : sid_value sid < 256 ^ blen sid /\ sid_value sid < two64).
  { rewrite sid_value_be by exact Hh3. split; [ | apply N.mod_lt; discriminate ].
    eapply N.le_lt_trans; [ apply N.mod_le; discriminate | ]. apply be_value_lt, Hh3. }
  split; [ | split; [ lia | split; [ exact Hh2 | split; [ apply Hv | split; [ | exact Hm ] ] ] ] ].
  - destruct Hv as (_ & Hv). specialize (Hkl eq_refl). unfold config_typed.
    cbn [c_rotation c_sid_len c_nonce_len c_cid_len c_sid64 c_key].
    repeat split; try assumption; lia.
  - intro Hz. apply N.eqb_neq in Hz. rewrite Hz in Ef. cbn [negb andb] in Ef.
    apply orb_false_elim in Ef. destruct Ef as (Ef & _). apply N.ltb_ge in Ef. exact Ef.
Qed.

Lemma parse_unterminated : exists txt, lb_config_parse txt (blen txt) = None.
Proof. exists [48; 78; 49; 50]. vm_compute. reflexivity. Qed.

(** ** Round trip *)

Lemma get_at : forall pre x r i, i = blen pre -> mem_get i (pre ++ x :: r) = Some x.
Proof.
  intros pre x r i ->. unfold mem_get, blen. rewrite Nat2N.id, nth_error_app2 by lia.
  rewrite Nat.sub_diag. reflexivity.
Qed.

Lemma digit_is : forall d, d < 10 -> is_digit (48 + d) = true.
Proof. intros d H. unfold is_digit. lia. Qed.

Lemma dec_step : forall fuel pre d r len parsed acc field, parsed = blen pre -> parsed < len -> d < 10 ->
  acc * 10 + d < 256 ->
  parse_dec (S fuel) (pre ++ (48 + d) :: r) len parsed acc field
  = parse_dec fuel (pre ++ (48 + d) :: r) len (parsed + 1) (acc * 10 + d) (acc * 10 + d).
Proof.
  intros fuel pre d r len parsed acc field Hp Hl Hd Ha. cbn [parse_dec].
  destruct (N.ltb_spec parsed len) as [_|]; [ | lia ].
  rewrite get_at by exact Hp. cbn [obind]. rewrite digit_is by exact Hd. cbv zeta.
  replace (48 + d - 48) with d by lia.
  destruct (N.ltb_spec (acc * 10 + d) 256) as [_|]; [ reflexivity | lia ].
Qed.

Lemma dec_stop : forall fuel pre x r len parsed acc field, parsed = blen pre -> is_digit x = false ->
  parse_dec fuel (pre ++ x :: r) len parsed acc field = Some (parsed, field, true).
Proof.
  intros [|fuel] pre x r len parsed acc field Hp Hd; cbn [parse_dec]; [ reflexivity | ].
  destruct (parsed <? len); [ | reflexivity ].
  rewrite get_at by exact Hp. cbn [obind]. rewrite Hd. reflexivity.
Qed.

(** Three digits at most, then something that is not a digit. *)
Lemma dec_round : forall n fuel pre x r len, n < 256 -> (3 <= fuel)%nat -> is_digit x = false ->
  blen pre + blen (dec_digits 3 n) < len ->
  parse_dec fuel (pre ++ dec_digits 3 n ++ x :: r) len (blen pre) 0 0
  = Some (blen pre + blen (dec_digits 3 n), n, true).
Proof.
  intros n fuel pre x r len Hn Hf Hx Hl.
  destruct fuel as [|[|[|fuel]]]; try lia. clear Hf.
  assert (Hstep : forall a d, (pre ++ a) ++ (48 + d) :: x :: r = (pre ++ a ++ [48 + d]) ++ x :: r).
  { intros. rewrite <- !app_assoc. reflexivity. }
  unfold dec_digits in *.
  destruct (N.ltb_spec n 10) as [H10|H10].
  { cbn [app] in *. rewrite dec_step by (unfold blen in *; cbn [length] in *; lia).
    replace (pre ++ 48 + n :: x :: r) with ((pre ++ [48 + n]) ++ x :: r) by (rewrite <- app_assoc; reflexivity).
    rewrite dec_stop; [ | rewrite mem_blen_app; reflexivity | exact Hx ].
    do 3 f_equal. }
  destruct (N.ltb_spec (n / 10) 10) as [H100|H100].
  { cbn [app] in *. rewrite dec_step by (unfold blen in *; cbn [length] in *; lia).
    replace (pre ++ 48 + n / 10 :: 48 + n mod 10 :: x :: r)
      with ((pre ++ [48 + n / 10]) ++ 48 + n mod 10 :: x :: r) by (rewrite <- app_assoc; reflexivity).
    rewrite dec_step; [ | rewrite mem_blen_app; reflexivity | unfold blen in *; cbn [length] in *; lia | lia | lia ].
    replace ((pre ++ [48 + n / 10]) ++ 48 + n mod 10 :: x :: r)
      with ((pre ++ [48 + n / 10; 48 + n mod 10]) ++ x :: r) by (rewrite <- !app_assoc; reflexivity).
    rewrite dec_stop; [ | rewrite mem_blen_app; change (blen [48 + n / 10; 48 + n mod 10]) with 2; lia | exact Hx ].
    change (blen [48 + n / 10; 48 + n mod 10]) with 2.
    f_equal. f_equal. f_equal; lia. }
  destruct (N.ltb_spec (n / 10 / 10) 10) as [H1000|H1000]; [ | lia ].
  cbn [app] in *. rewrite dec_step by (unfold blen in *; cbn [length] in *; lia).
  replace (pre ++ 48 + n / 10 / 10 :: 48 + (n / 10) mod 10 :: 48 + n mod 10 :: x :: r)
    with ((pre ++ [48 + n / 10 / 10]) ++ 48 + (n / 10) mod 10 :: 48 + n mod 10 :: x :: r) by (rewrite <- app_assoc; reflexivity).
  rewrite dec_step; [ | rewrite mem_blen_app; reflexivity | unfold blen in *; cbn [length] in *; lia | lia | lia ].
  replace ((pre ++ [48 + n / 10 / 10]) ++ 48 + (n / 10) mod 10 :: 48 + n mod 10 :: x :: r)
    with ((pre ++ [48 + n / 10 / 10; 48 + (n / 10) mod 10]) ++ 48 + n mod 10 :: x :: r) by (rewrite <- !app_assoc; reflexivity).
  rewrite dec_step; [ | rewrite mem_blen_app; change (blen [48 + n / 10 / 10; 48 + (n / 10) mod 10]) with 2; lia
    | unfold blen in *; cbn [length] in *; lia | lia | lia ].
  replace ((pre ++ [48 + n / 10 / 10; 48 + (n / 10) mod 10]) ++ 48 + n mod 10 :: x :: r)
    with ((pre ++ [48 + n / 10 / 10; 48 + (n / 10) mod 10; 48 + n mod 10]) ++ x :: r) by (rewrite <- !app_assoc; reflexivity).
  rewrite dec_stop; [ | rewrite mem_blen_app; change (blen [48 + n / 10 / 10; 48 + (n / 10) mod 10; 48 + n mod 10]) with 3; lia | exact Hx ].
  change (blen [48 + n / 10 / 10; 48 + (n / 10) mod 10; 48 + n mod 10]) with 3.
  f_equal. f_equal. f_equal; lia.
Qed.

Lemma hexa_digit_back : forall n, n < 16 -> hexa_digit (hex_digit n) = Some n.
Proof.
  intros n H. unfold hexa_digit, hex_digit.
  destruct (N.ltb_spec n 10) as [H'|H'].
  - replace ((48 <=? 48 + n) && (48 + n <=? 57)) with true by lia. f_equal. lia.
  - replace ((48 <=? 55 + n) && (55 + n <=? 57)) with false by lia.
    replace ((65 <=? 55 + n) && (55 + n <=? 70)) with true by lia. f_equal. lia.
Qed.

Lemma hex_digit_no_hyphen : forall n, n < 16 -> (hex_digit n =? 45) = false.
Proof. intros n H. unfold hex_digit. destruct (n <? 10); lia. Qed.

Lemma hexa_loop_back : forall l, bytes_ok l -> hexa_loop (hex_text l) = Some l.
Proof.
  induction l as [|b l IH]; intro H; [ reflexivity | ].
  inversion H as [|? ? Hb Hl]; subst. unfold is_byte in Hb.
  cbn [hex_text flat_map app hexa_loop].
  rewrite !hexa_digit_back by lia.
  fold (hex_text l). rewrite IH by exact Hl. do 2 f_equal.
  rewrite N.lor_comm. rewrite N.shiftl_mul_pow2.
  replace (N.lor (b mod 16) (b / 16 * 2 ^ 4)) with b; [ unfold u8; apply N.mod_small; exact Hb | ].
  change 16 with (2 ^ 4). rewrite <- N.land_ones, <- N.shiftr_div_pow2, <- N.shiftl_mul_pow2.
  rewrite <- N.ldiff_ones_r, N.lor_comm. symmetry. apply N.lor_ldiff_and.
Qed.

Lemma hex_text_length : forall l, length (hex_text l) = (2 * length l)%nat.
Proof. induction l as [|b l IH]; [ reflexivity | ]. cbn [hex_text flat_map app length]. fold (hex_text l). lia. Qed.

Lemma parse_hexa_back : forall l mx, bytes_ok l -> 0 < blen l -> blen l <= mx ->
  parse_hexa (hex_text l) mx = l.
Proof.
  intros l mx Hl H0 Hm. unfold parse_hexa. rewrite hexa_loop_back by exact Hl.
  assert (E : blen (hex_text l) = 2 * blen l) by (unfold blen; rewrite hex_text_length; lia).
  rewrite E. replace (0 <? 2 * blen l) with true by lia.
  rewrite N.even_mul. cbn [N.even orb andb].
  replace (2 * blen l <=? 2 * mx) with true by lia. reflexivity.
Qed.

Lemma hex_length_text : forall l r, bytes_ok l -> (r = [] \/ exists r', r = 45 :: r') ->
  hex_length (hex_text l ++ r) = length (hex_text l).
Proof.
  induction l as [|b l IH]; intros r H Hr.
  - cbn. destruct Hr as [->|(r' & ->)]; reflexivity.
  - inversion H as [|? ? Hb Hl]; subst. unfold is_byte in Hb.
    cbn [hex_text flat_map app hex_length length].
    rewrite !hex_digit_no_hyphen by lia. fold (hex_text l). rewrite IH by assumption. reflexivity.
Qed.

Lemma dec_digits_blen : forall n, n < 256 -> 1 <= blen (dec_digits 3 n) <= 3.
Proof.
  intros n H. unfold dec_digits, blen. destruct (n <? 10); [ cbn; lia | ].
  destruct (n / 10 <? 10); [ cbn; lia | ]. destruct (n / 10 / 10 <? 10); cbn; lia.
Qed.

Lemma parse_method_back : forall c pre rest len, c_nonce_len c < 256 ->
  (c_method c <> M_stream -> c_nonce_len c = 0) -> c_method c <> M_other ->
  let m := match c_method c with M_clear => [67] | M_stream => 83 :: dec_digits 3 (c_nonce_len c) | _ => [66] end in
  blen pre + blen m < len -> 3 <= len ->
  parse_method (pre ++ m ++ 45 :: rest) len (blen pre) true
  = Some (blen pre + blen m, c_method c, c_nonce_len c, true).
Proof.
  intros c pre rest len Hn Hz Hm m Hl H3. unfold parse_method.
  destruct (N.leb_spec len (blen pre)) as [|_]; [ lia | ]. cbn [negb].
  destruct (c_method c) eqn:Em; unfold m in *; cbn [app].
  - rewrite get_at by reflexivity. cbn [obind]. rewrite Hz by discriminate. reflexivity.
  - rewrite get_at by reflexivity. cbn [obind]. cbv zeta.
    change ((83 =? 99) || (83 =? 67)) with false. change ((83 =? 115) || (83 =? 83)) with true. cbv iota.
    assert (Eb : blen (83 :: dec_digits 3 (c_nonce_len c)) = 1 + blen (dec_digits 3 (c_nonce_len c)))
      by (unfold blen; cbn [length]; lia).
    replace (pre ++ 83 :: dec_digits 3 (c_nonce_len c) ++ 45 :: rest)
      with ((pre ++ [83]) ++ dec_digits 3 (c_nonce_len c) ++ 45 :: rest) by (rewrite <- app_assoc; reflexivity).
    replace (blen pre + 1) with (blen (pre ++ [83])) by (rewrite mem_blen_app; reflexivity).
    rewrite dec_round; [ | exact Hn | lia | reflexivity | rewrite mem_blen_app; change (blen [83]) with 1; lia ].
    cbn [obind]. rewrite mem_blen_app, Eb. change (blen [83]) with 1. do 4 f_equal. lia.
  - rewrite get_at by reflexivity. cbn [obind]. rewrite Hz by discriminate. reflexivity.
  - congruence.
Qed.

Lemma parse_key_back : forall pre key, bytes_ok key -> length key = 16%nat ->
  parse_key (pre ++ 45 :: hex_text key ++ [0]) (blen pre + 33) (blen pre) = Some (blen pre + 33, key, true).
Proof.
  intros pre key Ho Hl. unfold parse_key. rewrite get_at by reflexivity. cbn [obind].
  change (negb (45 =? 45)) with false. cbv iota zeta.
  destruct (N.ltb_spec (blen pre + 33) (blen pre + 1 + 32)) as [|_]; [ lia | ].
  assert (Hk : blen (hex_text key) = 32) by (unfold blen; rewrite hex_text_length; lia).
  pose proof (mem_split3 (pre ++ [45]) (hex_text key) [0] (blen pre + 1) (blen pre + 33 - (blen pre + 1))) as E.
  rewrite <- app_assoc in E. cbn [app] in E. rewrite E; clear E.
  - cbn [obind]. rewrite parse_hexa_back by (try assumption; unfold blen; lia).
    assert (Hb : blen key = 16) by (unfold blen; lia). rewrite Hb.
    change (16 =? 16) with true. do 3 f_equal. lia.
  - rewrite mem_blen_app; reflexivity.
  - rewrite Hk; lia.
Qed.

Lemma config_round_trip : forall c, config_textual c ->
  lb_config_parse (config_text c ++ [0]) (blen (config_text c)) = Some (Some c).
Proof.
  intros c (Ht & Hs & Hfit & Hlen & Hm).
  destruct Ht as (Hrot & _ & Hn & Hcl & H64 & Hkl & Hko).
  set (T := config_text c). unfold config_text in T.
  set (D := dec_digits 3 (c_cid_len c)) in T.
  set (M := match c_method c with M_clear => [67] | M_stream => 83 :: dec_digits 3 (c_nonce_len c) | _ => [66] end) in T.
  set (S := be_bytes (N.to_nat (c_sid_len c)) (c_sid64 c)) in T.
  set (K := match c_method c with M_clear => [] | _ => 45 :: hex_text (c_key c) end) in T.
  set (f0 := 48 + c_rotation c) in T. set (f1 := if c_fbel c then 89 else 78) in T.
  assert (HD : 1 <= blen D <= 3) by (apply dec_digits_blen; exact Hcl).
  assert (HM : 1 <= blen M /\ exists m0 M', M = m0 :: M' /\ is_digit m0 = false).
  { unfold M. destruct (c_method c).
    - split; [ cbn; lia | exists 67, []; split; reflexivity ].
    - split; [ unfold blen; cbn [length]; lia | eexists _, _; split; reflexivity ].
    - split; [ cbn; lia | exists 66, []; split; reflexivity ].
    - split; [ cbn; lia | exists 66, []; split; reflexivity ]. }
  assert (HSl : blen S = c_sid_len c) by (unfold S, blen; rewrite be_bytes_length; lia).
  assert (HSo : bytes_ok S) by apply be_bytes_ok.
  assert (HSh : blen (hex_text S) = 2 * c_sid_len c) by (unfold blen in *; rewrite hex_text_length; lia).
  assert (HSv : sid_value S = c_sid64 c).
  { rewrite sid_value_be by exact HSo. unfold S. rewrite be_bytes_value, N2Nat.id.
    rewrite (N.mod_small (c_sid64 c)) by exact Hfit. apply N.mod_small, H64. }
  assert (Hmo : c_method c <> M_other) by (intro E; rewrite E in Hm; exact Hm).
  assert (Hnz : c_method c <> M_stream -> c_nonce_len c = 0).
  { destruct (c_method c); intro; try tauto; try congruence; apply Hm. }
  assert (HT : blen T = 2 + blen D + blen M + 1 + 2 * c_sid_len c + blen K).
  { unfold T. unfold blen in *. cbn [length]. rewrite !app_length. cbn [length]. rewrite app_length. lia. }
  assert (HTe : T ++ [0] = f0 :: f1 :: D ++ M ++ 45 :: hex_text S ++ K ++ [0]).
  { unfold T. cbn [app]. rewrite <- !app_assoc. cbn [app]. rewrite <- !app_assoc. reflexivity. }
  destruct HM as (HM1 & m0 & M' & EM & Hm0).
  unfold lb_config_parse. rewrite HT.
  set (len := 2 + blen D + blen M + 1 + 2 * c_sid_len c + blen K).
  destruct (N.ltb_spec len 4) as [|_]; [ unfold len in *; lia | ].
  rewrite HTe.
  change (mem_get 0 (f0 :: f1 :: D ++ M ++ 45 :: hex_text S ++ K ++ [0])) with (Some f0). cbn [obind].
  change (mem_get 1 (f0 :: f1 :: D ++ M ++ 45 :: hex_text S ++ K ++ [0])) with (Some f1). cbn [obind]. cbv zeta.
  assert (Ed : parse_dec (N.to_nat len) (f0 :: f1 :: D ++ M ++ 45 :: hex_text S ++ K ++ [0]) len 2 0 0
               = Some (2 + blen D, c_cid_len c, true)).
  { rewrite EM. apply (dec_round (c_cid_len c) (N.to_nat len) [f0; f1] m0); try assumption.
    - unfold len; lia.
    - change (blen [f0; f1]) with 2. fold D. unfold len; lia. }
  rewrite Ed. cbn [obind].
  assert (Eok : ((48 <=? f0) && (f0 <=? 51)) && (((f1 =? 89) || (f1 =? 121)) || (f1 =? 78) || (f1 =? 110)) && true = true).
  { unfold f0, f1. destruct (c_fbel c); lia. }
  rewrite Eok.
  assert (Em : parse_method (f0 :: f1 :: D ++ M ++ 45 :: hex_text S ++ K ++ [0]) len (2 + blen D) true
               = Some (2 + blen D + blen M, c_method c, c_nonce_len c, true)).
  { pose proof (parse_method_back c (f0 :: f1 :: D) (hex_text S ++ K ++ [0]) len Hn Hnz Hmo) as E.
    cbv zeta in E. fold M in E.
    assert (Eb : blen (f0 :: f1 :: D) = 2 + blen D) by (unfold blen; cbn [length]; lia).
    rewrite Eb in E. apply E; unfold len; lia. }
  rewrite Em. cbn [obind].
  assert (Eh : mem_get (2 + blen D + blen M) (f0 :: f1 :: D ++ M ++ 45 :: hex_text S ++ K ++ [0]) = Some 45).
  { pose proof (get_at (f0 :: f1 :: D ++ M) 45 (hex_text S ++ K ++ [0]) (2 + blen D + blen M)) as E.
    cbn [app] in E. rewrite <- app_assoc in E. apply E.
    unfold blen; cbn [length]; rewrite app_length; lia. }
  rewrite Eh. cbn [obind]. change (negb (45 =? 45)) with false. cbv iota.
  destruct (N.leb_spec len (2 + blen D + blen M + 1)) as [|_]; [ unfold len in *; lia | ].
  cbn [negb].
  assert (Er : mem_read (2 + blen D + blen M + 1) (len - (2 + blen D + blen M + 1))
                 (f0 :: f1 :: D ++ M ++ 45 :: hex_text S ++ K ++ [0]) = Some (hex_text S ++ K)).
  { pose proof (mem_split3 (f0 :: f1 :: D ++ M ++ [45]) (hex_text S ++ K) [0]
      (2 + blen D + blen M + 1) (len - (2 + blen D + blen M + 1))) as E.
    cbn [app] in E. rewrite <- !app_assoc in E. cbn [app] in E. apply E.
    - unfold blen; cbn [length]; rewrite !app_length; cbn [length]; lia.
    - rewrite mem_blen_app, HSh. unfold len; lia. }
  rewrite Er. cbn [obind].
  assert (Ehl : hex_length (hex_text S ++ K) = length (hex_text S)).
  { apply hex_length_text; [ exact HSo | ]. unfold K. destruct (c_method c);
      [ left; reflexivity | right; eexists; reflexivity .. ]. }
  rewrite Ehl.
  rewrite firstn_app, firstn_all, Nat.sub_diag. cbn [firstn]. rewrite app_nil_r.
  rewrite parse_hexa_back by (try exact HSo; lia).
  rewrite HSl. destruct (N.eqb_spec (c_sid_len c) 0) as [|_]; [ lia | ].
  assert (Ek : (match c_method c with
                | M_stream | M_block => parse_key (f0 :: f1 :: D ++ M ++ 45 :: hex_text S ++ K ++ [0]) len
                                          (2 + blen D + blen M + 1 + 2 * c_sid_len c)
                | _ => Some (2 + blen D + blen M + 1 + 2 * c_sid_len c, mem_fill 0 16, true) end)
               = Some (len, c_key c, true)).
  { assert (Hpk : c_method c <> M_clear ->
      parse_key (f0 :: f1 :: D ++ M ++ 45 :: hex_text S ++ K ++ [0]) len
                (2 + blen D + blen M + 1 + 2 * c_sid_len c) = Some (len, c_key c, true)).
    { intro Hc. pose proof (parse_key_back (f0 :: f1 :: D ++ M ++ 45 :: hex_text S) (c_key c) Hko Hkl) as E.
      assert (Eb : blen (f0 :: f1 :: D ++ M ++ 45 :: hex_text S) = 2 + blen D + blen M + 1 + 2 * c_sid_len c).
      { unfold blen in *; cbn [length]; rewrite !app_length; cbn [length]. lia. }
      rewrite Eb in E.
      assert (EK : K = 45 :: hex_text (c_key c)) by (unfold K; destruct (c_method c); [ congruence | reflexivity .. ]).
      assert (El : len = 2 + blen D + blen M + 1 + 2 * c_sid_len c + 33).
      { unfold len. rewrite EK. unfold blen at 3. cbn [length]. rewrite hex_text_length, Hkl. lia. }
      rewrite El, EK. cbn [app] in E |- *. rewrite <- !app_assoc in E. cbn [app] in E.
      exact E. }
    assert (Hck : c_method c = M_clear -> Some (2 + blen D + blen M + 1 + 2 * c_sid_len c, mem_fill 0 16, true) = Some (len, c_key c, true)).
    { intro Hc. unfold len, K. rewrite Hc in *. destruct Hm as (_ & ->). change (blen []) with 0. unfold mem_fill.
      do 3 f_equal. lia. }
    destruct (c_method c); try (apply Hpk; discriminate); [ apply Hck; reflexivity | congruence ]. }
  rewrite Ek. cbn [obind negb].
  unfold parse_final. rewrite N.eqb_refl. cbn [negb c_cid_len c_sid_len c_nonce_len c_method].
  assert (Ef : negb (c_cid_len c =? 0) &&
    ((c_cid_len c <? 1 + c_sid_len c + c_nonce_len c)
     || match c_method c with M_block => true | _ => false end && (c_cid_len c <? 17)) = false).
  { destruct (c_method c); destruct Hlen as [->|Hlen]; try reflexivity; try lia. }
  rewrite Ef. rewrite HSv.
  do 2 f_equal. clear - Hrot. destruct c as [cm cr cf cs cn cc ci ck]; cbn [c_method c_rotation c_fbel c_sid_len c_nonce_len c_cid_len c_sid64 c_key] in *.
  replace (f0 - 48) with cr by (unfold f0; lia).
  replace ((f1 =? 89) || (f1 =? 121)) with cf by (unfold f1; destruct cf; reflexivity).
  reflexivity.
Qed.
