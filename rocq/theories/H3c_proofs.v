(** Calls of the parser, and pieces of a stream. *)
From Verif Require Qpack4_proofs.
From Verif Require Import Base Tac Mem Mem_proofs Varint_spec Varint_model Varint_proofs Qpack_model H3_model H3_spec H3_proofs H3b_proofs.

Definition go (x : list N) (v : view) (q : pos) : ares := match x with [] => settle v q | _ => arun x v q end.

Definition call_ok (l : list N) (s : dstate) (v : view) (q : pos) (x y : list N) : Prop :=
  match go x v q with
  | ARun v' q' => exists r l', parse_data_stream l s = Ret r /\ r_rest r = Some l' /\ skipn (N.to_nat (r_avail r)) l' = y /\
      rel (r_state r) v' q' /\ data_of v' q' = data_of v q ++ firstn (N.to_nat (r_avail r)) l' /\
      (x = [] -> d_parsed (r_state r) = false)
  | AFail c d => exists r, parse_data_stream l s = Ret r /\ r_rest r = None /\ r_error r = c /\ d = data_of v q
  | AUndef => parse_data_stream l s = Undef
  end.

Lemma go_ne : forall x v q, x <> [] -> go x v q = arun x v q.
Proof. intros [| b x] v q H; [congruence | reflexivity]. Qed.

(** The check of a frame, from its type and length. *)
Lemma check_ok : forall s v ty n y, blen (d_hdr s) = 16 -> bytes_ok (d_hdr s) -> rel_view s v -> d_parsed s = true ->
  d_web s = false -> d_frame s = None -> d_type s = ty -> d_length s = n -> d_read s = 0 -> n < two62 ->
  match begin v ty n with
  | ARun v' q' => exists r, check_frame y s = r /\ r_rest r = Some y /\ r_avail r = 0 /\ rel (r_state r) v' q' /\
      data_of v' q' = v_data v
  | AFail c d => exists r, check_frame y s = r /\ r_rest r = None /\ r_error r = c /\ d = v_data v
  | AUndef => False
  end.
Proof.
  intros s v ty n y L O RV P W F T Ln R B.
  pose proof RV as (V1 & V2 & V3 & V4 & V5 & V6).
  assert (PBok : refused v ty n = None -> ty <> 65 -> rel s v (PB ty n [])).
  { intros Rf T65. split; [exact L |]. split; [exact O |]. split; [exact RV |]. split; [exact P |]. split; [exact W |].
    split; [exact T |]. split; [exact Ln |]. split; [rewrite R; reflexivity |]. split; [exact Rf |]. split; [exact T65 |].
    split; [destruct (N.eq_dec n 0) as [-> | Z]; [right; split; reflexivity | left; rewrite blen_nil; lia] |].
    split; [exact B |]. split; [constructor |]. destruct (ty =? 1); [left; split; [exact F | reflexivity] | exact F]. }
  assert (G : forall r, r = mk_r (Some y) s 0 0 -> ty <> 65 -> refused v ty n = None ->
    match begin v ty n with
    | ARun v' q' => exists r', r = r' /\ r_rest r' = Some y /\ r_avail r' = 0 /\ rel (r_state r') v' q' /\ data_of v' q' = v_data v
    | AFail c d => exists r', r = r' /\ r_rest r' = None /\ r_error r' = c /\ d = v_data v
    | AUndef => False
    end).
  { intros r -> T65 Rf. unfold begin. rewrite Rf. replace (ty =? 65) with false by lia.
    eexists. split; [reflexivity |]. split; [reflexivity |]. split; [reflexivity |]. split; [apply PBok; assumption |].
    unfold data_of. destruct (ty =? 0); apply app_nil_r. }
  assert (Bd : forall r c s', r = mk_r None s' 0 c -> refused v ty n = Some c ->
    match begin v ty n with
    | ARun v' q' => exists r', r = r' /\ r_rest r' = Some y /\ r_avail r' = 0 /\ rel (r_state r') v' q' /\ data_of v' q' = v_data v
    | AFail c d => exists r', r = r' /\ r_rest r' = None /\ r_error r' = c /\ d = v_data v
    | AUndef => False
    end).
  { intros r c s' -> Rf. unfold begin. rewrite Rf. eexists. repeat split; reflexivity. }
  unfold check_frame. rewrite T, Ln.
  unfold frame_data, frame_header, frame_webtransport, frame_cancel_push, frame_goaway, frame_max_push_id, frame_settings,
    err_unexpected, err_internal, err_general.
  unfold refused in G, Bd. rewrite V1, V2, V3, W. rewrite !orb_false_r.
  destruct (ty =? 0) eqn:T0.
  { destruct (is_some (v_header v)), (is_some (v_trailer v)); cbn [negb orb andb] in *;
      [eapply Bd; reflexivity | apply G; [reflexivity | lia | reflexivity] | eapply Bd; reflexivity | eapply Bd; reflexivity]. }
  destruct (ty =? 1) eqn:T1.
  { destruct (is_some (v_header v) && (negb (v_any v) || is_some (v_trailer v))); [eapply Bd; reflexivity |].
    destruct (65536 <? n); [eapply Bd; reflexivity | apply G; [reflexivity | lia | reflexivity]]. }
  destruct (ty =? 65) eqn:T65.
  { destruct (v_header v) eqn:Hv; cbn [is_some] in *; [eapply Bd; reflexivity |].
    clear G Bd. unfold begin, refused. rewrite T0, T1, T65, Hv. cbn [is_some].
    eexists. split; [reflexivity |]. split; [reflexivity |]. split; [reflexivity |]. split; [| apply app_nil_r].
    split; [exact L |]. split; [exact O |]. split; [reflexivity |]. split; [reflexivity |]. split; [exact Ln |].
    split; [exact R |]. split; [exact Hv |]. split; [exact (V6 eq_refl) |]. cbn [r_state]. unfold set_web; cbn [d_tfound]. rewrite V2, (V6 eq_refl). reflexivity. }
  destruct ((ty =? 3) || (ty =? 7) || (ty =? 13)); [eapply Bd; reflexivity |].
  destruct (ty =? 4); [eapply Bd; reflexivity |]. apply G; [reflexivity | lia | reflexivity].
Qed.

Lemma call_head : forall l s v p, rel s v (PH p) -> l <> [] -> bytes_ok l ->
  exists x y, l = x ++ y /\ x <> [] /\ call_ok l s v (PH p) x y.
Proof.
  intros l s v p (L & O & RV & P & W & F & (r & D) & R & HN & RL) NE Ol. rewrite D in L, O.
  destruct (frame_header_read s p r l D L O R HN NE Ol) as (x & y & r' & t & El & NX & L2 & O2 & H).
  exists x, y. split; [exact El |]. split; [exact NX |]. unfold call_ok. rewrite go_ne by exact NX.
  assert (Hp : parse_data_stream l s = read_frame_header l s).
  { destruct l as [| b l]; [congruence |]. cbn [parse_data_stream]. rewrite P. reflexivity. }
  rewrite Hp. clear Hp.
  assert (Opx : bytes_ok (p ++ x)) by (apply ok_app in O2; tauto).
  pose proof (arun_head x p v Opx HN) as AR.
  destruct (head (p ++ x)) as [[ty n] |] eqn:Hh.
  - destruct H as ((a & b & E & A & B) & H).
    destruct AR as (a' & b' & r2 & E2 & A' & B' & AR).
    assert (Z : r2 = []).
    { pose proof (is_varint_decode ty a b A) as D1. pose proof (is_varint_decode ty a' (b' ++ r2) A') as D2.
      assert (Ob : bytes_ok b) by (rewrite E in Opx; apply ok_app in Opx; tauto).
      assert (Obr : bytes_ok (b' ++ r2)) by (rewrite E2 in Opx; apply ok_app in Opx; tauto).
      specialize (D1 Ob). specialize (D2 Obr). rewrite <- E in D1. rewrite <- E2 in D2. rewrite D1 in D2.
      assert (Eb : b = b' ++ r2) by (injection D2 as ->; reflexivity).
      pose proof (is_varint_decode n b [] B ltac:(constructor)) as D3. rewrite app_nil_r in D3.
      assert (Or : bytes_ok r2) by (apply ok_app in Obr; tauto).
      pose proof (is_varint_decode n b' r2 B' Or) as D4. rewrite <- Eb, D3 in D4. injection D4 as <-. reflexivity. }
    specialize (AR [] Z). rewrite app_nil_r in AR. rewrite AR.
    set (s' := set_length (set_type (set_hdr s ((p ++ x) ++ r') (blen (p ++ x))) ty) n) in *.
    pose proof (check_ok s' v ty n y L2 O2) as CK.
    specialize (CK RV eq_refl W F eq_refl eq_refl eq_refl (varint_bound n b B)).
    destruct (begin v ty n) as [v' q' | c d |] eqn:Bg; [| | contradiction].
    + cbn [arun]. destruct CK as (rr & C1 & C2 & C3 & C4 & C5). exists rr, y. split; [rewrite H, C1; reflexivity |].
      split; [exact C2 |]. rewrite C3. split; [reflexivity |]. split; [exact C4 |]. split; [| intro; contradiction].
      unfold data_of at 2. cbn [firstn N.to_nat]. rewrite !app_nil_r. exact C5.
    + destruct CK as (rr & C1 & C2 & C3 & C4). exists rr. split; [rewrite H, C1; reflexivity |].
      split; [exact C2 |]. split; [exact C3 |]. unfold data_of. rewrite app_nil_r. exact C4.
  - destruct H as (-> & H). rewrite AR. eexists _, _. split; [exact H |]. split; [reflexivity |]. split; [reflexivity |].
    split; [| split; [unfold data_of; cbn [r_avail N.to_nat firstn]; rewrite !app_nil_r; reflexivity | intro; contradiction]].
    cbn [r_state]. split; [exact L2 |]. split; [exact O2 |]. split; [exact RV |]. split; [exact P |]. split; [exact W |].
    split; [exact F |]. split; [exists r'; reflexivity |]. split; [reflexivity |]. split; [exact Hh | exact RL].
Qed.

Lemma zeros_cut : forall m k, k <= m -> zeros m = zeros k ++ zeros (m - k).
Proof. intros m k H. unfold zeros. rewrite <- repeat_app. f_equal. lia. Qed.

Lemma zeros_len : forall m, blen (zeros m) = m.
Proof. intro m. unfold zeros, blen. rewrite repeat_length. lia. Qed.

(** Content of a header frame. *)
Lemma write_zeros : forall x z m, blen z <= m -> mem_write (blen x) z (x ++ zeros m) = Some ((x ++ z) ++ zeros (m - blen z)).
Proof.
  intros x z m H. rewrite (zeros_cut m (blen z) H). rewrite mem_write3; [| reflexivity | rewrite zeros_len; reflexivity].
  rewrite app_assoc. reflexivity.
Qed.

(** Bytes of the content of a frame, of which [z] was read before. *)
Lemma call_body : forall l s v ty n z, rel s v (PB ty n z) -> l <> [] -> bytes_ok l -> blen l < two62 ->
  exists x y, l = x ++ y /\ (x = [] -> n = 0) /\ call_ok l s v (PB ty n z) x y.
Proof.
  intros l s v ty n z (L & O & RV & P & W & T & Ln & R & Rf & T65 & Lz & Bn & Oz & Fr) NE Ol Bl.
  set (av := if n <? u64 (blen z + blen l) then n - blen z else blen l).
  assert (Bz : blen z <= n) by (destruct Lz as [Lz | [-> ->]]; [lia | rewrite blen_nil; lia]).
  assert (Uw : u64 (blen z + blen l) = blen z + blen l).
  { unfold u64, two64, two62 in *. apply N.mod_small. lia. }
  assert (Av : av <= blen l /\ blen z + av <= n /\ (blen z + av = n \/ av = blen l)).
  { unfold av. rewrite Uw. destruct (n <? blen z + blen l) eqn:C; lia. }
  destruct Av as (Av1 & Av2 & Av3).
  destruct (cut_at av l Av1) as (x & y & El & Lx).
  exists x, y. split; [exact El |].
  assert (Pl : 0 < blen l) by (destruct l; [congruence | rewrite blen_cons; lia]).
  assert (Nx : x = [] -> n = 0).
  { intros ->. rewrite blen_nil in Lx. destruct Lz as [Lz | [Z _]]; [lia | exact Z]. }
  split; [exact Nx |].
  (* what the machine does *)
  assert (Go : go x v (PB ty n z) = if n <=? blen (z ++ x) then finish v ty (z ++ x) else ARun v (PB ty n (z ++ x))).
  { destruct x as [| c x].
    - specialize (Nx eq_refl). assert (Z : z = []) by (apply blen0; lia). rewrite Z, Nx. reflexivity.
    - apply arun_body; [rewrite blen_cons in Lx; lia | rewrite Lx; lia | rewrite blen_cons in Lx; lia | discriminate]. }
  unfold call_ok. rewrite Go. rewrite blen_app, Lx.
  assert (Fx : firstn (N.to_nat av) l = x) by (rewrite El, <- Lx; apply firstn_at).
  assert (Sx : skipn (N.to_nat av) l = y) by (rewrite El, <- Lx; apply skipn_at).
  assert (Px : forall (l0 : list N), l0 <> [] -> forall A (a b : A), match l0 with [] => a | _ :: _ => b end = b).
  { intros [| c l0] H0 A a b; [congruence | reflexivity]. }
  assert (Hparse : parse_data_stream l s =
    if ty =? 1 then read_header l s av
    else if ty =? 0 then
      Ret (mk_r (Some l) (if n <=? blen z + av then set_done (set_read s (d_frame s) (blen z + av)) true else set_read s (d_frame s) (blen z + av)) av 0)
    else Ret (mk_r (Some y) (if n <=? blen z + av then set_done (set_read s (d_frame s) (blen z + av)) false else set_read s (d_frame s) (blen z + av)) 0 0)).
  { unfold parse_data_stream. rewrite Px by exact NE. rewrite P, W, T, Ln, R. cbn [negb]. fold av.
    unfold frame_header, frame_data. destruct (ty =? 1); [reflexivity |]. destruct (ty =? 0).
    - unfold set_read at 1 2. cbn [d_length d_read]. rewrite Ln. reflexivity.
    - unfold set_read at 1 2. cbn [d_length d_read]. rewrite Ln, Sx. reflexivity. }
  rewrite Hparse. clear Hparse.
  assert (Ox : bytes_ok x) by (rewrite El in Ol; apply ok_app in Ol; tauto).
  assert (Ozx : bytes_ok (z ++ x)) by (apply ok_app; split; assumption).
  assert (Ezx : n <= blen z + av -> blen (z ++ x) = n) by (intro; rewrite blen_app; lia).
  destruct (ty =? 1) eqn:T1.
  - (* HEADERS *)
    assert (T0 : (ty =? 0) = false) by lia.
    assert (N65 : n <= 65536).
    { unfold refused in Rf. rewrite T0, T1 in Rf. destruct (is_some (v_header v) && (negb (v_any v) || is_some (v_trailer v))); [discriminate |].
      destruct (65536 <? n) eqn:C; [discriminate | lia]. }
    assert (Ef : (match d_frame s with Some f => Some f | None => if d_length s <=? 65536 then Some (mem_fill 0 (d_length s)) else None end)
                 = Some (z ++ zeros (n - blen z))).
    { destruct Fr as [[Fr ->] | Fr]; rewrite Fr; [| reflexivity]. rewrite Ln. replace (n <=? 65536) with true by lia.
      unfold mem_fill. cbn [app]. rewrite blen_nil, N.sub_0_r. reflexivity. }
    unfold read_header. rewrite Ef, R, Fx, Sx. rewrite write_zeros by lia. cbn [mem bind].
    set (f := (z ++ x) ++ zeros (n - blen z - blen x)).
    change (d_length (set_read s (Some f) (blen z + av))) with (d_length s).
    change (d_read (set_read s (Some f) (blen z + av))) with (blen z + av). rewrite Ln.
    destruct (n <=? blen z + av) eqn:C.
    + assert (En : blen (z ++ x) = n) by (apply Ezx; lia).
      assert (Ff : firstn (N.to_nat n) f = z ++ x).
      { unfold f. rewrite <- En. apply firstn_at. }
      rewrite Ff. unfold finish, take. cbn [fst snd]. rewrite En, Rf, T0, T1.
      destruct (parse_header_frame (z ++ x)) as [| | [[|] pp]] eqn:Hp; cbn [bind].
      * reflexivity.
      * exfalso. pose proof (Qpack4_proofs.frame_defined (z ++ x) Ozx) as FD. rewrite Hp in FD. exact FD.
      * eexists _, _. split; [reflexivity |]. split; [reflexivity |]. split; [reflexivity |].
        destruct RV as (V1 & V2 & V3 & V4 & V5 & V6).
        split; [| split].
        -- split; [exact L |]. split; [exact O |]. split.
           { unfold rel_view, set_parts. cbn [r_state d_hfound d_tfound d_dfound d_header d_trailer set_read]. rewrite V1.
             destruct (v_header v) as [hh |] eqn:Hv; cbn [is_some v_header v_trailer v_any].
             - rewrite V3. repeat split; [intros p0 E0; apply V4; exact E0 | intros p0 E0; injection E0 as ->; reflexivity | discriminate].
             - rewrite V3. repeat split; [intros p0 E0; injection E0 as ->; reflexivity | discriminate]. }
           cbn [r_state]. unfold set_parts. cbn [d_parsed d_web d_frame d_hdr d_hread d_read d_length set_read].
           split; [reflexivity |]. split; [exact W |]. split; [reflexivity |]. split; [exists (d_hdr s); reflexivity |].
           split; [reflexivity |]. split; [reflexivity |]. rewrite Ln. lia.
        -- unfold data_of. rewrite T0. cbn [r_avail N.to_nat firstn]. rewrite !app_nil_r; destruct (is_some (v_header v)); reflexivity.
        -- reflexivity.
      * eexists. split; [reflexivity |]. split; [reflexivity |]. split; [reflexivity |]. unfold data_of. rewrite T0. reflexivity.
    + eexists _, _. split; [reflexivity |]. split; [reflexivity |]. split; [reflexivity |]. split; [| split].
      * split; [exact L |]. split; [exact O |]. split; [exact RV |]. split; [exact P |]. split; [exact W |]. split; [exact T |].
        split; [exact Ln |]. split; [cbn [r_state]; unfold set_read; cbn [d_read]; rewrite blen_app, Lx; reflexivity |].
        split; [exact Rf |]. split; [exact T65 |]. split; [left; rewrite blen_app, Lx; lia |]. split; [exact Bn |]. split; [exact Ozx |].
        rewrite T1. right. cbn [r_state]. unfold set_read. cbn [d_frame]. unfold f. rewrite blen_app. do 3 f_equal. lia.
      * unfold data_of. rewrite T0. cbn [r_avail N.to_nat firstn]. rewrite !app_nil_r. reflexivity.
      * intros Y. specialize (Nx Y). lia.
  - destruct (ty =? 0) eqn:T0.
    + (* DATA *)
      destruct (n <=? blen z + av) eqn:C.
      * assert (En : blen (z ++ x) = n) by (apply Ezx; lia).
        unfold finish, take. cbn [fst snd]. rewrite En, Rf, T0.
        eexists _, _. split; [reflexivity |]. split; [reflexivity |]. cbn [r_avail]. split; [exact Sx |].
        destruct RV as (V1 & V2 & V3 & V4 & V5 & V6).
        split; [| split].
        -- split; [exact L |]. split; [exact O |]. split.
           { unfold rel_view, set_done. cbn [r_state d_hfound d_tfound d_dfound d_header d_trailer set_read v_header v_trailer v_any].
             repeat split; try assumption. apply orb_true_r. }
           cbn [r_state]. unfold set_done. cbn [d_parsed d_web d_frame d_hdr d_hread d_read d_length set_read].
           split; [reflexivity |]. split; [exact W |]. split; [exact Fr |]. split; [exists (d_hdr s); reflexivity |].
           split; [reflexivity |]. split; [reflexivity |]. rewrite Ln. lia.
        -- unfold data_of. rewrite T0. cbn [v_data]. rewrite Fx, app_nil_r, app_assoc. reflexivity.
        -- reflexivity.
      * eexists _, _. split; [reflexivity |]. split; [reflexivity |]. cbn [r_avail]. split; [exact Sx |]. split; [| split].
        -- split; [exact L |]. split; [exact O |]. split; [exact RV |]. split; [exact P |]. split; [exact W |]. split; [exact T |].
           split; [exact Ln |]. split; [cbn [r_state]; unfold set_read; cbn [d_read]; rewrite blen_app, Lx; reflexivity |].
           split; [exact Rf |]. split; [exact T65 |]. split; [left; rewrite blen_app, Lx; lia |]. split; [exact Bn |]. split; [exact Ozx |].
           rewrite T1. exact Fr.
        -- unfold data_of. rewrite T0. rewrite Fx, app_assoc. reflexivity.
        -- intros Y. specialize (Nx Y). lia.
    + (* other frames *)
      destruct (n <=? blen z + av) eqn:C.
      * assert (En : blen (z ++ x) = n) by (apply Ezx; lia).
        unfold finish, take. cbn [fst snd]. rewrite En, Rf, T0, T1.
        eexists _, _. split; [reflexivity |]. split; [reflexivity |]. cbn [r_avail]. split; [reflexivity |].
        destruct RV as (V1 & V2 & V3 & V4 & V5 & V6).
        split; [| split].
        -- split; [exact L |]. split; [exact O |]. split.
           { unfold rel_view, set_done. cbn [r_state d_hfound d_tfound d_dfound d_header d_trailer set_read v_header v_trailer v_any].
             repeat split; try assumption. rewrite orb_false_r. exact V3. }
           cbn [r_state]. unfold set_done. cbn [d_parsed d_web d_frame d_hdr d_hread d_read d_length set_read].
           split; [reflexivity |]. split; [exact W |]. split; [exact Fr |]. split; [exists (d_hdr s); reflexivity |].
           split; [reflexivity |]. split; [reflexivity |]. rewrite Ln. lia.
        -- unfold data_of. rewrite T0. cbn [N.to_nat firstn]. rewrite !app_nil_r. reflexivity.
        -- reflexivity.
      * eexists _, _. split; [reflexivity |]. split; [reflexivity |]. cbn [r_avail]. split; [reflexivity |]. split; [| split].
        -- split; [exact L |]. split; [exact O |]. split; [exact RV |]. split; [exact P |]. split; [exact W |]. split; [exact T |].
           split; [exact Ln |]. split; [cbn [r_state]; unfold set_read; cbn [d_read]; rewrite blen_app, Lx; reflexivity |].
           split; [exact Rf |]. split; [exact T65 |]. split; [left; rewrite blen_app, Lx; lia |]. split; [exact Bn |]. split; [exact Ozx |].
           rewrite T1. exact Fr.
        -- unfold data_of. rewrite T0. cbn [N.to_nat firstn]. rewrite !app_nil_r. reflexivity.
        -- intros Y. specialize (Nx Y). lia.
Qed.
