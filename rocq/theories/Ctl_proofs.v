(** The parser of the streams of the peer, seen byte by byte. *)
From Verif Require Import Base Tac Mem Mem_proofs Varint_spec Varint_model Varint_proofs Qpack_model H3_model H3_spec
  H3_proofs H3b_proofs H3c_proofs Ctl_model Ctl_spec.

(** ** Numbers *)

Definition num (p : list N) : option N := match frames_varint_decode p with Some (v, _) => Some v | None => None end.

Lemma num_of : forall v a r, is_varint v a -> bytes_ok r -> num (a ++ r) = Some v.
Proof. intros v a r A O. unfold num. rewrite (is_varint_decode v a r A O). reflexivity. Qed.

Lemma num_none : forall p, bytes_ok p -> (num p = None <-> match p with [] => True | b :: _ => blen p < varint_len b end).
Proof.
  intros p O. rewrite <- (decode_short p O). unfold num. destruct (frames_varint_decode p) as [[v r] |]; split; congruence.
Qed.

Lemma num_inv : forall p v, bytes_ok p -> num p = Some v -> exists a r, p = a ++ r /\ is_varint v a.
Proof.
  intros p v O H. unfold num in H. destruct (frames_varint_decode p) as [[w r] |] eqn:E; [| discriminate].
  apply some_inj in H. subst w. apply varint_decode_iff in E; [| exact O]. destruct E as (a & -> & A). exists a, r. split; [reflexivity | exact A].
Qed.

Lemma num_prefix : forall p q, bytes_ok (p ++ q) -> num (p ++ q) = None -> num p = None.
Proof.
  intros p q O H. destruct (num p) as [v |] eqn:E; [| reflexivity].
  apply ok_app in O. destruct O as [O1 O2].
  destruct (num_inv p v O1 E) as (a & r & -> & A). apply ok_app in O1. rewrite <- app_assoc in H.
  rewrite (num_of v a (r ++ q) A) in H; [discriminate |]. apply ok_app. tauto.
Qed.

(** One more byte completes a number without excess. *)
Lemma num_exact : forall p c v, bytes_ok (p ++ [c]) -> num p = None -> num (p ++ [c]) = Some v -> is_varint v (p ++ [c]).
Proof.
  intros p c v O H0 H. destruct (num_inv _ _ O H) as (a & r & E & A).
  destruct r as [| x r] using rev_ind; [rewrite app_nil_r in E; rewrite E; exact A |].
  exfalso. rewrite app_assoc in E. apply app_inj_tail in E. destruct E as [E ->].
  rewrite E in H0. rewrite (num_of v a r A) in H0; [discriminate |].
  rewrite E in O. apply ok_app in O. destruct O as [O _]. apply ok_app in O. tauto.
Qed.

Lemma num_start : forall p, bytes_ok p -> (num p = None <-> number_start p).
Proof.
  intros p O. split.
  - intro H. apply num_none in H; [| exact O]. destruct p as [| b p].
    + destruct (number_of 0 []) as (v & V); [repeat constructor; lia | reflexivity |].
      exists [0], v. split; [discriminate | exact V].
    + assert (L : exists q, blen ((b :: p) ++ q) = varint_len b /\ q <> [] /\ bytes_ok q).
      { exists (zeros (varint_len b - blen (b :: p))). split; [rewrite blen_app, zeros_len; lia |]. split.
        - intro Z. apply (f_equal blen) in Z. rewrite zeros_len, blen_nil in Z. lia.
        - unfold zeros. apply Forall_forall. intros x X. apply repeat_spec in X. subst x. reflexivity. }
      destruct L as (q & L & NE & Oq). cbn [app] in L.
      destruct (number_of b (p ++ q)) as (v & V); [change (b :: p ++ q) with ((b :: p) ++ q); apply ok_app; split; assumption | exact L |].
      exists q, v. split; [exact NE | exact V].
  - intros (q & v & NE & V). destruct p as [| b p]; [reflexivity |]. apply num_none; [exact O |].
    destruct (varint_first _ _ V) as (b' & q' & E & _ & L). cbn [app] in E. injection E as E1 E2. subst b' q'. rewrite <- L. cbn [app].
    rewrite !blen_cons, blen_app. destruct q; [congruence | rewrite blen_cons; lia].
Qed.

(** Reading of a number from a stream. *)
Lemma stream_number : forall l p r res, blen (p ++ r) = 16 -> bytes_ok (p ++ r) -> num p = None -> l <> [] -> bytes_ok l ->
  exists x y r', l = x ++ y /\ x <> [] /\ blen ((p ++ x) ++ r') = 16 /\ bytes_ok ((p ++ x) ++ r') /\
  match num (p ++ x) with
  | None => y = [] /\ from_stream l res (p ++ r) (blen p) = Ret ([], res, (p ++ x) ++ r', blen (p ++ x))
  | Some v => is_varint v (p ++ x) /\ from_stream l res (p ++ r) (blen p) = Ret (y, v, (p ++ x) ++ r', 0)
  end.
Proof.
  intros l p r res L O H NE Ol.
  assert (Op : bytes_ok p) by (apply ok_app in O; tauto).
  apply num_none in H; [| exact Op].
  (* the first byte *)
  assert (First : exists x1 y1 b q r1, l = x1 ++ y1 /\ p ++ x1 = b :: q /\ blen (b :: q ++ r1) = 16 /\ bytes_ok (b :: q ++ r1) /\
    bytes_ok y1 /\ (x1 = [] -> blen (b :: q) < varint_len b) /\ blen (b :: q) <= varint_len b /\ b < 256 /\ (x1 = [] -> y1 <> []) /\
    from_stream l res (p ++ r) (blen p) =
      (let! (l, h, n) := fill (varint_skip b) y1 (b :: q ++ r1) (blen (b :: q)) in
       if varint_skip b <=? n then
         let! v := H3_model.varint_decode h n in
         if 0 <? n - varint_skip b then
           let! m := mem (mem_read (varint_skip b) (n - varint_skip b) h) in
           let! h := mem (mem_write 0 m h) in
           Ret (l, v, h, n - varint_skip b)
         else Ret (l, v, h, n - varint_skip b)
       else Ret (l, res, h, n))).
  { destruct p as [| b p].
    - destruct l as [| b l]; [congruence |]. cbn [app] in *.
      assert (Er : exists c r1, r = c :: r1) by (destruct r as [| c r1]; [discriminate L | eauto]).
      destruct Er as (c & r1 & ->). exists [b], l, b, [], r1. cbn [app].
      inversion Ol; subst. inversion O; subst.
      assert (VL := varint_len_cases b).
      repeat split; try assumption; try (constructor; assumption); try discriminate.
      + rewrite blen_cons, blen_nil. lia.
      + cbn [from_stream]. rewrite blen_nil. rewrite N.eqb_refl. 
        assert (Hw : mem_write 0 [b] (c :: r1) = Some (b :: r1)).
        { exact (mem_write3 [] [c] r1 0 [b] eq_refl eq_refl). }
        rewrite Hw. cbn [mem bind]. reflexivity.
    - exists [], l, b, p, r. cbn [app]. rewrite app_nil_r. inversion Op; subst.
      repeat split; try assumption.
      + intro; exact H.
      + lia.
      + intro; exact NE.
      + unfold from_stream. destruct l as [| c l]; [congruence |]. rewrite blen_cons.
        replace (1 + blen p =? 0) with false by lia. cbn [bind]. reflexivity. }
  destruct First as (x1 & y1 & b & q & r1 & El & Ep & L1 & O1 & Oy & Sh & Le & B & Y1 & ->).
  rewrite skip_len by exact B.
  destruct (fill_spec (varint_len b) y1 (b :: q) r1) as (x & y & r' & Ey & F & L2 & O2 & Fin & Max).
  { pose proof (varint_len_cases b). lia. }
  { exact L1. } { exact O1. } { exact Oy. }
  cbn [app] in F. cbn [app]. rewrite F. cbn [bind].
  exists (x1 ++ x), y, r'. split; [rewrite El, Ey, app_assoc; reflexivity |].
  assert (Exx : p ++ x1 ++ x = b :: q ++ x) by (rewrite app_assoc, Ep; reflexivity).
  rewrite Exx. cbn [app] in L2, O2, Fin, Max.
  assert (NEx : x1 ++ x <> []).
  { intro Z. apply app_eq_nil in Z. destruct Z as [-> ->]. specialize (Sh eq_refl). specialize (Y1 eq_refl).
    rewrite app_nil_r in Fin. destruct Fin as [-> | Fin]; [cbn [app] in Ey; congruence | lia]. }
  split; [exact NEx |].
  assert (Ox : bytes_ok (b :: q ++ x)).
  { change (b :: (q ++ x) ++ r') with ((b :: q ++ x) ++ r') in O2. apply ok_app in O2. tauto. }
  split; [exact L2 |]. split; [exact O2 |].
  destruct (varint_len b <=? blen (b :: q ++ x)) eqn:T.
  - assert (Eq : blen (b :: q ++ x) = varint_len b).
    { destruct Max as [Max | ->]; [lia |]. rewrite app_nil_r in *. lia. }
    destruct (number_of b (q ++ x) Ox Eq) as (v & V).
    pose proof (num_of v _ [] V ltac:(constructor)) as Nv. rewrite app_nil_r in Nv. rewrite Nv. split; [exact V |].
    change (b :: (q ++ x) ++ r') with ((b :: q ++ x) ++ r').
    rewrite (decode_number (b :: q ++ x) r' v V).
    2:{ change (b :: (q ++ x) ++ r') with ((b :: q ++ x) ++ r') in O2. apply ok_app in O2. tauto. }
    cbn [bind]. rewrite Eq, N.sub_diag. reflexivity.
  - assert (Nn : num (b :: q ++ x) = None) by (apply num_none; [exact Ox | lia]).
    rewrite Nn. destruct Fin as [-> | Fin]; [| lia]. split; reflexivity.
Qed.

(** ** A machine that takes one byte at a time *)

Inductive upos :=
| US (p : list N)
| UT (p : list N)
| UL (ty : N) (p : list N)
| UB (ty n : N) (x : list N)
| UI (p : list N)
| UW (id : N) (x : list N)
| UX.

Inductive mres :=
| MRun (st : settings) (q : upos)
| MFail (c : N) (st : settings)
| MUndef.

Definition got (st : settings) : settings :=
  mk_set (se_sessions st) (se_table st) (se_blocked st) (se_connect st) (se_datagram st) true.

Definition ufinish (st : settings) (ty : N) (x : list N) : mres :=
  if ty =? 4 then
    match x with
    | [] => MFail 265 st
    | _ =>
      match components (S (length x)) x st with
      | Ret (true, st') => MRun (got st') (UT [])
      | Ret (false, st') => MFail 265 st'
      | _ => MUndef
      end
    end
  else MRun st (UT []).

Section Machine.
Variable known : N -> bool.

Definition start_done (st : settings) (t : N) : mres :=
  MRun st (if t =? 0 then UT [] else if t =? 84 then UI [] else UX).
Definition type_done (st : settings) (ty : N) : mres :=
  match type_bad (se_received st) ty with Some c => MFail c st | None => MRun st (UL ty []) end.
Definition length_done (st : settings) (ty n : N) : mres :=
  if (ty =? 4) && (65536 <? n) then MFail 258 st
  else if n =? 0 then ufinish st ty [] else MRun st (UB ty n []).
Definition session_done (st : settings) (id : N) : mres :=
  if known id then MRun st (UW id []) else MFail 0 st.

Definition ustep (b : N) (st : settings) (q : upos) : mres :=
  let number p k d := match num (p ++ [b]) with None => MRun st (k (p ++ [b])) | Some v => d v end in
  match q with
  | US p => number p US (start_done st)
  | UT p => number p UT (type_done st)
  | UL ty p => number p (UL ty) (length_done st ty)
  | UB ty n x => if n <=? blen (x ++ [b]) then ufinish st ty (x ++ [b]) else MRun st (UB ty n (x ++ [b]))
  | UI p => number p UI (session_done st)
  | UW id x => MRun st (UW id (x ++ [b]))
  | UX => MRun st UX
  end.

Fixpoint urun (l : list N) (st : settings) (q : upos) : mres :=
  match l with
  | [] => MRun st q
  | b :: r => match ustep b st q with MRun st' q' => urun r st' q' | e => e end
  end.

Definition uthen (r : mres) (l : list N) : mres := match r with MRun st q => urun l st q | e => e end.

Lemma urun_app : forall a b st q, urun (a ++ b) st q = uthen (urun a st q) b.
Proof.
  induction a as [| c a IH]; intros b st q; [reflexivity |]. cbn [app urun].
  destruct (ustep c st q); [apply IH | reflexivity | reflexivity].
Qed.

(** A number, byte by byte. *)
Definition number_pos (k : list N -> upos) (d : settings -> N -> mres) : Prop :=
  forall b st p, ustep b st (k p) = match num (p ++ [b]) with None => MRun st (k (p ++ [b])) | Some v => d st v end.

Lemma pos_start : number_pos US start_done.
Proof. intros b st p. reflexivity. Qed.
Lemma pos_type : number_pos UT type_done.
Proof. intros b st p. reflexivity. Qed.
Lemma pos_length : forall ty, number_pos (UL ty) (fun st n => length_done st ty n).
Proof. intros ty b st p. reflexivity. Qed.
Lemma pos_session : number_pos UI session_done.
Proof. intros b st p. reflexivity. Qed.

Lemma urun_number : forall k d, number_pos k d -> forall x p st, bytes_ok (p ++ x) -> x <> [] ->
  match num (p ++ x) with
  | None => urun x st (k p) = MRun st (k (p ++ x))
  | Some v => is_varint v (p ++ x) -> urun x st (k p) = d st v
  end.
Proof.
  intros k d K x. induction x as [| b x IH]; intros p st O NE; [congruence |].
  destruct x as [| c x].
  - cbn [urun]. rewrite K. destruct (num (p ++ [b])) as [v |]; [| reflexivity]. intros _. destruct (d st v); reflexivity.
  - cbn [urun]. rewrite K.
    assert (E : p ++ b :: c :: x = (p ++ [b]) ++ c :: x) by (rewrite <- app_assoc; reflexivity).
    rewrite E in *. specialize (IH (p ++ [b]) st O ltac:(discriminate)). cbn [urun] in IH.
    destruct (num ((p ++ [b]) ++ c :: x)) as [v |] eqn:T.
    + intro V. assert (Nn : num (p ++ [b]) = None).
      { apply num_start; [apply ok_app in O; tauto |]. exists (c :: x), v. split; [discriminate | exact V]. }
      rewrite Nn. exact (IH V).
    + rewrite (num_prefix _ _ O T). exact IH.
Qed.

Lemma urun_body : forall x st ty n z, blen z < n -> blen z + blen x <= n -> x <> [] ->
  urun x st (UB ty n z) = if n <=? blen (z ++ x) then ufinish st ty (z ++ x) else MRun st (UB ty n (z ++ x)).
Proof.
  induction x as [| b x IH]; intros st ty n z Lt Le NE; [congruence |].
  rewrite blen_cons in Le. destruct x as [| c x].
  - cbn [urun ustep]. destruct (n <=? blen (z ++ [b])); [| reflexivity].
    destruct (ufinish st ty (z ++ [b])); reflexivity.
  - assert (E : z ++ b :: c :: x = (z ++ [b]) ++ c :: x) by (rewrite <- app_assoc; reflexivity).
    assert (Lb : blen (z ++ [b]) = blen z + 1) by (rewrite blen_app, blen_cons, blen_nil; lia).
    rewrite blen_cons in Le.
    change (urun (b :: c :: x) st (UB ty n z)) with
      (match ustep b st (UB ty n z) with MRun st' q' => urun (c :: x) st' q' | e => e end).
    cbn [ustep]. replace (n <=? blen (z ++ [b])) with false by lia.
    rewrite IH; [rewrite E; reflexivity | lia | rewrite blen_cons; lia | discriminate].
Qed.

(** ** The relation of the states *)

Definition buffer (s : ustate) (p : list N) : Prop :=
  exists r, u_hdr s = p ++ r /\ blen (p ++ r) = 16 /\ bytes_ok (p ++ r) /\ u_hread s = blen p /\ num p = None.

Definition urel (s : ustate) (st : settings) (q : upos) : Prop :=
  (u_ignored s = true -> se_received st = true) /\
  match q with
  | US p => u_stream s = max64 /\ u_control s = max64 /\ u_ignored s = false /\ buffer s p
  | UT p => u_stream s = 0 /\ u_control s = max64 /\ u_type s = max64 /\ u_length s = max64 /\ u_read s = 0 /\ u_frame s = None /\ buffer s p
  | UL ty p => u_stream s = 0 /\ u_control s = max64 /\ u_type s = ty /\ ty < two62 /\ u_length s = max64 /\ u_read s = 0 /\ u_frame s = None /\
      buffer s p /\ type_bad (se_received st) ty = None /\ u_ignored s = negb (ty =? 4)
  | UB ty n x => u_stream s = 0 /\ u_control s = max64 /\ u_type s = ty /\ ty < two62 /\ u_length s = n /\ n < two62 /\ u_read s = blen x /\
      blen x < n /\ buffer s [] /\ type_bad (se_received st) ty = None /\ u_ignored s = negb (ty =? 4) /\
      (ty = 4 -> n <= 65536 /\ bytes_ok x /\ u_frame s = Some (x ++ zeros (n - blen x))) /\ (ty <> 4 -> u_frame s = None)
  | UI p => u_stream s = 84 /\ u_control s = max64 /\ u_ignored s = false /\ buffer s p
  | UW id x => u_stream s = 84 /\ u_control s = id /\ id < two62 /\ u_ignored s = false
  | UX => u_stream s <> max64 /\ u_stream s <> 0 /\ u_stream s <> 84 /\ u_control s = max64 /\ u_ignored s = false
  end.

Definition uctl (q : upos) : bool := match q with UT _ | UL _ _ | UB _ _ _ => true | _ => false end.

Lemma buffer_read : forall s p l res, buffer s p -> l <> [] -> bytes_ok l ->
  exists x y h n, l = x ++ y /\ x <> [] /\ bytes_ok (p ++ x) /\
  from_stream l res (u_hdr s) (u_hread s) = Ret (y, match num (p ++ x) with Some v => v | None => res end, h, n) /\
  match num (p ++ x) with
  | None => y = [] /\ (forall t a b c f k i, buffer (mk_u t a b c f k h n i) (p ++ x))
  | Some v => is_varint v (p ++ x) /\ (forall t a b c f k i, buffer (mk_u t a b c f k h n i) [])
  end.
Proof.
  intros s p l res (r & Hd & L & O & R & Nn) NE Ol.
  destruct (stream_number l p r res L O Nn NE Ol) as (x & y & r' & E & NEx & L' & O' & H).
  rewrite Hd, R. destruct (num (p ++ x)) as [v |] eqn:T.
  - destruct H as [V H]. exists x, y, ((p ++ x) ++ r'), 0. rewrite T. split; [exact E |]. split; [exact NEx |].
    split; [apply ok_app in O'; tauto |]. split; [exact H |]. split; [exact V |].
    intros t a b c f k i. exists ((p ++ x) ++ r'). repeat split; assumption.
  - destruct H as [Y H]. exists x, y, ((p ++ x) ++ r'), (blen (p ++ x)). rewrite T. split; [exact E |]. split; [exact NEx |].
    split; [apply ok_app in O'; tauto |]. split; [rewrite Y; exact H |]. split; [exact Y |].
    intros t a b c f k i. exists r'. repeat split; assumption.
Qed.

(** The machine and the parser of control streams agree. *)
Definition agrees (l : list N) (st : settings) (q : upos) (o : outcome cres) : Prop :=
  match urun l st q with
  | MRun st' q' => exists s' e, o = Ret (mk_c (Some []) s' st' e) /\ urel s' st' q' /\ uctl q' = true
  | MFail c st' => exists s', o = Ret (mk_c None s' st' c)
  | MUndef => True
  end.

Lemma type_bad_eq : forall received ty, type_error received ty = type_bad received ty.
Proof.
  intros received ty. unfold type_error, type_bad, frame_settings, frame_data, frame_header, frame_push_promise, frame_webtransport.
  destruct received; cbn [andb negb]; destruct (ty =? 4) eqn:T; cbn [negb]; try reflexivity.
  replace (ty =? 0) with false by lia. replace (ty =? 1) with false by lia. replace (ty =? 5) with false by lia.
  replace (ty =? 65) with false by lia. reflexivity.
Qed.

Lemma agrees_app : forall x y st q st' q' o, urun x st q = MRun st' q' -> agrees y st' q' o -> agrees (x ++ y) st q o.
Proof. intros x y st q st' q' o H A. unfold agrees in *. rewrite urun_app, H. exact A. Qed.

Lemma agrees_fail : forall x y st q c st' s, urun x st q = MFail c st' -> agrees (x ++ y) st q (Ret (mk_c None s st' c)).
Proof. intros x y st q c st' s H. unfold agrees. rewrite urun_app, H. cbn [uthen]. exists s. reflexivity. Qed.

Lemma buffer_other : forall s p t a b c f k i, buffer s p -> buffer (mk_u t a b c f k (u_hdr s) (u_hread s) i) p.
Proof. intros s p t a b c f k i H. exact H. Qed.

(** The state before the content of a frame. *)
Definition ready (s : ustate) (st : settings) (ty n : N) (z : list N) : Prop :=
  u_stream s = 0 /\ u_control s = max64 /\ u_type s = ty /\ ty < two62 /\ u_length s = n /\ n < two62 /\ u_read s = blen z /\
  blen z < n /\ buffer s [] /\ type_bad (se_received st) ty = None /\ u_ignored s = negb (ty =? 4) /\
  (ty = 4 -> n <= 65536 /\ bytes_ok z /\ ((u_frame s = None /\ z = []) \/ u_frame s = Some (z ++ zeros (n - blen z)))) /\
  (ty <> 4 -> u_frame s = None).

Lemma bad_received : forall st ty, type_bad (se_received st) ty = None -> ty <> 4 -> se_received st = true.
Proof.
  intros st ty H T. unfold type_bad in H. destruct (se_received st); [reflexivity |].
  replace (ty =? 4) with false in H by lia. discriminate.
Qed.

Lemma reset_rel : forall s st, u_stream s = 0 -> u_control s = max64 -> buffer s [] -> (u_ignored s = true -> se_received st = true) ->
  urel (reset_control s) st (UT []).
Proof.
  intros s st St C B I. split; [exact I |]. unfold reset_control. cbn [u_stream u_type u_length u_read u_frame u_control].
  repeat split; assumption.
Qed.

Lemma content_ok : forall l s st ty n z, ready s st ty n z -> bytes_ok l -> blen l < two62 ->
  exists x y, l = x ++ y /\ (x = [] -> l = []) /\ blen z + blen x <= n /\
  match (if n <=? blen (z ++ x) then ufinish st ty (z ++ x) else MRun st (UB ty n (z ++ x))) with
  | MRun st' q' => exists s', control_content l s st = Ret (mk_c (Some y) s' st' 0) /\ urel s' st' q' /\ uctl q' = true /\ (y = [] \/ q' = UT [])
  | MFail c st' => exists s', control_content l s st = Ret (mk_c None s' st' c)
  | MUndef => True
  end.
Proof.
  intros l s st ty n z (St & C & T & Ty & Ln & Bn & R & Lt & Bu & Tb & Ig & F4 & Fo) Ol Bl.
  set (av := if n <? u64 (blen z + blen l) then n - blen z else blen l).
  assert (Uw : u64 (blen z + blen l) = blen z + blen l).
  { unfold u64, two64, two62 in *. apply N.mod_small. lia. }
  assert (Av : av <= blen l /\ blen z + av <= n /\ (blen z + av = n \/ av = blen l) /\ (av = 0 -> blen l = 0)).
  { unfold av. rewrite Uw. destruct (n <? blen z + blen l) eqn:K; lia. }
  destruct Av as (Av1 & Av2 & Av3 & Av4).
  destruct (cut_at av l Av1) as (x & y & El & Lx).
  exists x, y. split; [exact El |].
  split. { intros ->. rewrite blen_nil in Lx. apply blen0. apply Av4. lia. }
  split; [lia |].
  assert (Fx : firstn (N.to_nat av) l = x) by (rewrite El, <- Lx; apply firstn_at).
  assert (Sx : skipn (N.to_nat av) l = y) by (rewrite El, <- Lx; apply skipn_at).
  assert (Ox : bytes_ok x) by (rewrite El in Ol; apply ok_app in Ol; tauto).
  assert (Pa : frame_part l s = av) by (unfold frame_part; rewrite Ln, R; reflexivity).
  assert (Ig' : u_ignored s = true -> se_received st = true).
  { intro I. apply (bad_received st ty Tb). rewrite Ig in I. destruct (ty =? 4) eqn:K; [discriminate | lia]. }
  assert (Y : n <= blen z + av \/ y = []).
  { destruct Av3 as [Av3 | Av3]; [left; lia | right]. rewrite El in Av3. rewrite blen_app in Av3. apply blen0. lia. }
  unfold control_content. rewrite R, Ln. replace (blen z <? n) with true by lia. rewrite Ig.
  rewrite blen_app, Lx. unfold ufinish.
  destruct (ty =? 4) eqn:T4; cbn [negb].
  - (* SETTINGS *)
    assert (E4 : ty = 4) by lia. destruct (F4 E4) as (N6 & Oz & Fr).
    unfold load_content. rewrite Ln. replace (65536 <? n) with false by lia. rewrite Pa.
    assert (Ef : match u_frame s with Some f => f | None => mem_fill 0 n end = z ++ zeros (n - blen z)).
    { destruct Fr as [[Fr ->] | Fr]; rewrite Fr; [| reflexivity]. unfold mem_fill. cbn [app]. rewrite blen_nil, N.sub_0_r. reflexivity. }
    rewrite Ef, R, Fx, Sx. rewrite write_zeros by lia. cbn [mem bind].
    set (f := (z ++ x) ++ zeros (n - blen z - blen x)).
    change (u_length (set_fread s (Some f) (blen z + av))) with (u_length s).
    change (u_read (set_fread s (Some f) (blen z + av))) with (blen z + av).
    change (u_type (set_fread s (Some f) (blen z + av))) with (u_type s).
    change (u_frame (set_fread s (Some f) (blen z + av))) with (Some f). rewrite Ln, T. unfold frame_settings. rewrite T4.
    destruct (n <=? blen z + av) eqn:K.
    + assert (En : blen (z ++ x) = n) by (rewrite blen_app; lia).
      assert (NEz : z ++ x <> []) by (intro Z; rewrite Z, blen_nil in En; lia).
      assert (Er : mem_read 0 n f = Some (z ++ x)).
      { unfold f. apply (mem_split3 [] (z ++ x) (zeros (n - blen z - blen x)) 0 n); [reflexivity | symmetry; exact En]. }
      cbn [components_decode]. rewrite Er. cbn [mem bind].
      destruct (z ++ x) as [| c w] eqn:Ez; [congruence |]. rewrite <- Ez in *.
      destruct (components (S (length (z ++ x))) (z ++ x) st) as [| | [[|] st']] eqn:Co; cbn [bind]; [exact I | exact I | | eexists; reflexivity].
      eexists. split; [reflexivity |]. split; [| split; [reflexivity | right; reflexivity]].
      apply reset_rel; [exact St | exact C | apply buffer_other; exact Bu | reflexivity].
    + destruct Y as [Y | ->]; [lia |].
      eexists. split; [reflexivity |]. split; [| split; [reflexivity | left; reflexivity]].
      split; [exact Ig' |]. unfold set_fread. cbn [u_stream u_control u_type u_length u_read u_ignored u_frame].
      rewrite blen_app, Lx. repeat split; try assumption; try lia.
      * rewrite Ig, T4. reflexivity.
      * apply ok_app; split; assumption.
      * unfold f. f_equal. f_equal. f_equal. lia.
  - (* skipped *)
    assert (N4 : ty <> 4) by lia. specialize (Fo N4).
    unfold skip_content. rewrite Pa, Sx, R. cbn [bind].
    change (u_length (set_fread s (u_frame s) (blen z + av))) with (u_length s).
    change (u_read (set_fread s (u_frame s) (blen z + av))) with (blen z + av).
    change (u_type (set_fread s (u_frame s) (blen z + av))) with (u_type s). rewrite Ln, T. unfold frame_settings. rewrite T4.
    destruct (n <=? blen z + av) eqn:K.
    + eexists. split; [reflexivity |]. split; [| split; [reflexivity | right; reflexivity]].
      apply reset_rel; [exact St | exact C | apply buffer_other; exact Bu | exact Ig'].
    + destruct Y as [Y | ->]; [lia |].
      eexists. split; [reflexivity |]. split; [| split; [reflexivity | left; reflexivity]].
      split; [exact Ig' |]. unfold set_fread. cbn [u_stream u_control u_type u_length u_read u_ignored u_frame].
      rewrite blen_app, Lx. repeat split; try assumption; try lia. try (rewrite Ig, T4; reflexivity). all: congruence.
Qed.

Lemma content_zero : forall l s st ty, u_type s = ty -> u_length s = 0 -> u_read s = 0 -> u_frame s = None ->
  control_content l s st = Ret (if ty =? 4 then mk_c None (reset_control s) st 265 else mk_c (Some l) (reset_control s) st 0).
Proof.
  intros l s st ty T L R F. unfold control_content. rewrite R, L. cbn [N.ltb N.leb N.compare bind].
  rewrite R, L, T. unfold frame_settings. cbn [N.leb N.compare]. destruct (ty =? 4); [| reflexivity].
  rewrite F. reflexivity.
Qed.

Lemma content_long : forall l s st, u_ignored s = false -> 65536 < u_length s -> u_read s = 0 ->
  control_content l s st = Ret (mk_c None s st 258).
Proof.
  intros l s st I L R. unfold control_content. rewrite R, I. replace (0 <? u_length s) with true by lia.
  unfold load_content. replace (65536 <? u_length s) with true by lia. cbn [bind].
  rewrite R. replace (u_length s <=? 0) with false by lia. reflexivity.
Qed.

Definition next (f : nat) (l : list N) (s : ustate) (st : settings) : outcome cres :=
  let! (continues, r) := control_length l s st in
  match k_rest r with
  | None => Ret r
  | Some l' => if continues then parse_control f l' (k_state r) (k_set r) else Ret r
  end.

Lemma not_max : forall v, v < two62 -> (v =? max64) = false.
Proof. intros v H. unfold two62, max64 in *. lia. Qed.

Definition goes (f : nat) : Prop := forall l s st q, uctl q = true -> urel s st q -> bytes_ok l -> blen l < two62 -> (length l < f)%nat ->
  agrees l st q (parse_control f l s st).

Lemma blen_le : forall x y z, x ++ y = z -> blen z < two62 -> blen y < two62.
Proof. intros x y z <- H. rewrite blen_app in H. lia. Qed.

Lemma next_content : forall f l s st ty n z, goes f -> ready s st ty n z -> bytes_ok l -> blen l < two62 -> (length l <= f)%nat -> (0 < f)%nat ->
  (let! r := control_content l s st in
   match k_rest r with
   | None => Ret r
   | Some l' => parse_control f l' (k_state r) (k_set r)
   end) = next f l s st /\ agrees l st (UB ty n z) (next f l s st).
Proof.
  intros f l s st ty n z G Rd Ol Bl Lf F0.
  assert (Ln : u_length s = n) by (destruct Rd as (_ & _ & _ & _ & L & _); exact L).
  assert (Bn : n < two62) by (destruct Rd as (_ & _ & _ & _ & _ & B & _); exact B).
  assert (Lt : blen z < n) by (destruct Rd as (_ & _ & _ & _ & _ & _ & _ & B & _); exact B).
  assert (E : next f l s st = (let! r := control_content l s st in
   match k_rest r with
   | None => Ret r
   | Some l' => parse_control f l' (k_state r) (k_set r)
   end)).
  { unfold next, control_length. rewrite Ln, not_max by exact Bn. destruct (control_content l s st); reflexivity. }
  rewrite E. split; [reflexivity |].
  destruct (content_ok l s st ty n z Rd Ol Bl) as (x & y & El & Ex & Le & H).
  assert (U : urun x st (UB ty n z) = if n <=? blen (z ++ x) then ufinish st ty (z ++ x) else MRun st (UB ty n (z ++ x))).
  { destruct x as [| c x]; [| apply urun_body; [exact Lt | exact Le | discriminate]].
    rewrite app_nil_r. replace (n <=? blen z) with false by lia. reflexivity. }
  rewrite <- U in H. rewrite El.
  destruct (urun x st (UB ty n z)) as [st' q' | c st' |] eqn:V.
  - destruct H as (s' & Hc & Rl & Uc & _). rewrite <- El, Hc. cbn [bind k_rest k_state k_set]. rewrite El.
    apply (agrees_app x y st (UB ty n z) st' q' _ V).
    apply G; [exact Uc | exact Rl | rewrite El in Ol; apply ok_app in Ol; tauto | apply (blen_le x y l); [symmetry; exact El | exact Bl] |].
    rewrite El in Lf. rewrite app_length in Lf. destruct x as [| c x]; [| cbn [length] in Lf; lia].
    rewrite (Ex eq_refl) in El. cbn [app] in El. rewrite <- El. exact F0.
  - destruct H as (s' & Hc). rewrite <- El, Hc. cbn [bind k_rest]. rewrite El. apply agrees_fail. exact V.
  - unfold agrees. rewrite urun_app, V. exact I.
Qed.

Lemma next_length : forall f l s st ty p, goes f -> urel s st (UL ty p) -> bytes_ok l -> blen l < two62 -> (length l <= f)%nat ->
  agrees l st (UL ty p) (next f l s st).
Proof.
  intros f l s st ty p G (Ig0 & St & C & T & Ty & Ln & R & Fr & Bu & Tb & Ig) Ol Bl Lf.
  destruct l as [| b0 l0] eqn:El0.
  - unfold next, control_length. rewrite Ln, N.eqb_refl. cbn [from_stream bind]. rewrite N.eqb_refl. cbn [bind k_rest].
    unfold agrees. cbn [urun]. eexists _, 0. split; [reflexivity |]. split; [| reflexivity].
    split; [exact Ig0 |]. unfold set_flength, set_buf. cbn [u_stream u_control u_type u_length u_read u_frame u_ignored].
    repeat split; assumption.
  - rewrite <- El0 in *. assert (NE : l <> []) by (rewrite El0; discriminate). clear El0 b0 l0.
    assert (F0 : (0 < f)%nat) by (destruct l; [congruence | cbn [length] in Lf; lia]).
    destruct (buffer_read s p l (u_length s) Bu NE Ol) as (x & y & h & n0 & El & NEx & Opx & Fs & H).
    unfold next, control_length. replace (u_length s =? max64) with true by (rewrite Ln; reflexivity). rewrite Fs. cbn [bind].
    pose proof (urun_number (UL ty) _ (pos_length ty) x p st Opx NEx) as Un. cbv beta in Un.
    assert (Oy : bytes_ok y) by (rewrite El in Ol; apply ok_app in Ol; tauto).
    assert (By : blen y < two62) by (apply (blen_le x y l); [symmetry; exact El | exact Bl]).
    assert (Ly : (length y < f)%nat).
    { rewrite El, app_length in Lf. destruct x; [congruence | cbn [length] in Lf; lia]. }
    destruct (num (p ++ x)) as [n |] eqn:Nn.
    + destruct H as [V B']. specialize (Un V). pose proof (varint_bound n _ V) as Bn.
      rewrite not_max by exact Bn.
      set (s1 := set_flength (set_buf s h n0) n).
      assert (I1 : u_ignored s1 = negb (ty =? 4)) by exact Ig.
      unfold length_done in Un.
      destruct ((ty =? 4) && (65536 <? n)) eqn:Long.
      * apply andb_true_iff in Long. destruct Long as [T4 N6].
        rewrite content_long; [| rewrite I1, T4; reflexivity | cbn; lia | exact R]. cbn [bind k_rest]. rewrite El. apply agrees_fail. exact Un.
      * destruct (n =? 0) eqn:Z.
        -- rewrite (content_zero y s1 st ty); [| exact T | cbn; lia | exact R | exact Fr].
           unfold ufinish in Un. destruct (ty =? 4) eqn:T4.
           ++ cbn [bind k_rest]. rewrite El. apply agrees_fail. exact Un.
           ++ cbn [bind k_rest k_state k_set]. rewrite El.
              apply (agrees_app x y st _ st (UT []) _ Un). apply G; [reflexivity | | exact Oy | exact By | exact Ly].
              apply reset_rel; [exact St | exact C | apply B' | exact Ig0].
        -- assert (Rd : ready s1 st ty n []).
           { unfold ready, s1, set_flength, set_buf. cbn [u_stream u_control u_type u_length u_read u_frame u_ignored].
             rewrite blen_nil. split; [exact St |]. split; [exact C |]. split; [exact T |]. split; [exact Ty |]. split; [reflexivity |].
             split; [exact Bn |]. split; [exact R |]. split; [lia |]. split; [apply B' |]. split; [exact Tb |]. split; [exact Ig |].
             split; [intros ->; split; [cbn in Long; lia | split; [constructor | left; split; [exact Fr | reflexivity]]] | intro; exact Fr]. }
           destruct (next_content f y s1 st ty n [] G Rd Oy By ltac:(lia) F0) as (E & A).
           rewrite <- E in A. rewrite El. apply (agrees_app x y st _ st (UB ty n []) _ Un).
           destruct (control_content y s1 st); exact A.
    + destruct H as [-> B']. rewrite Ln, N.eqb_refl. cbn [bind k_rest].
      rewrite El, app_nil_r. unfold agrees. rewrite Un. eexists _, 0. split; [reflexivity |]. split; [| reflexivity].
      split; [exact Ig0 |]. unfold set_flength, set_buf. cbn [u_stream u_control u_type u_length u_read u_frame u_ignored].
      repeat split; try assumption. apply B'.
Qed.

Lemma all_go : forall f, goes f.
Proof.
  induction f as [| f IH]; intros l s st q Uc Rl Ol Bl Lf; [lia |].
  destruct l as [| b0 l0] eqn:El0.
  { unfold agrees. cbn [urun parse_control]. exists s, 0. split; [reflexivity |]. split; assumption. }
  change (parse_control (S f) (b0 :: l0) s st) with
    (if u_type s =? max64 then
        let! (l, v, h, n) := from_stream (b0 :: l0) (u_type s) (u_hdr s) (u_hread s) in
        let s := set_ftype (set_buf s h n) v in
        if v =? max64 then parse_control f l s st
        else
          match type_error (se_received st) v with
          | Some e => Ret (mk_c None s st e)
          | None => next f l (if v =? frame_settings then s else set_ignored s) st
          end
      else next f (b0 :: l0) s st).
  rewrite <- El0 in *. assert (NE : l <> []) by (rewrite El0; discriminate). clear El0 b0 l0.
  destruct q as [p | p | ty p | ty n z | p | id z |]; try discriminate Uc.
  - destruct Rl as (Ig & St & C & T & Ln & R & Fr & Bu).
    destruct (buffer_read s p l (u_type s) Bu NE Ol) as (x & y & h & n0 & El & NEx & Opx & Fs & H).
    replace (u_type s =? max64) with true by (rewrite T; reflexivity). rewrite Fs. cbn [bind].
    pose proof (urun_number UT _ pos_type x p st Opx NEx) as Un.
    assert (Oy : bytes_ok y) by (rewrite El in Ol; apply ok_app in Ol; tauto).
    assert (By : blen y < two62) by (apply (blen_le x y l); [symmetry; exact El | exact Bl]).
    assert (Ly : (length y < f)%nat).
    { rewrite El, app_length in Lf. destruct x; [congruence | cbn [length] in Lf; lia]. }
    destruct (num (p ++ x)) as [ty |] eqn:Nn.
    + destruct H as [V B']. specialize (Un V). pose proof (varint_bound ty _ V) as Bt.
      cbv zeta. rewrite not_max by exact Bt. rewrite type_bad_eq. unfold type_done in Un.
      rewrite El. destruct (type_bad (se_received st) ty) as [c |] eqn:Tb.
      * apply agrees_fail. exact Un.
      * apply (agrees_app x y st _ st (UL ty []) _ Un).
        apply next_length; [exact IH | | exact Oy | exact By | lia].
        unfold frame_settings. destruct (ty =? 4) eqn:T4.
        -- split; [exact Ig |]. unfold set_ftype, set_buf. cbn [u_stream u_control u_type u_length u_read u_frame u_ignored].
           split; [exact St |]. split; [exact C |]. split; [reflexivity |]. split; [exact Bt |]. split; [exact Ln |]. split; [exact R |].
           split; [exact Fr |]. split; [apply B' |]. split; [exact Tb |]. rewrite T4. cbn [negb].
           destruct (u_ignored s); [| reflexivity]. specialize (Ig eq_refl). unfold type_bad in Tb. rewrite Ig, T4 in Tb. discriminate.
        -- split; [intros _; apply (bad_received st ty Tb); lia |].
           unfold set_ignored, set_ftype, set_buf. cbn [u_stream u_control u_type u_length u_read u_frame u_ignored u_hdr u_hread].
           split; [exact St |]. split; [exact C |]. split; [reflexivity |]. split; [exact Bt |]. split; [exact Ln |]. split; [exact R |].
           split; [exact Fr |]. split; [apply B' |]. split; [exact Tb |]. rewrite T4. reflexivity.
    + destruct H as [-> B']. cbv zeta. rewrite T, N.eqb_refl. rewrite El.
      apply (agrees_app x [] st _ st (UT (p ++ x)) _ Un).
      apply IH; [reflexivity | | constructor | unfold two62; rewrite blen_nil; lia | exact Ly].
      split; [exact Ig |]. unfold set_ftype, set_buf. cbn [u_stream u_control u_type u_length u_read u_frame u_ignored].
      repeat split; try assumption. apply B'.
  - assert (Ty : u_type s = ty /\ ty < two62) by (destruct Rl as (_ & _ & _ & A & B & _); split; assumption).
    destruct Ty as [Ty1 Ty2]. rewrite Ty1, not_max by exact Ty2.
    apply next_length; [exact IH | exact Rl | exact Ol | exact Bl | lia].
  - destruct Rl as (Ig0 & St & C & T & Ty & Ln & Bn & R & Lt & Bu & Tb & Ig & F4 & Fo).
    rewrite T, not_max by exact Ty.
    assert (Rd : ready s st ty n z).
    { unfold ready. repeat (split; [assumption |]). split; [| exact Fo].
      intro E. destruct (F4 E) as (A & B & D). split; [exact A |]. split; [exact B |]. right. exact D. }
    apply (next_content f l s st ty n z IH Rd Ol Bl); [lia |].
    destruct l; [congruence | cbn [length] in Lf; lia].
Qed.

End Machine.
