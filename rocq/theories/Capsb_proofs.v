(** The reception of capsules: any cut into pieces; what is received. *)
From Verif Require Import Base Tac Mem Mem_proofs Varint_spec Varint_model Varint_proofs Qpack_model H3_model H3_spec
  H3_proofs H3b_proofs H3c_proofs Caps_model Caps_spec Caps_proofs.

Section Pieces.
Variable alloc : N -> bool.

(** The state before bytes of the value. *)
Definition cready (c : capsule) (ty n : N) (z : list N) : Prop :=
  cp_known c = true /\ cp_stored c = false /\ cp_type c = ty /\ cp_length c = n /\ n < two62 /\ cp_vread c = blen z /\
  blen z < n /\ cp_size c = n /\ cp_buf c = Some (z ++ zeros (n - blen z)).

Lemma value_ok : forall l c ty n z, cready c ty n z -> blen l < two62 ->
  exists x y c', l = x ++ y /\ (x = [] -> l = []) /\ blen z + blen x <= n /\ cap_value l c = Ret (Some y, c') /\
  (if n <=? blen (z ++ x) then
     cp_known c' = true /\ cp_stored c' = true /\ cp_type c' = ty /\ cp_length c' = n /\ cp_vread c' = n /\ cp_size c' = n /\ cp_buf c' = Some (z ++ x) /\
     blen (z ++ x) = n
   else y = [] /\ cready c' ty n (z ++ x)).
Proof.
  intros l c ty n z (Kn & Sto & T & Ln & Bn & Vr & Lt & Sz & Bf) Bl.
  assert (Uw : u64 (blen z + blen l) = blen z + blen l).
  { unfold u64, two64, two62 in *. apply N.mod_small. lia. }
  assert (Uw2 : u64 (n + (two64 - blen z)) = n - blen z).
  { replace (n + (two64 - blen z)) with ((n - blen z) + 1 * two64) by (unfold two64, two62 in *; lia).
    unfold u64. rewrite N.mod_add by (unfold two64; lia). apply N.mod_small. unfold two64, two62 in *. lia. }
  set (av := if n <? blen z + blen l then n - blen z else blen l).
  assert (Av : av <= blen l /\ blen z + av <= n /\ (blen z + av = n \/ av = blen l) /\ (av = 0 -> blen l = 0)).
  { unfold av. destruct (n <? blen z + blen l) eqn:K; lia. }
  destruct Av as (Av1 & Av2 & Av3 & Av4).
  destruct (cut_at av l Av1) as (x & y & El & Lx).
  assert (Fx : firstn (N.to_nat av) l = x) by (rewrite El, <- Lx; apply firstn_at).
  assert (Sx : skipn (N.to_nat av) l = y) by (rewrite El, <- Lx; apply skipn_at).
  assert (Uv : u64 (blen z + av) = blen z + av).
  { unfold u64, two64, two62 in *. apply N.mod_small. lia. }
  exists x, y. unfold cap_value. rewrite Bf, Ln, Vr, Uw, Uw2. fold av.
  replace (blen l <? av) with false by lia. rewrite Fx, Sx. rewrite write_zeros by lia. cbn [mem bind]. rewrite Uv.
  eexists. split; [exact El |]. split; [intros ->; rewrite blen_nil in Lx; apply blen0; apply Av4; lia |]. split; [lia |].
  split; [reflexivity |]. unfold set_value. cbn [cp_known cp_stored cp_type cp_length cp_vread cp_size cp_buf].
  rewrite blen_app, Lx. destruct (n <=? blen z + av) eqn:K.
  - assert (En : blen z + av = n) by lia. replace (n - blen z - av) with 0 by lia.
    repeat split; try assumption. unfold zeros. cbn [N.to_nat repeat]. rewrite app_nil_r. reflexivity.
  - split; [destruct Av3 as [Av3 | Av3]; [lia |]; rewrite El, blen_app in Av3; apply blen0; lia |].
    unfold cready. cbn [cp_known cp_stored cp_type cp_length cp_vread cp_size cp_buf]. rewrite blen_app, Lx.
    repeat split; try assumption; try lia. f_equal. f_equal. f_equal. lia.
Qed.

Lemma dispatch_event : forall c ty x, cp_type c = ty -> cp_length c = blen x -> cp_buf c = Some x -> dispatch c = Ret (event ty x).
Proof.
  intros c ty x T L B. unfold dispatch, event. rewrite T, L, B.
  assert (R : mem_read 0 (blen x) x = Some x).
  { rewrite <- (app_nil_r x) at 2. apply (mem_split3 [] x [] 0 (blen x)); reflexivity. }
  rewrite R. cbn [mem bind]. destruct (ty =? 0); [reflexivity |].
  destruct ((ty =? 30894) || (ty =? 10307)); [| reflexivity].
  destruct x as [| a [| b [| d [| e msg]]]]; try reflexivity.
  replace (blen (a :: b :: d :: e :: msg) <? 4) with false by (rewrite !blen_cons; lia). reflexivity.
Qed.

Definition cevents (q : cpos) : list wev := match q with CE _ e => [e] | _ => [] end.

Definition caps_agree (l : list N) (q : cpos) (o : outcome (list wev * capsule * bool)) : Prop :=
  match krun alloc l q with
  | KRun q' => exists es c', o = Ret (es, c', true) /\ crel c' q' /\ cevents q' = cevents q ++ es
  | KFail => exists c', o = Ret ([], c', false)
  | KUndef => o = Undef
  end.

Lemma caps_agree_app : forall x y q q' o, krun alloc x q = KRun q' -> cevents q' = cevents q -> caps_agree y q' o -> caps_agree (x ++ y) q o.
Proof.
  intros x y q q' o H E A. unfold caps_agree in *. rewrite krun_app, H. cbn [kthen].
  destruct (krun alloc y q'); [rewrite <- E; exact A | exact A | exact A].
Qed.

Lemma caps_agree_fail : forall x y q c, krun alloc x q = KFail -> caps_agree (x ++ y) q (Ret ([], c, false)).
Proof. intros x y q c H. unfold caps_agree. rewrite krun_app, H. cbn [kthen]. exists c. reflexivity. Qed.

Definition cgoes (f : nat) : Prop := forall l c q, crel c q -> bytes_ok l -> blen l < two62 -> (length l < f)%nat ->
  caps_agree l q (receive alloc f l c).

(** The end of a turn of the loop. *)
Definition turn (f : nat) (l : list N) (c : capsule) : outcome (list wev * capsule * bool) :=
  let! (r, c) := cap_value l c in
  match r with
  | None => Ret ([], c, false)
  | Some l =>
    if cp_stored c then
      let! e := dispatch c in
      match e with
      | None => Ret ([], c, false)
      | Some e => let! (es, c, ok) := receive alloc f l c in Ret (e :: es, c, ok)
      end
    else receive alloc f l c
  end.

Lemma turn_ok : forall f l c ty n z, cgoes f -> cready c ty n z -> bytes_ok l -> blen l < two62 -> (length l <= f)%nat -> (0 < f)%nat ->
  caps_agree l (CB ty n z) (turn f l c).
Proof.
  intros f l c ty n z G Rd Ol Bl Lf F0.
  assert (Bn : n < two62) by (destruct Rd as (_ & _ & _ & _ & B & _); exact B).
  assert (Lt : blen z < n) by (destruct Rd as (_ & _ & _ & _ & _ & _ & B & _); exact B).
  destruct (value_ok l c ty n z Rd Bl) as (x & y & c' & El & Ex & Le & Cv & H).
  unfold turn. rewrite Cv. cbn [bind].
  assert (U : krun alloc x (CB ty n z) = if n <=? blen (z ++ x) then cfinish ty (z ++ x) else KRun (CB ty n (z ++ x))).
  { destruct x as [| b x]; [| apply krun_body; [exact Lt | exact Le | discriminate]].
    rewrite app_nil_r. replace (n <=? blen z) with false by lia. reflexivity. }
  assert (Oy : bytes_ok y) by (rewrite El in Ol; apply ok_app in Ol; tauto).
  assert (By : blen y < two62) by (rewrite El, blen_app in Bl; lia).
  assert (Ly : (length y < f)%nat).
  { rewrite El in Lf. rewrite app_length in Lf. destruct x as [| b x]; [| cbn [length] in Lf; lia].
    rewrite (Ex eq_refl) in El. cbn [app] in El. rewrite <- El. exact F0. }
  rewrite El. destruct (n <=? blen (z ++ x)) eqn:K.
  - destruct H as (Kn & Sto & T & Ln & Vr & Sz & Bf & En). rewrite Sto.
    rewrite (dispatch_event c' ty (z ++ x) T ltac:(lia) Bf). cbn [bind]. unfold cfinish in U.
    destruct (event ty (z ++ x)) as [e |]; [| apply caps_agree_fail; exact U].
    assert (Rc : crel c' (CE (blen (z ++ x)) e)).
    { cbn [crel]. rewrite En. repeat split; try assumption; [lia | exists (z ++ x); exact Bf]. }
    pose proof (G y c' _ Rc Oy By Ly) as A. unfold caps_agree in *. rewrite krun_app, U. cbn [kthen].
    destruct (krun alloc y (CE (blen (z ++ x)) e)) as [q' | |] eqn:Ky.
    + destruct A as (es & c2 & -> & R2 & E2). cbn [bind]. exists (e :: es), c2. split; [reflexivity |]. split; [exact R2 |].
      rewrite E2. reflexivity.
    + destruct y as [| b y]; [discriminate | discriminate].
    + rewrite A. reflexivity.
  - destruct H as (-> & Rd'). pose proof Rd' as (_ & Sto & _). rewrite Sto.
    apply (caps_agree_app x [] (CB ty n z) _ _ U); [reflexivity |].
    apply G; [exact Rd' | constructor | rewrite blen_nil; unfold two62; lia | exact Ly].
Qed.

Lemma turn_receive : forall f l c, l <> [] ->
  receive alloc (S f) l c =
  (let c := restart c in
   let! (l, c) := (if cp_known c then Ret (l, c) else cap_header l c) in
   if cp_known c then let! c := cap_buffer alloc c in turn f l c
   else
     (if cp_stored c then
       let! e := dispatch c in
       match e with
       | None => Ret ([], c, false)
       | Some e => let! (es, c, ok) := receive alloc f l c in Ret (e :: es, c, ok)
       end
     else receive alloc f l c)).
Proof.
  intros f l c NE. destruct l as [| b l]; [congruence |]. cbn [receive]. unfold accumulate. cbv zeta.
  destruct (if cp_known (restart c) then _ else _) as [| | [l1 c1]]; cbn [bind]; try reflexivity.
  destruct (cp_known c1); [| reflexivity].
  destruct (cap_buffer alloc c1) as [| | c2]; cbn [bind]; reflexivity.
Qed.

Lemma receive_goes : forall f, cgoes f.
Proof.
  induction f as [| f IH]; intros l c q R Ol Bl Lf; [lia |].
  destruct l as [| b0 l0] eqn:El0.
  { unfold caps_agree. cbn [krun receive]. exists [], c. split; [reflexivity |]. split; [exact R | rewrite app_nil_r; reflexivity]. }
  rewrite <- El0 in *. assert (NE : l <> []) by (rewrite El0; discriminate). clear El0 b0 l0.
  assert (F0 : (0 < f)%nat) by (destruct l; [congruence | cbn [length] in Lf; lia]).
  rewrite turn_receive by exact NE. cbv zeta.
  destruct q as [p | ty n z | n e].
  - destruct R as (Fr & HN). pose proof Fr as (_ & _ & Kn & Sto & _).
    assert (Er : restart c = c) by (unfold restart; rewrite Sto; reflexivity). rewrite Er, Kn.
    destruct (header_read alloc l p c Fr HN NE Ol) as (x & y & c' & El & NEx & Opx & Ch & H). rewrite Ch. cbn [bind].
    pose proof (krun_head alloc x p Opx HN) as U.
    assert (Oy : bytes_ok y) by (rewrite El in Ol; apply ok_app in Ol; tauto).
    assert (By : blen y < two62) by (rewrite El, blen_app in Bl; lia).
    assert (Ly : (length y < f)%nat).
    { rewrite El, app_length in Lf. destruct x; [congruence | cbn [length] in Lf; lia]. }
    rewrite El. destruct (head (p ++ x)) as [[ty n] |] eqn:Hd.
    + destruct H as (V & Kn' & Sto' & T' & Ln' & Vr' & Sz' & Bf'). specialize (U V). rewrite Kn'.
      destruct V as (a & b & _ & _ & Vn). pose proof (varint_bound n b Vn) as Bn.
      unfold cbegin in U. unfold cap_buffer. rewrite Sz', Ln', Vr'. cbn [N.ltb N.compare].
      destruct (n =? 0) eqn:Z.
      * replace (0 <? n) with false by lia. cbn [bind]. unfold turn, cap_value. rewrite Bf'. cbn [bind].
        apply caps_agree_fail. exact U.
      * replace (0 <? n) with true by lia. cbn [orb] in U. destruct (alloc n) eqn:Al; cbn [negb] in U.
        -- cbn [bind]. apply (caps_agree_app x y (CH p) (CB ty n []) _ U); [reflexivity |].
           apply turn_ok; [exact IH | | exact Oy | exact By | lia | exact F0].
           unfold cready, set_value. cbn [cp_known cp_stored cp_type cp_length cp_vread cp_size cp_buf].
           rewrite blen_nil, N.sub_0_r. repeat split; try assumption; lia.
        -- cbn [bind]. unfold turn, cap_value, set_value. cbn [cp_buf bind]. apply caps_agree_fail. exact U.
    + destruct H as (-> & Fr'). pose proof Fr' as (_ & _ & Kn' & Sto' & _). rewrite Kn', Sto'.
      apply (caps_agree_app x [] (CH p) (CH (p ++ x)) _ U); [reflexivity |].
      apply IH; [split; [exact Fr' | exact Hd] | constructor | rewrite blen_nil; unfold two62; lia | exact Ly].
  - pose proof R as (Kn & Sto & T & Ln & Bn & Vr & Lt & Sz & Bf).
    assert (Er : restart c = c) by (unfold restart; rewrite Sto; reflexivity). rewrite Er, Kn. cbn [bind]. rewrite Kn.
    assert (Cb : cap_buffer alloc c = Ret c) by (unfold cap_buffer; rewrite Sz, Ln; replace (n <? n) with false by lia; reflexivity).
    rewrite Cb. cbn [bind]. apply turn_ok; [exact IH | exact R | exact Ol | exact Bl | lia | exact F0].
  - destruct R as (Kn & Sto & Vr & P & Bn & b & Bf).
    assert (K : krun alloc l (CE n e) = KUndef) by (destruct l; [congruence | reflexivity]).
    unfold caps_agree. rewrite K. unfold restart. rewrite Sto. cbn [cp_known]. rewrite Kn. cbn [bind cp_known].
    unfold cap_buffer. cbn [cp_size cp_length]. replace (cp_size c <? 0) with false by lia. cbn [bind].
    unfold turn, cap_value. cbn [cp_buf cp_length cp_vread]. rewrite Bf, Vr.
    assert (Pl : 0 < blen l) by (destruct l; [congruence | rewrite blen_cons; lia]).
    assert (Uw : u64 (n + blen l) = n + blen l).
    { unfold u64, two64, two62 in *. apply N.mod_small. lia. }
    rewrite Uw. replace (0 <? n + blen l) with true by lia. rewrite N.add_0_l.
    assert (Uw2 : u64 (two64 - n) = two64 - n) by (unfold u64; apply N.mod_small; unfold two64, two62 in *; lia).
    rewrite Uw2. replace (blen l <? two64 - n) with true by (unfold two64, two62 in *; lia). reflexivity.
Qed.

Lemma caps_pieces : forall cs c q, crel c q -> bytes_ok (concat cs) -> blen (concat cs) < two62 ->
  caps_agree (concat cs) q (receive_pieces alloc cs c).
Proof.
  induction cs as [| x cs IH]; intros c q R O B.
  { unfold caps_agree. cbn [concat krun receive_pieces]. exists [], c. split; [reflexivity |]. split; [exact R | rewrite app_nil_r; reflexivity]. }
  cbn [concat] in O, B. apply ok_app in O. destruct O as [Ox Ocs]. rewrite blen_app in B.
  pose proof (receive_goes (S (length x)) x c q R Ox ltac:(lia) ltac:(lia)) as H.
  cbn [concat receive_pieces]. unfold caps_agree in *. rewrite krun_app. destruct (krun alloc x q) as [q' | |] eqn:K; cbn [kthen].
  - destruct H as (es & c' & -> & R' & E'). cbn [bind].
    specialize (IH c' q' R' Ocs ltac:(lia)). destruct (krun alloc (concat cs) q') as [q2 | |] eqn:K2.
    + destruct IH as (es2 & c2 & -> & R2 & E2). cbn [bind]. exists (es ++ es2), c2. split; [reflexivity |]. split; [exact R2 |].
      rewrite E2, E', app_assoc. reflexivity.
    + destruct IH as (c2 & ->). cbn [bind]. rewrite app_nil_r.
      assert (Z : cevents q' = []) by (destruct q' as [p' | ty' n' z' | n' e']; [reflexivity | reflexivity | destruct (concat cs); discriminate]).
      rewrite Z in E'. symmetry in E'. apply app_eq_nil in E'. destruct E' as [_ ->]. exists c2. reflexivity.
    + rewrite IH. reflexivity.
  - destruct H as (c' & ->). cbn [bind]. exists c'. reflexivity.
  - rewrite H. reflexivity.
Qed.

Definition kresult (r : kres) : cresult :=
  match r with KRun q => Heard (cevents q) | KFail => Refused [] | KUndef => CBroken end.

Lemma start_caps : crel capsule0 (CH []).
Proof.
  split; [| reflexivity]. split; [exists (mem_fill 0 hdr_size); repeat split; try reflexivity |].
  - apply Forall_forall. intros x X. apply repeat_spec in X. subst x. reflexivity.
  - repeat split; reflexivity.
Qed.

Lemma caps_result : forall cs l, stream cs l -> cresult_of (receive_pieces alloc cs capsule0) = kresult (krun alloc l (CH [])).
Proof.
  intros cs l (<- & O & B). pose proof (caps_pieces cs capsule0 (CH []) start_caps O B) as H. unfold caps_agree in H.
  destruct (krun alloc (concat cs) (CH [])) as [q | |].
  - destruct H as (es & c' & -> & _ & E). cbn [cevents app] in E. cbn [cresult_of kresult]. rewrite E. reflexivity.
  - destruct H as (c' & ->). reflexivity.
  - rewrite H. reflexivity.
Qed.

(** ** What is received *)

Lemma caps_cut : forall cs1 cs2 l, stream cs1 l -> stream cs2 l ->
  cresult_of (receive_pieces alloc cs1 capsule0) = cresult_of (receive_pieces alloc cs2 capsule0).
Proof. intros cs1 cs2 l S1 S2. rewrite (caps_result cs1 l S1), (caps_result cs2 l S2). reflexivity. Qed.

Lemma vok : forall v a, is_varint v a -> bytes_ok a.
Proof. intros v a (? & _ & _ & _ & _ & O). exact O. Qed.

Lemma krun_begin : forall ty n a b, is_varint ty a -> is_varint n b -> krun alloc (a ++ b) (CH []) = cbegin alloc ty n.
Proof.
  intros ty n a b A B.
  assert (O : bytes_ok ([] ++ a ++ b)) by (cbn [app]; apply ok_app; split; [exact (vok _ _ A) | exact (vok _ _ B)]).
  pose proof (krun_head alloc (a ++ b) [] O eq_refl) as H. cbn [app] in H.
  pose proof (head_of ty n a b [] A B ltac:(constructor)) as Hd. rewrite app_nil_r in Hd. rewrite Hd in H.
  apply H. exists a, b. repeat split; assumption.
Qed.

Lemma krun_value : forall ty n a b x, is_varint ty a -> is_varint n b -> n <> 0 -> alloc n = true -> blen x <= n ->
  krun alloc (a ++ b ++ x) (CH []) = if n <=? blen x then cfinish ty x else KRun (CB ty n x).
Proof.
  intros ty n a b x A B N0 Al Le. rewrite app_assoc, krun_app, (krun_begin ty n a b A B). unfold cbegin. rewrite Al.
  replace (n =? 0) with false by lia. cbn [negb orb kthen]. destruct x as [| c x].
  - rewrite blen_nil. replace (n <=? 0) with false by lia. reflexivity.
  - apply (krun_body alloc (c :: x) ty n []); [rewrite blen_nil; lia | rewrite blen_nil; lia | discriminate].
Qed.

Lemma krun_short : forall p q ty n a b, is_varint ty a -> is_varint n b -> q <> [] -> p ++ q = a ++ b ->
  krun alloc p (CH []) = KRun (CH p).
Proof.
  intros p q ty n a b A B NE E.
  assert (O : bytes_ok (p ++ q)) by (rewrite E; apply ok_app; split; [exact (vok _ _ A) | exact (vok _ _ B)]).
  assert (Op : bytes_ok ([] ++ p)) by (apply ok_app in O; tauto).
  pose proof (krun_head alloc p [] Op eq_refl) as H. cbn [app] in H.
  destruct (head p) as [[ty' n'] |] eqn:Hd; [| exact H]. exfalso.
  destruct (head_inv p ty' n' Op Hd) as (a' & b' & r & -> & A' & B').
  assert (Or : bytes_ok (r ++ q)) by (rewrite <- !app_assoc in O; rewrite !ok_app in O; apply ok_app; tauto).
  rewrite <- !app_assoc in E.
  pose proof (is_varint_decode ty a b A (vok _ _ B)) as D1. rewrite <- E in D1.
  rewrite (is_varint_decode ty' a' (b' ++ r ++ q) A') in D1 by (apply ok_app; split; [exact (vok _ _ B') | exact Or]).
  injection D1 as _ D1.
  pose proof (is_varint_decode n b [] B ltac:(constructor)) as D2. rewrite app_nil_r, <- D1 in D2.
  rewrite (is_varint_decode n' b' (r ++ q) B' Or) in D2. injection D2 as _ D2. apply app_eq_nil in D2. destruct D2 as [_ D2]. congruence.
Qed.

Lemma krun_frame : forall ty x l, frame_bytes (ty, x) l -> x <> [] -> alloc (blen x) = true -> krun alloc l (CH []) = cfinish ty x.
Proof.
  intros ty x l (a & b & A & B & ->) NE Al. cbn [fst snd] in *.
  assert (blen x <> 0) by (destruct x; [congruence | rewrite blen_cons; lia]).
  rewrite (krun_value ty (blen x) a b x A B) by (try assumption; lia). rewrite N.leb_refl. reflexivity.
Qed.

Lemma caps_waiting : forall cs p, incomplete alloc p -> stream cs p -> cresult_of (receive_pieces alloc cs capsule0) = Heard [].
Proof.
  intros cs p H S. rewrite (caps_result cs p S). destruct H as [p q ty n a b A B NE E | ty n a b x A B Al Lt].
  - rewrite (krun_short p q ty n a b A B NE E). reflexivity.
  - rewrite (krun_value ty n a b x A B) by (try assumption; lia). replace (n <=? blen x) with false by lia. reflexivity.
Qed.

Lemma caps_one : forall cs ty x l e, frame_bytes (ty, x) l -> x <> [] -> alloc (blen x) = true -> means ty x e -> stream cs l ->
  cresult_of (receive_pieces alloc cs capsule0) = Heard [e].
Proof.
  intros cs ty x l e F NE Al M S. rewrite (caps_result cs l S), (krun_frame ty x l F NE Al). unfold cfinish.
  apply (event_means alloc) in M. rewrite M. reflexivity.
Qed.

Lemma caps_refused : forall cs l, refusable alloc l -> stream cs l -> cresult_of (receive_pieces alloc cs capsule0) = Refused [].
Proof.
  intros cs l H S. rewrite (caps_result cs l S). destruct H as [ty n a b r A B Z | ty x l r F NE Al M].
  - rewrite app_assoc, krun_app, (krun_begin ty n a b A B). unfold cbegin.
    replace ((n =? 0) || negb (alloc n)) with true; [reflexivity |]. destruct Z as [-> | ->]; [reflexivity | rewrite orb_true_r; reflexivity].
  - rewrite krun_app, (krun_frame ty x l F NE Al). unfold cfinish.
    destruct (event ty x) as [e |] eqn:E; [| reflexivity]. exfalso. apply (event_means alloc) in E. exact (M e E).
Qed.

Lemma caps_more : forall cs ty x l e r, frame_bytes (ty, x) l -> x <> [] -> alloc (blen x) = true -> means ty x e -> r <> [] -> stream cs (l ++ r) ->
  cresult_of (receive_pieces alloc cs capsule0) = CBroken.
Proof.
  intros cs ty x l e r F NE Al M Nr S. rewrite (caps_result cs _ S), krun_app, (krun_frame ty x l F NE Al). unfold cfinish.
  apply (event_means alloc) in M. rewrite M. cbn [kthen]. destruct r; [congruence | reflexivity].
Qed.

(** Every stream is one of these. *)
Lemma caps_cases : forall l, bytes_ok l ->
  incomplete alloc l \/ refusable alloc l \/
  exists ty x lf e r, l = lf ++ r /\ frame_bytes (ty, x) lf /\ x <> [] /\ alloc (blen x) = true /\ means ty x e.
Proof.
  intros l O. destruct (head l) as [[ty n] |] eqn:Hd.
  2:{ left. destruct (frames_varint_decode l) as [[ty l1] |] eqn:D.
    - pose proof D as D0. apply varint_decode_iff in D; [| exact O]. destruct D as (a & -> & A). apply ok_app in O. destruct O as [_ O1].
      unfold head in Hd. rewrite D0 in Hd. destruct (frames_varint_decode l1) as [[n l2] |] eqn:D2; [discriminate |].
      apply decode_short in D2; [| exact O1].
      assert (H : exists q b n, q <> [] /\ l1 ++ q = b /\ is_varint n b).
      { destruct l1 as [| c l1].
        - destruct (number_of 0 []) as (v & V); [repeat constructor | reflexivity |]. exists [0], [0], v. repeat split; [discriminate | exact V].
        - set (q := zeros (varint_len c - blen (c :: l1))).
          assert (Lq : blen q = varint_len c - blen (c :: l1)) by apply zeros_len.
          destruct (number_of c (l1 ++ q)) as (v & V).
          + change (c :: l1 ++ q) with ((c :: l1) ++ q). apply ok_app. split; [exact O1 |].
            unfold q, zeros. apply Forall_forall. intros y Y. apply repeat_spec in Y. subst y. reflexivity.
          + change (c :: l1 ++ q) with ((c :: l1) ++ q). rewrite blen_app. lia.
          + exists q, (c :: l1 ++ q), v. repeat split; [| exact V]. intro Z. rewrite Z, blen_nil in Lq. lia. }
      destruct H as (q & b & n & NE & E & B). apply (incomplete_head alloc (a ++ l1) q ty n a b A B NE). rewrite <- app_assoc, E. reflexivity.
    - apply decode_short in D; [| exact O].
      destruct (number_of 0 []) as (v0 & V0); [repeat constructor | reflexivity |].
      destruct l as [| c l].
      + apply (incomplete_head alloc [] ([0] ++ [0]) v0 v0 [0] [0] V0 V0); [discriminate | reflexivity].
      + set (q := zeros (varint_len c - blen (c :: l))).
        destruct (number_of c (l ++ q)) as (v & V).
        * change (c :: l ++ q) with ((c :: l) ++ q). apply ok_app. split; [exact O |].
          unfold q, zeros. apply Forall_forall. intros y Y. apply repeat_spec in Y. subst y. reflexivity.
        * change (c :: l ++ q) with ((c :: l) ++ q). rewrite blen_app. unfold q. rewrite zeros_len. lia.
        * apply (incomplete_head alloc (c :: l) (q ++ [0]) v v0 (c :: l ++ q) [0] V V0).
          -- intro Z. apply app_eq_nil in Z. destruct Z; discriminate.
          -- cbn [app]. rewrite app_assoc. reflexivity. }
  destruct (head_inv l ty n O Hd) as (a & b & r & -> & A & B). rewrite !ok_app in O.
  destruct ((n =? 0) || negb (alloc n)) eqn:Z.
  { right. left. apply (refusable_size alloc ty n a b r A B). apply orb_true_iff in Z. destruct Z as [Z | Z]; [left; lia |].
    right. destruct (alloc n); [discriminate | reflexivity]. }
  apply orb_false_iff in Z. destruct Z as [Z Al]. destruct (alloc n) eqn:Aln; [| discriminate].
  destruct (blen r <? n) eqn:Lt.
  { left. apply (incomplete_value alloc ty n a b r A B Aln). lia. }
  destruct (cut_at n r ltac:(lia)) as (x & y & -> & Lx).
  assert (NE : x <> []) by (intros ->; rewrite blen_nil in Lx; lia).
  assert (F : frame_bytes (ty, x) (a ++ b ++ x)) by (exists a, b; cbn [fst snd]; rewrite Lx; repeat split; assumption).
  assert (El : a ++ b ++ x ++ y = (a ++ b ++ x) ++ y) by (rewrite <- !app_assoc; reflexivity).
  destruct (event ty x) as [e |] eqn:E.
  - right. right. exists ty, x, (a ++ b ++ x), e, y. split; [exact El |]. split; [exact F |]. split; [exact NE |].
    split; [rewrite Lx; exact Aln | apply (event_means alloc); exact E].
  - right. left. rewrite El. apply (refusable_type alloc ty x); [exact F | exact NE | rewrite Lx; exact Aln |].
    intros e M. apply (event_means alloc) in M. congruence.
Qed.

Lemma caps_defined : forall cs l, stream cs l ->
  match cresult_of (receive_pieces alloc cs capsule0) with
  | CStuck => False
  | CBroken => exists ty x lf e r, l = lf ++ r /\ frame_bytes (ty, x) lf /\ x <> [] /\ alloc (blen x) = true /\ means ty x e /\ r <> []
  | _ => True
  end.
Proof.
  intros cs l S. pose proof S as (_ & O & _). destruct (caps_cases l O) as [H | [H | (ty & x & lf & e & r & -> & F & NE & Al & M)]].
  - rewrite (caps_waiting cs l H S). exact I.
  - rewrite (caps_refused cs l H S). exact I.
  - destruct r as [| c r].
    + rewrite app_nil_r in S. rewrite (caps_one cs ty x lf e F NE Al M S). exact I.
    + rewrite (caps_more cs ty x lf e (c :: r) F NE Al M ltac:(discriminate) S).
      exists ty, x, lf, e, (c :: r). repeat split; try assumption; try discriminate.
Qed.

Lemma caps_heard : forall cs l es, stream cs l -> cresult_of (receive_pieces alloc cs capsule0) = Heard es ->
  (es = [] /\ incomplete alloc l) \/ exists ty x e, es = [e] /\ frame_bytes (ty, x) l /\ x <> [] /\ means ty x e.
Proof.
  intros cs l es S E. pose proof S as (_ & O & _). destruct (caps_cases l O) as [H | [H | (ty & x & lf & e & r & -> & F & NE & Al & M)]].
  - rewrite (caps_waiting cs l H S) in E. injection E as <-. left. split; [reflexivity | exact H].
  - rewrite (caps_refused cs l H S) in E. discriminate.
  - destruct r as [| c r].
    + rewrite app_nil_r in *. rewrite (caps_one cs ty x lf e F NE Al M S) in E. injection E as <-.
      right. exists ty, x, e. repeat split; assumption.
    + rewrite (caps_more cs ty x lf e (c :: r) F NE Al M ltac:(discriminate) S) in E. discriminate.
Qed.

(** The memory for a capsule. *)
Lemma caps_memory : forall cs ty n a b, is_varint ty a -> is_varint n b -> n <> 0 -> alloc n = true -> stream cs (a ++ b) ->
  exists c, receive_pieces alloc cs capsule0 = Ret ([], c, true) /\ cp_size c = n /\ cp_vread c = 0 /\ exists buf, cp_buf c = Some buf /\ blen buf = n.
Proof.
  intros cs ty n a b A B N0 Al (E & O & Bl). pose proof (caps_pieces cs capsule0 (CH []) start_caps ltac:(rewrite E; exact O) ltac:(rewrite E; exact Bl)) as H.
  unfold caps_agree in H. rewrite E, (krun_begin ty n a b A B) in H. unfold cbegin in H. rewrite Al in H. replace (n =? 0) with false in H by lia.
  cbn [orb negb] in H. destruct H as (es & c & R & Rel & Es). cbn [cevents app] in Es. subst es.
  exists c. split; [exact R |]. destruct Rel as (_ & _ & _ & _ & _ & Vr & _ & Sz & Bf). split; [exact Sz |]. split; [exact Vr |].
  eexists. split; [exact Bf |]. cbn [app]. rewrite blen_nil, N.sub_0_r. apply zeros_len.
Qed.

End Pieces.

(** ** The messages sent *)

Lemma be_code : forall code, code < 2 ^ 32 ->
  2 ^ 24 * (code / 16777216 mod 256) + 2 ^ 16 * (code / 65536 mod 256) + 2 ^ 8 * (code / 256 mod 256) + code mod 256 = code.
Proof.
  intros code H. change (2 ^ 32) with 4294967296 in H. change (2 ^ 24) with 16777216. change (2 ^ 16) with 65536. change (2 ^ 8) with 256.
  assert (H1 := N.div_mod code 256 ltac:(lia)). assert (H2 := N.mod_lt code 256 ltac:(lia)).
  assert (E2 : code / 65536 = code / 256 / 256) by (rewrite N.div_div by lia; reflexivity).
  assert (E3 : code / 16777216 = code / 256 / 256 / 256) by (rewrite !N.div_div by lia; reflexivity).
  rewrite E2, E3.
  set (c1 := code / 256) in *. assert (H3 := N.div_mod c1 256 ltac:(lia)). assert (H4 := N.mod_lt c1 256 ltac:(lia)).
  set (c2 := c1 / 256) in *. assert (H5 := N.div_mod c2 256 ltac:(lia)). assert (H6 := N.mod_lt c2 256 ltac:(lia)).
  set (c3 := c2 / 256) in *. assert (c3 < 256) by lia. rewrite (N.mod_small c3 256) by lia. lia.
Qed.

Lemma encode_is : forall v room a, v < two62 -> frames_varint_encode v room = Some a -> is_varint v a.
Proof.
  intros v room a B H. unfold frames_varint_encode in H.
  assert (E : a = varint_bytes v).
  { repeat match type of H with context [if ?c then _ else _] => destruct c end; try discriminate; injection H as <-; reflexivity. }
  subst a. apply varint_bytes_is_varint. exact B.
Qed.

Lemma caps_close : forall alloc cs code msg l, code < 2 ^ 32 -> bytes_ok msg -> close_message code msg = Some l ->
  alloc (4 + blen msg) = true -> stream cs l -> cresult_of (receive_pieces alloc cs capsule0) = Heard [WEnd 10307 code msg].
Proof.
  intros alloc cs code msg l C O H Al S. unfold close_message in H.
  destruct (frames_varint_encode 10307 512) as [a |] eqn:A; [| discriminate].
  destruct (frames_varint_encode (4 + blen msg) (512 - blen a)) as [b |] eqn:B; [| discriminate].
  destruct (512 <? blen a + blen b + 4); [discriminate |].
  destruct (512 <? blen a + blen b + 4 + blen msg) eqn:L; [discriminate |]. apply some_inj in H.
  apply encode_is in A; [| unfold two62; lia]. apply encode_is in B; [| unfold two62; lia].
  set (x := [code / 16777216 mod 256; code / 65536 mod 256; code / 256 mod 256; code mod 256] ++ msg) in *.
  assert (F : frame_bytes (10307, x) l).
  { exists a, b. cbn [fst snd]. split; [exact A |]. split; [| symmetry; exact H].
    replace (blen x) with (4 + blen msg); [exact B |]. unfold x. rewrite blen_app. reflexivity. }
  apply (caps_one alloc cs 10307 x l); [exact F | unfold x; discriminate | | | exact S].
  - replace (blen x) with (4 + blen msg); [exact Al |]. unfold x. rewrite blen_app. reflexivity.
  - unfold x. cbn [app]. rewrite <- (be_code code C) at 5. constructor. right. reflexivity.
Qed.
