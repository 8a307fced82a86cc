(** Proofs about the stored connection ids: without multipath and when no id comes back, no
    pointer to a freed id is followed. *)
From Verif Require Import Base Tac Mem Varint_model Varint_proofs Cids_model Cids_spec Cids_proofs Cids2_proofs Cids3_proofs.
From Coq Require Import Lia Permutation.

(* The stored ids [l], those in use [u], the frames queued [r], the history [h]. *)
Record kinv (l : list rcid) (u : list N) (r : list (N * N)) (h : list event) : Prop := mk_kinv {
  k_alive : forall a, In a u -> exists e, In e l /\ rc_addr e = a /\ rc_sent e = false;
  k_used : forall e, In e l -> In (rc_addr e) u -> 1 <= rc_refs e;
  k_refs : forall e, In e l -> rc_refs e <= 1;
  k_sent : forall e, In e l -> rc_sent e = true -> rc_removal e = true \/ 1 <= rc_refs e;
  k_log : forall p q, In (p, q) r -> p = 0 /\ q < 2 ^ 62 /\ (forall e, In e l -> rc_seq e = q -> rc_sent e = true) /\
    ((exists e, In e l /\ rc_seq e = q) \/ In (EAck 0 q) h);
  k_logged : forall e, In e l -> rc_sent e = true -> In (0, rc_seq e) r;
  k_seq : forall e, In e l -> rc_seq e < 2 ^ 62;
  k_addr : NoDup (map rc_addr l);
  k_acked : forall e, In e l -> rc_acked e = false;
  k_uniq : NoDup (map rc_seq l)
}.

Lemma kinv_used l u u' r h : kinv l u r h -> (forall a, In a u' -> In a u) -> kinv l u' r h.
Proof. intros [K1 K2 K3 K4 K5 K6 K7 K8 K9 K10] H. constructor; auto. Qed.

Lemma kinv_more l u r h e : kinv l u r h -> kinv l u r (h ++ [e]).
Proof.
  intros [K1 K2 K3 K4 K5 K6 K7 K8 K9 K10]. constructor; auto. intros p q Hq. destruct (K5 p q Hq) as (A & B & C & D).
  repeat split; auto. destruct D as [D | D]; [left; exact D | right; apply in_app_iff; left; exact D].
Qed.

(* Marking the ids below a number. *)
Definition mark (b : N) (e : rcid) : rcid :=
  let e1 := if rc_seq e <? b then set_removal e else e in
  if rc_removal e1 && (rc_refs e1 =? 0) then set_sent e1 else e1.
Definition fresh_retire (b : N) (e : rcid) : bool :=
  ((rc_seq e <? b) || rc_removal e) && (rc_refs e =? 0) && negb (rc_sent e).

Lemma retire_below_eq l b : (forall e, In e l -> rc_acked e = false) ->
  retire_below l b = (map (mark b) l, map rc_seq (filter (fresh_retire b) l)).
Proof.
  induction l as [| e l IH]; intros Ha; cbn [retire_below]; [reflexivity |].
  rewrite IH by (intros x Hx; apply Ha; right; exact Hx). cbv zeta. cbn [map filter].
  specialize (Ha e (or_introl eq_refl)). unfold mark, fresh_retire.
  destruct e as [a sq id sc rf rm st ak]. cbn [rc_acked] in Ha. subst ak. cbn [rc_seq rc_removal rc_refs rc_sent].
  destruct (sq <? b); cbn [set_removal rc_removal rc_refs rc_sent rc_seq rc_acked orb andb]; [| destruct rm; cbn [rc_removal rc_refs rc_sent rc_seq rc_acked orb andb]];
    try (destruct (rf =? 0); cbn [andb]; [destruct st; reflexivity | reflexivity]); reflexivity.
Qed.

Lemma mark_same b e : rc_addr (mark b e) = rc_addr e /\ rc_seq (mark b e) = rc_seq e /\ rc_refs (mark b e) = rc_refs e /\
  rc_acked (mark b e) = rc_acked e /\ (rc_sent e = true -> rc_sent (mark b e) = true) /\ (rc_removal e = true -> rc_removal (mark b e) = true) /\
  (rc_sent (mark b e) = true -> rc_sent e = true \/ (rc_refs e = 0 /\ rc_removal (mark b e) = true /\ fresh_retire b e = true)) /\
  (rc_seq e < b -> rc_removal (mark b e) = true /\ (rc_refs e = 0 -> rc_sent (mark b e) = true)).
Proof.
  unfold mark, fresh_retire. destruct e as [a sq id sc rf rm st ak]. cbn [rc_seq rc_removal rc_refs rc_sent].
  destruct (N.ltb_spec sq b) as [L | L]; cbn [set_removal rc_removal rc_refs rc_sent rc_seq rc_acked orb andb]; [| destruct rm; cbn [rc_removal rc_refs rc_sent rc_seq rc_acked orb andb]];
  try (destruct (N.eqb_spec rf 0); cbn [andb]); cbn [set_sent rc_removal rc_refs rc_sent rc_seq rc_acked rc_addr];
  repeat match goal with |- _ /\ _ => split end; auto; try lia; try (intros; discriminate);
  destruct st; cbn [negb]; auto; try discriminate; try (intros; contradiction).
Qed.

Lemma kinv_mark l u r h b : kinv l u r h ->
  kinv (map (mark b) l) u (r ++ map (pair 0) (map rc_seq (filter (fresh_retire b) l))) h.
Proof.
  intros [K1 K2 K3 K4 K5 K6 K7 K8 K9 K10].
  assert (Hlogged : forall e, In e (map (mark b) l) -> rc_sent e = true -> In (0, rc_seq e) (r ++ map (pair 0) (map rc_seq (filter (fresh_retire b) l)))).
  { intros e He Hs. apply in_map_iff in He. destruct He as (x & <- & Hx). destruct (mark_same b x) as (M1 & M2 & M3 & M4 & M5 & M6 & M7 & M8).
    rewrite M2. destruct (M7 Hs) as [S | (_ & _ & F)].
    - apply in_app_iff. left. exact (K6 x Hx S).
    - apply in_app_iff. right. apply in_map. apply in_map_iff. exists x. split; [reflexivity |]. apply filter_In. auto. }
  constructor.
  - intros a Ha. destruct (K1 a Ha) as (e & E1 & E2 & E3). exists (mark b e). destruct (mark_same b e) as (M1 & M2 & M3 & M4 & M5 & M6 & M7 & M8).
    split; [apply in_map; exact E1 |]. split; [congruence |].
    destruct (rc_sent (mark b e)) eqn:Es; [| reflexivity]. destruct (M7 eq_refl) as [S | (R0 & _)]; [congruence |].
    exfalso. subst a. specialize (K2 e E1 Ha). lia.
  - intros e He Hu. apply in_map_iff in He. destruct He as (x & <- & Hx). destruct (mark_same b x) as (M1 & M2 & M3 & _). rewrite M3. apply K2; [exact Hx | congruence].
  - intros e He. apply in_map_iff in He. destruct He as (x & <- & Hx). destruct (mark_same b x) as (M1 & M2 & M3 & _). rewrite M3. exact (K3 x Hx).
  - intros e He Hs. apply in_map_iff in He. destruct He as (x & <- & Hx). destruct (mark_same b x) as (M1 & M2 & M3 & M4 & M5 & M6 & M7 & M8). rewrite M3.
    destruct (M7 Hs) as [S | (_ & S & _)]; [| left; exact S]. destruct (K4 x Hx S) as [R | R]; [left; exact (M6 R) | right; exact R].
  - intros p q Hq. apply in_app_iff in Hq. destruct Hq as [Hq | Hq].
    + destruct (K5 p q Hq) as (A & B & C & D). split; [exact A | split; [exact B | split]].
      * intros e He E. apply in_map_iff in He. destruct He as (x & <- & Hx). destruct (mark_same b x) as (M1 & M2 & M3 & M4 & M5 & _). apply M5, C; [exact Hx | congruence].
      * destruct D as [(e & E1 & E2) | D]; [left; exists (mark b e) | right; exact D]. destruct (mark_same b e) as (_ & M2 & _). split; [apply in_map; exact E1 | congruence].
    + apply in_map_iff in Hq. destruct Hq as (z & [= <- <-] & Hz). apply in_map_iff in Hz. destruct Hz as (x & <- & Hx). apply filter_In in Hx. destruct Hx as (Hx & F).
      split; [reflexivity | split; [exact (K7 x Hx) | split]].
      * intros e He E. apply in_map_iff in He. destruct He as (y & <- & Hy). destruct (mark_same b y) as (_ & M2 & _). rewrite M2 in E.
        pose proof (nodup_inj rc_seq l y x K10 Hy Hx E) as ->.
        destruct (mark_same b x) as (M1 & _ & M3 & M4 & M5 & M6 & M7 & M8). unfold fresh_retire in F. apply andb_prop in F. destruct F as (F & _). apply andb_prop in F. destruct F as (F & F2).
        unfold mark. destruct (rc_seq x <? b); cbn [set_removal rc_removal rc_refs andb orb] in *; rewrite ?F, F2; reflexivity.
      * left. exists (mark b x). destruct (mark_same b x) as (_ & M2 & _). split; [apply in_map; exact Hx | exact M2].
  - exact Hlogged.
  - intros e He. apply in_map_iff in He. destruct He as (x & <- & Hx). destruct (mark_same b x) as (_ & M2 & _). rewrite M2. exact (K7 x Hx).
  - rewrite map_map. rewrite (map_ext _ rc_addr); [exact K8 | intros x; exact (proj1 (mark_same b x))].
  - intros e He. apply in_map_iff in He. destruct He as (x & <- & Hx). destruct (mark_same b x) as (_ & _ & _ & M4 & _). rewrite M4. exact (K9 x Hx).
  - rewrite map_map. rewrite (map_ext _ rc_seq); [exact K10 | intros x; exact (proj1 (proj2 (mark_same b x)))].
Qed.

(* Taking an id. *)
Definition bump (a : N) (e : rcid) : rcid := if rc_addr e =? a then set_refs (rc_refs e + 1) e else e.

Lemma kinv_bump l u r h e :
  kinv l u r h -> In e l -> rc_refs e = 0 -> rc_removal e = false -> kinv (map (bump (rc_addr e)) l) (rc_addr e :: u) r h.
Proof.
  intros [K1 K2 K3 K4 K5 K6 K7 K8 K9 K10] He R0 Rm.
  assert (Hns : rc_sent e = false) by (destruct (rc_sent e) eqn:Es; [destruct (K4 e He Es) as [X | X]; [congruence | lia] | reflexivity]).
  assert (B : forall x, rc_addr (bump (rc_addr e) x) = rc_addr x /\ rc_seq (bump (rc_addr e) x) = rc_seq x /\ rc_sent (bump (rc_addr e) x) = rc_sent x /\
     rc_acked (bump (rc_addr e) x) = rc_acked x /\ rc_removal (bump (rc_addr e) x) = rc_removal x /\ rc_refs x <= rc_refs (bump (rc_addr e) x)).
  { intros x. unfold bump. destruct (rc_addr x =? rc_addr e); cbn; repeat split; lia. }
  constructor.
  - intros a [<- | Ha].
    + exists (bump (rc_addr e) e). destruct (B e) as (B1 & B2 & B3 & _). split; [apply in_map; exact He | split; [exact B1 | congruence]].
    + destruct (K1 a Ha) as (x & X1 & X2 & X3). exists (bump (rc_addr e) x). destruct (B x) as (B1 & B2 & B3 & _). split; [apply in_map; exact X1 | split; congruence].
  - intros y Hy Hu. apply in_map_iff in Hy. destruct Hy as (x & <- & Hx). destruct (B x) as (B1 & B2 & B3 & B4 & B5 & B6). rewrite B1 in Hu.
    destruct (N.eq_dec (rc_addr x) (rc_addr e)) as [E | E].
    + unfold bump. rewrite E, N.eqb_refl. cbn. lia.
    + destruct Hu as [Hu | Hu]; [congruence |]. specialize (K2 x Hx Hu). lia.
  - intros y Hy. apply in_map_iff in Hy. destruct Hy as (x & <- & Hx). unfold bump. destruct (N.eqb_spec (rc_addr x) (rc_addr e)) as [E | E]; [| exact (K3 x Hx)].
    rewrite (nodup_inj rc_addr l x e K8 Hx He E). cbn. lia.
  - intros y Hy Hs. apply in_map_iff in Hy. destruct Hy as (x & <- & Hx). destruct (B x) as (B1 & B2 & B3 & B4 & B5 & B6). rewrite B3 in Hs. rewrite B5.
    destruct (K4 x Hx Hs); [left; assumption | right; lia].
  - intros p q Hq. destruct (K5 p q Hq) as (A & A2 & C & D). split; [exact A | split; [exact A2 | split]].
    + intros y Hy E. apply in_map_iff in Hy. destruct Hy as (x & <- & Hx). destruct (B x) as (B1 & B2 & B3 & _). rewrite B3. apply C; [exact Hx | congruence].
    + destruct D as [(x & X1 & X2) | D]; [left; exists (bump (rc_addr e) x) | right; exact D]. destruct (B x) as (_ & B2 & _). split; [apply in_map; exact X1 | congruence].
  - intros y Hy Hs. apply in_map_iff in Hy. destruct Hy as (x & <- & Hx). destruct (B x) as (B1 & B2 & B3 & _). rewrite B2. apply K6; [exact Hx | congruence].
  - intros y Hy. apply in_map_iff in Hy. destruct Hy as (x & <- & Hx). destruct (B x) as (_ & B2 & _). rewrite B2. exact (K7 x Hx).
  - rewrite map_map. rewrite (map_ext _ rc_addr); [exact K8 | intros x; exact (proj1 (B x))].
  - intros y Hy. apply in_map_iff in Hy. destruct Hy as (x & <- & Hx). destruct (B x) as (_ & _ & _ & B4 & _). rewrite B4. exact (K9 x Hx).
  - rewrite map_map. rewrite (map_ext _ rc_seq); [exact K10 | intros x; exact (proj1 (proj2 (B x)))].
Qed.

(* Giving an id back. *)
Definition give (a : N) (e : rcid) : rcid := if rc_addr e =? a then set_sent e else e.

Lemma kinv_give l u r h e :
  kinv l u r h -> In e l -> rc_refs e = 1 -> ~ In (rc_addr e) u -> kinv (map (give (rc_addr e)) l) u (r ++ [(0, rc_seq e)]) h.
Proof.
  intros [K1 K2 K3 K4 K5 K6 K7 K8 K9 K10] He R1 Hu.
  assert (B : forall x, rc_addr (give (rc_addr e) x) = rc_addr x /\ rc_seq (give (rc_addr e) x) = rc_seq x /\ (rc_sent x = true -> rc_sent (give (rc_addr e) x) = true) /\
     rc_acked (give (rc_addr e) x) = rc_acked x /\ rc_removal (give (rc_addr e) x) = rc_removal x /\ rc_refs (give (rc_addr e) x) = rc_refs x /\
     (rc_addr x <> rc_addr e -> give (rc_addr e) x = x)).
  { intros x. unfold give. destruct (N.eqb_spec (rc_addr x) (rc_addr e)); cbn; repeat split; auto; contradiction. }
  assert (Bs : forall x, In x l -> rc_sent (give (rc_addr e) x) = true -> x = e \/ rc_sent x = true).
  { intros x Hx Hs. unfold give in Hs. destruct (N.eqb_spec (rc_addr x) (rc_addr e)) as [E | E]; [left; exact (nodup_inj rc_addr l x e K8 Hx He E) | right; exact Hs]. }
  constructor.
  - intros a Ha. destruct (K1 a Ha) as (x & X1 & X2 & X3). exists x. split; [| auto].
    apply in_map_iff. exists x. split; [apply B; congruence | exact X1].
  - intros y Hy Hu2. apply in_map_iff in Hy. destruct Hy as (x & <- & Hx). destruct (B x) as (B1 & B2 & B3 & B4 & B5 & B6 & B7). rewrite B6. apply K2; [exact Hx | congruence].
  - intros y Hy. apply in_map_iff in Hy. destruct Hy as (x & <- & Hx). destruct (B x) as (B1 & B2 & B3 & B4 & B5 & B6 & B7). rewrite B6. exact (K3 x Hx).
  - intros y Hy Hs. apply in_map_iff in Hy. destruct Hy as (x & <- & Hx). destruct (B x) as (B1 & B2 & B3 & B4 & B5 & B6 & B7). rewrite B5, B6.
    destruct (Bs x Hx Hs) as [-> | S]; [right; lia | exact (K4 x Hx S)].
  - intros p q Hq. apply in_app_iff in Hq. destruct Hq as [Hq | [[= <- <-] | []]].
    + destruct (K5 p q Hq) as (A & A2 & C & D). split; [exact A | split; [exact A2 | split]].
      * intros y Hy E. apply in_map_iff in Hy. destruct Hy as (x & <- & Hx). destruct (B x) as (B1 & B2 & B3 & _). apply B3, C; [exact Hx | congruence].
      * destruct D as [(x & X1 & X2) | D]; [left; exists (give (rc_addr e) x) | right; exact D]. destruct (B x) as (_ & B2 & _). split; [apply in_map; exact X1 | congruence].
    + split; [reflexivity | split; [exact (K7 e He) | split]].
      * intros y Hy E. apply in_map_iff in Hy. destruct Hy as (x & <- & Hx). destruct (B x) as (B1 & B2 & _). rewrite B2 in E.
        rewrite (nodup_inj rc_seq l x e K10 Hx He E). unfold give. rewrite N.eqb_refl. reflexivity.
      * left. exists (give (rc_addr e) e). destruct (B e) as (_ & B2 & _). split; [apply in_map; exact He | exact B2].
  - intros y Hy Hs. apply in_map_iff in Hy. destruct Hy as (x & <- & Hx). destruct (B x) as (B1 & B2 & B3 & _). rewrite B2. apply in_app_iff.
    destruct (Bs x Hx Hs) as [-> | S]; [right; left; reflexivity | left; exact (K6 x Hx S)].
  - intros y Hy. apply in_map_iff in Hy. destruct Hy as (x & <- & Hx). destruct (B x) as (_ & B2 & _). rewrite B2. exact (K7 x Hx).
  - rewrite map_map. rewrite (map_ext _ rc_addr); [exact K8 | intros x; exact (proj1 (B x))].
  - intros y Hy. apply in_map_iff in Hy. destruct Hy as (x & <- & Hx). destruct (B x) as (_ & _ & _ & B4 & _). rewrite B4. exact (K9 x Hx).
  - rewrite map_map. rewrite (map_ext _ rc_seq); [exact K10 | intros x; exact (proj1 (proj2 (B x)))].
Qed.

(* The end of an id. *)
Lemma nodup_map_filter {A} (g : rcid -> A) f l : NoDup (map g l) -> NoDup (map g (filter f l)).
Proof.
  induction l as [| x l IH]; cbn [map filter]; intros H; [exact H |]. inversion H as [| y m Hy Hm]; subst.
  destruct (f x); cbn [map]; [| exact (IH Hm)]. constructor; [| exact (IH Hm)].
  intros Hc. apply Hy. apply in_map_iff in Hc. destruct Hc as (z & Ez & Hz). apply filter_In in Hz. apply in_map_iff. exists z. split; [exact Ez | exact (proj1 Hz)].
Qed.

Lemma kinv_remove l u r h e :
  kinv l u r h -> In e l -> rc_sent e = true ->
  kinv (filter (fun x => negb (rc_addr x =? rc_addr e)) l) u r (h ++ [EAck 0 (rc_seq e)]).
Proof.
  intros [K1 K2 K3 K4 K5 K6 K7 K8 K9 K10] He Hs.
  assert (F : forall x, In x (filter (fun x => negb (rc_addr x =? rc_addr e)) l) <-> In x l /\ rc_addr x <> rc_addr e).
  { intros x. rewrite filter_In. destruct (N.eqb_spec (rc_addr x) (rc_addr e)) as [E | E]; cbn [negb]; split; intros (A & B); split; auto; try discriminate; contradiction. }
  constructor.
  - intros a Ha. destruct (K1 a Ha) as (x & X1 & X2 & X3). exists x. split; [| auto]. apply F. split; [exact X1 |].
    intros E. rewrite (nodup_inj rc_addr l x e K8 X1 He E) in X3. congruence.
  - intros y Hy. apply F in Hy. destruct Hy as (Hy & _). auto.
  - intros y Hy. apply F in Hy. destruct Hy as (Hy & _). auto.
  - intros y Hy. apply F in Hy. destruct Hy as (Hy & _). auto.
  - intros p q Hq. destruct (K5 p q Hq) as (A & A2 & C & D). split; [exact A | split; [exact A2 | split]].
    + intros y Hy. apply F in Hy. destruct Hy as (Hy & _). auto.
    + destruct D as [(x & X1 & X2) | D]; [| right; apply in_app_iff; left; exact D].
      destruct (N.eq_dec (rc_addr x) (rc_addr e)) as [E | E].
      * right. apply in_app_iff. right. left. rewrite <- X2, (nodup_inj rc_addr l x e K8 X1 He E). reflexivity.
      * left. exists x. split; [apply F; auto | exact X2].
  - intros y Hy. apply F in Hy. destruct Hy as (Hy & _). auto.
  - intros y Hy. apply F in Hy. destruct Hy as (Hy & _). auto.
  - apply nodup_map_filter. exact K8.
  - intros y Hy. apply F in Hy. destruct Hy as (Hy & _). auto.
  - apply nodup_map_filter. exact K10.
Qed.

(* A new id. *)
Lemma kinv_add l u r h e :
  kinv l u r h -> rc_refs e = 0 -> rc_sent e = false -> rc_acked e = false -> rc_seq e < 2 ^ 62 ->
  ~ In (rc_addr e) (map rc_addr l) -> ~ In (rc_seq e) (map rc_seq l) -> ~ In (rc_addr e) u -> ~ In (EAck 0 (rc_seq e)) h -> kinv (l ++ [e]) u r h.
Proof.
  intros [K1 K2 K3 K4 K5 K6 K7 K8 K9 K10] R0 S0 A0 L Ha Hq Hu Hh.
  assert (F : forall x, In x (l ++ [e]) -> In x l \/ x = e).
  { intros x Hx. apply in_app_iff in Hx. destruct Hx as [Hx | [<- | []]]; auto. }
  constructor.
  - intros a Hi. destruct (K1 a Hi) as (x & X1 & X2 & X3). exists x. split; [apply in_app_iff; left; exact X1 | auto].
  - intros y Hy Hy2. destruct (F y Hy) as [Hy1 | ->]; [auto | contradiction].
  - intros y Hy. destruct (F y Hy) as [Hy1 | ->]; [auto | lia].
  - intros y Hy Hs. destruct (F y Hy) as [Hy1 | ->]; [auto | congruence].
  - intros p q Hi. destruct (K5 p q Hi) as (A & A2 & C & D). split; [exact A | split; [exact A2 | split]].
    + intros y Hy E. destruct (F y Hy) as [Hy1 | ->]; [auto |]. exfalso. destruct D as [(x & X1 & X2) | D].
      * apply Hq. rewrite E, <- X2. apply in_map. exact X1.
      * apply Hh. rewrite E. exact D.
    + destruct D as [(x & X1 & X2) | D]; [left; exists x | right; exact D]. split; [apply in_app_iff; left; exact X1 | exact X2].
  - intros y Hy Hs. destruct (F y Hy) as [Hy1 | ->]; [auto | congruence].
  - intros y Hy. destruct (F y Hy) as [Hy1 | ->]; [auto | exact L].
  - rewrite map_app. cbn [map]. apply nodup_snoc; assumption.
  - intros y Hy. destruct (F y Hy) as [Hy1 | ->]; [auto | exact A0].
  - rewrite map_app. cbn [map]. apply nodup_snoc; assumption.
Qed.
