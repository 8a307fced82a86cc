(** Proofs about the settings of HTTP/3 that are sent. *)
From Verif Require Import Base Varint_spec Varint_model Varint_proofs H3_spec Ctl_model Ctl_spec Ctl_proofs Ctlc_proofs Hset_model Hset_spec.

Definition entry (k v d : N) : list (N * N) := if v =? d then [] else [(k, v)].

Lemma pairs_app : forall p a q b, pairs p a -> pairs q b -> pairs (p ++ q) (a ++ b).
Proof.
  intros p a q b H K. induction H as [|k v x y ps l X Y P IH]; [exact K|].
  simpl. rewrite <- !app_assoc. constructor; assumption.
Qed.

Lemma encode_some : forall n room p, frames_varint_encode n room = Some p -> n < two62 ->
  is_varint n p /\ blen p = encode_varint_length n /\ blen p <= room.
Proof.
  intros n room p H L. rewrite frames_varint_encode_eq in H. destruct (encode_varint_length n <=? room) eqn:E; [|discriminate].
  inversion H; subst. split; [apply varint_bytes_is_varint; exact L|]. rewrite varint_bytes_length. lia.
Qed.

Lemma blen_app : forall a b, blen (a ++ b) = blen a + blen b.
Proof. intros. unfold blen. rewrite app_length. lia. Qed.

Lemma component_thm : forall k v d room c, component_encode k v d room = Some c -> k < two62 -> (v < two62 \/ v = d) ->
  pairs (entry k v d) c /\ blen c <= room /\
  blen c <= (if v =? d then 0 else encode_varint_length k + encode_varint_length v).
Proof.
  intros k v d room c H K V. unfold component_encode, entry in *. destruct (v =? d) eqn:E.
  - inversion H; subst. split; [constructor|]. unfold blen. simpl. lia.
  - assert (L : v < two62) by lia. unfold wseq in H.
    destruct (frames_varint_encode k room) as [a|] eqn:A; [|discriminate].
    destruct (frames_varint_encode v (room - blen a)) as [b|] eqn:B; [|discriminate]. inversion H; subst.
    apply encode_some in A; [|exact K]. apply encode_some in B; [|exact L]. rewrite blen_app.
    split; [|lia]. rewrite <- (app_nil_r b). constructor; [tauto|tauto|constructor].
Qed.

Lemma component_fits : forall k v d room, 16 <= room -> exists c, component_encode k v d room = Some c.
Proof.
  intros k v d room R. unfold component_encode. destruct (v =? d); [eauto|]. unfold wseq.
  pose proof (encode_varint_length_pos k). pose proof (encode_varint_length_pos v).
  rewrite frames_varint_encode_eq. replace (encode_varint_length k <=? room) with true by lia.
  rewrite frames_varint_encode_eq, varint_bytes_length.
  replace (encode_varint_length v <=? room - encode_varint_length k) with true by lia. eauto.
Qed.

Definition entries (st : settings) : list (N * N) :=
  entry 1 (se_table st) max64 ++ entry 7 (se_blocked st) max64 ++ entry 8 (se_connect st) 0 ++
  entry 51 (se_datagram st) 0 ++ entry 3329323114 (se_sessions st) 0.

Lemma small_len : forall v, v < 2 -> encode_varint_length v = 1.
Proof. intros v H. unfold encode_varint_length. replace (v <? 16384) with true by lia. replace (v <? 64) with true by lia. reflexivity. Qed.

Ltac wsplit H c A :=
  unfold wseq at 1 in H; match type of H with match ?x with _ => _ end = _ => destruct x as [c|] eqn:A; [|discriminate] end.

Lemma components_thm : forall st room c, set_ok st -> components_encode st room = Some c ->
  pairs (entries st) c /\ blen c <= room /\ blen c <= 38.
Proof.
  intros st room c [T [B [C [D S]]]] H. unfold components_encode, entries in *.
  wsplit H c1 A1. 
  match type of H with match ?x with _ => _ end = _ => destruct x as [r1|] eqn:R1; [|discriminate] end. inversion H; subst; clear H.
  wsplit R1 c2 A2.
  match type of R1 with match ?x with _ => _ end = _ => destruct x as [r2|] eqn:R2; [|discriminate] end. inversion R1; subst; clear R1.
  wsplit R2 c3 A3.
  match type of R2 with match ?x with _ => _ end = _ => destruct x as [r3|] eqn:R3; [|discriminate] end. inversion R2; subst; clear R2.
  wsplit R3 c4 A4.
  match type of R3 with match ?x with _ => _ end = _ => destruct x as [c5|] eqn:A5; [|discriminate] end. inversion R3; subst; clear R3.
  assert (K2 : forall v, v < 2 -> v < two62) by (unfold two62; intros; lia).
  apply component_thm in A1; [|reflexivity|exact T]. apply component_thm in A2; [|reflexivity|exact B].
  apply component_thm in A3; [|reflexivity|left; auto]. apply component_thm in A4; [|reflexivity|left; auto].
  apply component_thm in A5; [|reflexivity|left; exact S].
  destruct A1 as [P1 [Q1 L1]], A2 as [P2 [Q2 L2]], A3 as [P3 [Q3 L3]], A4 as [P4 [Q4 L4]], A5 as [P5 [Q5 L5]].
  split; [repeat apply pairs_app; assumption|]. rewrite !blen_app. split; [lia|].
  pose proof (encode_varint_length_pos (se_table st)). pose proof (encode_varint_length_pos (se_blocked st)).
  pose proof (encode_varint_length_pos (se_sessions st)).
  rewrite (small_len (se_connect st)) in L3 by exact C. rewrite (small_len (se_datagram st)) in L4 by exact D.
  change (encode_varint_length 1) with 1 in L1. change (encode_varint_length 7) with 1 in L2.
  change (encode_varint_length 8) with 1 in L3. change (encode_varint_length 51) with 1 in L4.
  change (encode_varint_length 3329323114) with 8 in L5.
  destruct (se_table st =? max64), (se_blocked st =? max64), (se_connect st =? 0), (se_datagram st =? 0), (se_sessions st =? 0); lia.
Qed.

Lemma told : forall st, set_ok st -> told_by (entries st) settings0 true = kept st.
Proof.
  intros [s t b c d r] [T [B [C [D S]]]]. unfold told_by, entries, entry, kept. simpl se_sessions in *. simpl se_table in *.
  simpl se_blocked in *. simpl se_connect in *. simpl se_datagram in *.
  assert (C' : c mod 2 = c) by (apply N.mod_small; exact C). assert (D' : d mod 2 = d) by (apply N.mod_small; exact D).
  destruct (t =? max64), (b =? max64), (c =? 0) eqn:EC, (d =? 0) eqn:ED, (s =? 0) eqn:ES;
    try (apply N.eqb_eq in EC; subst c); try (apply N.eqb_eq in ED; subst d); try (apply N.eqb_eq in ES; subst s);
    cbn -[N.modulo]; rewrite ?C', ?D'; reflexivity.
Qed.

Lemma entries_given : forall st, some_given st -> entries st <> [].
Proof.
  intros st H. unfold entries, entry.
  destruct (se_table st =? max64) eqn:E1; [|discriminate]. destruct (se_blocked st =? max64) eqn:E2; [|discriminate].
  destruct (se_connect st =? 0) eqn:E3; [|discriminate]. destruct (se_datagram st =? 0) eqn:E4; [|discriminate].
  destruct (se_sessions st =? 0) eqn:E5; [|discriminate]. unfold some_given in H. lia.
Qed.

Lemma settings_shape : forall st room s, set_ok st -> room < two62 -> settings_encode st room = Some s ->
  exists c, frame_bytes (4, c) s /\ pairs (entries st) c /\ blen c <= 38 /\ blen s <= room /\ blen s = 2 + blen c.
Proof.
  intros st room s OK R H. unfold settings_encode in H.
  destruct (frames_varint_encode 4 room) as [a|] eqn:A; [|discriminate].
  destruct (frames_varint_encode room (room - blen a)) as [b|] eqn:B; [|discriminate].
  destruct (components_encode st (room - blen a - blen b)) as [c|] eqn:C; [|discriminate].
  destruct (frames_varint_encode (blen c) (blen b)) as [b'|] eqn:B'; [|discriminate]. inversion H; subst; clear H.
  apply components_thm in C; [|exact OK]. destruct C as [C1 [C2 C3]].
  apply encode_some in A; [|reflexivity]. apply encode_some in B; [|exact R].
  apply encode_some in B'; [|unfold two62; lia]. exists c.
  assert (L : encode_varint_length (blen c) = 1).
  { unfold encode_varint_length. replace (blen c <? 16384) with true by lia. replace (blen c <? 64) with true by lia. reflexivity. }
  change (encode_varint_length 4) with 1 in A.
  split; [exists a, b'; simpl; tauto|]. split; [exact C1|]. split; [exact C3|]. rewrite !blen_app. lia.
Qed.

Theorem size_thm : forall st room s, set_ok st -> room < two62 -> settings_encode st room = Some s -> blen s <= room /\ blen s <= 40.
Proof.
  intros st room s OK R H. destruct (settings_shape st room s OK R H) as [c [_ [_ [L1 [L2 L3]]]]]. lia.
Qed.

Theorem fits_thm : forall st room, set_ok st -> 64 <= room < two62 -> exists s, settings_encode st room = Some s.
Proof.
  intros st room OK R. unfold settings_encode.
  pose proof (encode_varint_length_pos room) as LR.
  rewrite frames_varint_encode_eq. change (encode_varint_length 4) with 1. replace (1 <=? room) with true by lia.
  rewrite varint_bytes_length. change (encode_varint_length 4) with 1.
  rewrite (frames_varint_encode_eq room). replace (encode_varint_length room <=? room - 1) with true by lia.
  rewrite varint_bytes_length.
  assert (E : exists c, components_encode st (room - 1 - encode_varint_length room) = Some c).
  { set (m := room - 1 - encode_varint_length room). assert (M : 54 < m) by (unfold m; lia). clearbody m. clear R LR.
    destruct OK as [T [B [C [D S]]]].
    assert (K2 : forall v, v < 2 -> v < two62) by (unfold two62; intros; lia).
    unfold components_encode.
    unfold wseq at 1. destruct (component_fits 1 (se_table st) max64 m) as [c1 A1]; [lia|]. rewrite A1.
    apply component_thm in A1; [|reflexivity|exact T]. change (encode_varint_length 1) with 1 in A1.
    pose proof (encode_varint_length_pos (se_table st)).
    assert (Q1 : blen c1 <= 9) by (destruct (se_table st =? max64); lia).
    unfold wseq at 1. destruct (component_fits 7 (se_blocked st) max64 (m - blen c1)) as [c2 A2]; [lia|]. rewrite A2.
    apply component_thm in A2; [|reflexivity|exact B]. change (encode_varint_length 7) with 1 in A2.
    pose proof (encode_varint_length_pos (se_blocked st)).
    assert (Q2 : blen c2 <= 9) by (destruct (se_blocked st =? max64); lia).
    unfold wseq at 1. destruct (component_fits 8 (se_connect st) 0 (m - blen c1 - blen c2)) as [c3 A3]; [lia|]. rewrite A3.
    apply component_thm in A3; [|reflexivity|left; auto]. change (encode_varint_length 8) with 1 in A3. rewrite small_len in A3 by exact C.
    assert (Q3 : blen c3 <= 2) by (destruct (se_connect st =? 0); lia).
    unfold wseq at 1. destruct (component_fits 51 (se_datagram st) 0 (m - blen c1 - blen c2 - blen c3)) as [c4 A4]; [lia|]. rewrite A4.
    apply component_thm in A4; [|reflexivity|left; auto]. change (encode_varint_length 51) with 1 in A4. rewrite small_len in A4 by exact D.
    assert (Q4 : blen c4 <= 2) by (destruct (se_datagram st =? 0); lia).
    destruct (component_fits 3329323114 (se_sessions st) 0 (m - blen c1 - blen c2 - blen c3 - blen c4)) as [c5 A5]; [lia|]. rewrite A5. eauto. }
  destruct E as [c E]. rewrite E. apply components_thm in E; [|exact OK].
  assert (L : encode_varint_length (blen c) = 1).
  { unfold encode_varint_length. replace (blen c <? 16384) with true by lia. replace (blen c <? 64) with true by lia. reflexivity. }
  rewrite frames_varint_encode_eq, L. replace (1 <=? encode_varint_length room) with true by lia. eauto.
Qed.

Lemma zero_varint : is_varint 0 [0].
Proof. apply (varint_bytes_is_varint 0). reflexivity. Qed.

Theorem peer_thm : forall known st room s cs, set_ok st -> some_given st -> room < two62 -> settings_encode st room = Some s ->
  stream cs (0 :: s) -> uresult_of (remote_pieces false known cs ustate0 settings0) = Going [] None (kept st).
Proof.
  intros known st room s cs OK G R H S. destruct (settings_shape st room s OK R H) as [c [F [P [L _]]]].
  apply ctl_read with (a := [0]) (fs := [(4, c)]) (lf := s) (p := []).
  - exact zero_varint.
  - rewrite <- (app_nil_r s). constructor; [exact F|constructor].
  - apply control_settings with (ps := entries st); [reflexivity|exact P| |lia|rewrite told by exact OK; constructor].
    intros C. subst c. inversion P as [E|k v a b ps l A B Q E1 E2].
    + apply (entries_given st G). symmetry. exact E.
    + destruct a; [|discriminate]. destruct A as [n [_ [A _]]]. unfold blen in A. simpl in A.
      assert (2 ^ n <> 0) by (apply N.pow_nonzero; discriminate). lia.
  - apply control_tail_type. exists [0], 0. split; [discriminate|exact zero_varint].
  - rewrite app_nil_r. exact S.
Qed.

Theorem init_thm : forall known datagrams, exists s, init_control datagrams = Some s /\
  forall cs, stream cs s -> uresult_of (remote_pieces false known cs ustate0 settings0) =
    Going [] None (if datagrams then mk_set 1 0 0 1 1 true else mk_set 0 0 0 1 0 true).
Proof.
  intros known d.
  assert (OK : set_ok (init_settings d)) by (destruct d; unfold set_ok, two62; simpl; lia).
  assert (G : some_given (init_settings d)) by (destruct d; unfold some_given; simpl; lia).
  destruct (fits_thm (init_settings d) 255 OK) as [s E]; [unfold two62; lia|].
  exists (0 :: s). unfold init_control. rewrite E. split; [reflexivity|]. intros cs S.
  rewrite (peer_thm known (init_settings d) 255 s cs OK G) by (reflexivity || assumption). destruct d; reflexivity.
Qed.

Theorem empty_refuted : exists st s known, set_ok st /\ settings_encode st 255 = Some s /\
  uresult_of (remote_pieces false known [0 :: s] ustate0 settings0) = Stopped [265] settings0.
Proof.
  exists (mk_set 0 max64 max64 0 0 false). eexists. exists (fun _ => false). split; [|split; [vm_compute; reflexivity|vm_compute; reflexivity]].
  unfold set_ok, two62. simpl. repeat split; try (right; reflexivity); lia.
Qed.

Theorem limit_refuted : exists st s known st', settings_encode st 255 = Some s /\ se_table st < max64 /\
  uresult_of (remote_pieces false known [0 :: s] ustate0 settings0) = Going [] None st' /\ se_table st' <> se_table st.
Proof.
  exists (mk_set 0 4611686018427387905 0 0 0 false). eexists. exists (fun _ => false). eexists.
  split; [vm_compute; reflexivity|]. split; [reflexivity|]. split; [vm_compute; reflexivity|]. vm_compute. discriminate.
Qed.
