(** Proofs about the composition of two endpoints, part 2: the sender keeps values
    that fit in frames, and writes bytes. *)
From Verif Require Import Base Tac Varint_model Varint_proofs Stream_model Send_model Send_spec Send_proofs Send2_proofs
  Send3_proofs Net_spec.

(** Values chosen by the application. *)
Definition named (s : wstream) : Prop := w_id s < two62 /\ w_err s < two62 /\ w_stop_err s < two62.
Definition all_named (c : snd_cnx) : Prop := Forall named (n_streams c).

Lemma named_put c s : all_named c -> named s -> all_named (w_put c s).
Proof.
  intros H Hs. unfold all_named, w_put. cbn [n_set_streams n_streams]. apply Forall_forall. intros x Hx.
  apply in_map_iff in Hx. destruct Hx as (y & <- & Hy). destruct (w_id y =? w_id s); [exact Hs |].
  unfold all_named in H. rewrite Forall_forall in H. apply H, Hy.
Qed.

Lemma named_lookup c id s : all_named c -> w_lookup c id = Some s -> named s.
Proof. intros H E. apply lookup_in in E. unfold all_named in H. rewrite Forall_forall in H. apply H, E. Qed.

Lemma insert_streams c s : n_streams (insert_output c s) = n_streams c /\ n_next (insert_output c s) = n_next c.
Proof. unfold insert_output. destruct (is_out c (w_id s)); [auto |]. destruct (above_limit c (w_id s)); auto. Qed.

Lemma named_insert c s : all_named c -> all_named (insert_output c s).
Proof. intro H. unfold all_named. rewrite (proj1 (insert_streams c s)). exact H. Qed.

Lemma named_reorder c s : all_named c -> all_named (reorder_output c s).
Proof.
  intro H. unfold reorder_output. destruct (is_out c (w_id s)); [| exact H].
  match goal with |- context [if ?b then _ else _] => destruct b end; [| exact H]. apply named_insert. exact H.
Qed.

Lemma create_next c t : n_next c t mod 4 = t -> n_next (w_create c (n_next c t)) t = n_next c t + 4.
Proof.
  intro H. unfold w_create. cbv zeta. unfold stream_type. rewrite H. cbn [n_set_next n_next]. rewrite N.eqb_refl. reflexivity.
Qed.

Lemma named_create c id : id < two62 -> all_named c -> all_named (w_create c id).
Proof.
  intros Hi H. unfold w_create. cbv zeta. unfold all_named. cbn [n_set_next n_streams].
  assert (X : all_named (n_set_streams c (n_streams c ++ [new_wstream c id]) (n_out c))).
  { unfold all_named. cbn [n_set_streams n_streams]. apply Forall_app. split; [exact H |]. constructor; [| constructor].
    unfold named. cbn [new_wstream w_id w_err w_stop_err]. split; [exact Hi | split; reflexivity]. }
  destruct (new_output c id); [apply named_insert, X | exact X].
Qed.

Lemma named_create_loop A M cl log id : forall k c, inv A M cl log c ->
  N.of_nat k * 4 + n_next c (stream_type id) <= id + 4 -> id < two62 -> all_named c -> all_named (w_create_loop k c id).
Proof.
  induction k as [| k IH]; intros c I Hk Hi H; cbn [w_create_loop]; [exact H |].
  apply IH; [apply inv_create; [apply mod4_lt | exact I] | | exact Hi | apply named_create; [lia | exact H]].
  rewrite create_next by (apply (i_next _ _ _ _ _ I), mod4_lt). lia.
Qed.

Lemma named_missing A M cl log c id : inv A M cl log c -> id < two62 -> all_named c -> all_named (w_create_missing c id).
Proof.
  intros I Hi H. unfold w_create_missing. destruct (N.ltb_spec id (n_next c (stream_type id))) as [L | L]; [exact H |].
  eapply named_create_loop; [exact I | | exact Hi | exact H]. rewrite N2Nat.id.
  assert (X := N.div_mod' (id - n_next c (stream_type id)) 4). lia.
Qed.

Lemma named_writing A M cl log c id c' o : inv A M cl log c -> id < two62 -> all_named c ->
  for_writing c id = (c', o) -> all_named c' /\ forall s, o = Some s -> named s.
Proof.
  intros I Hi H. unfold for_writing. destruct (w_lookup c id) as [s |] eqn:E.
  - intro X. apply pair_inj in X. destruct X as [<- <-]. split; [exact H |]. intros y Y. apply some_inj in Y. subst y.
    eapply named_lookup; eassumption.
  - destruct (Bool.eqb _ _); intro X; apply pair_inj in X; destruct X as [<- <-].
    + assert (N1 : all_named (w_create_missing c id)) by (eapply named_missing; eassumption).
      split; [exact N1 |]. intros y Y. eapply named_lookup; eassumption.
    + split; [exact H | discriminate].
Qed.

Lemma named_add_out_loop o n b l : forall c, all_named c -> all_named (add_out_loop c l o n b).
Proof.
  induction l as [| id l IH]; intros c I; cbn [add_out_loop]; [exact I |].
  destruct (o <? id); [| apply IH, I]. destruct (n <? id); [exact I |].
  match goal with |- context [if ?b then _ else _] => destruct b end; [| apply IH, I].
  destruct (w_lookup c id); [| exact I]. apply IH, named_insert, I.
Qed.

Lemma named_add_output c o n b : all_named c -> all_named (add_output_streams c o n b).
Proof.
  intro H. unfold add_output_streams. cbv zeta. destruct (w_lookup c _); [| exact H]. apply named_add_out_loop, H.
Qed.

Lemma named_raise c : all_named c -> all_named (raise_initial c).
Proof.
  intro H. unfold all_named, raise_initial. cbn [n_set_streams n_streams]. apply Forall_forall. intros x Hx.
  apply in_map_iff in Hx. destruct Hx as (y & <- & Hy). unfold all_named in H. rewrite Forall_forall in H. specialize (H y Hy).
  destruct (_ || _); [| exact H]. destruct (w_max y <? _); exact H.
Qed.

Lemma named_tp c p : all_named c -> all_named (recv_tp c p).
Proof.
  intro H. unfold recv_tp. cbv zeta.
  destruct (fst p); try (apply named_raise; exact H); try (apply named_add_output; exact H). exact H.
Qed.

Lemma named_peer A M cl log c id : inv A M cl log c -> id < two62 -> all_named c -> all_named (peer_stream c id).
Proof.
  intros I Hi H. unfold peer_stream. destruct (w_lookup c id); [exact H |].
  destruct (is_local_id id (n_client c)); [exact H |]. eapply named_missing; eassumption.
Qed.

Lemma named_step A M cl log c e c' its : inv A M cl log c -> (forall id, A id < two62) -> sev_ok e ->
  (forall f r n p a, e <> SFill f r n p a) -> all_named c -> snd_step c e = Some (c', its) -> all_named c'.
Proof.
  intros I HA He Hf H E. destruct e; cbn [snd_step sev_ok] in *.
  - inv_pair E. exact H.
  - inv_pair E. unfold recv_transport. assert (X : all_named (clear_tp c)) by exact H. clear - X.
    revert X. generalize (clear_tp c). induction l as [| p l IH]; intros c0 X; [exact X |]. cbn [fold_left].
    apply IH, named_tp, X.
  - inv_pair E. unfold recv_max_data. destruct (n_max c <? v); exact H.
  - inv_pair E. unfold recv_max_stream_data. cbv zeta. destruct He as [Hi Hv].
    assert (X := named_peer _ _ _ _ _ _ I Hi H).
    destruct (w_lookup (peer_stream c id) id) as [s |] eqn:El; [| exact X].
    destruct (w_max s <? v); [| exact X]. apply named_put; [exact X |]. exact (named_lookup _ _ _ X El).
  - inv_pair E. unfold recv_max_streams. cbv zeta. destruct uni.
    + destruct (n_max_uni c <? _); [| exact H]. apply named_add_output. exact H.
    + destruct (n_max_bidi c <? _); [| exact H]. apply named_add_output. exact H.
  - inv_pair E. eapply named_peer; eassumption.
  - inv_pair E. destruct (w_lookup c id) as [s |] eqn:El; [| exact H]. apply named_put; [exact H |].
    exact (named_lookup _ _ _ H El).
  - inv_pair E. destruct (w_lookup c id) as [s |] eqn:El; [| exact H]. apply named_put; [exact H |].
    exact (named_lookup _ _ _ H El).
  - apply some_inj in E. unfold add_to_stream in E. destruct (for_writing c id) as [c1 o] eqn:Ew.
    destruct (named_writing _ _ _ _ _ _ _ _ I He H Ew) as [N1 N2]. destruct o as [s |]; [| congruence].
    specialize (N2 s eq_refl).
    destruct (_ && _ && _); [congruence |]. cbv zeta in E.
    destruct (w_rst_sent s || w_stop_rcvd s); apply pair_inj in E; destruct E as [<- _]; apply named_put; assumption.
  - inv_pair E. unfold mark_active. destruct (for_writing c id) as [c1 o] eqn:Ew.
    destruct (named_writing _ _ _ _ _ _ _ _ I He H Ew) as [N1 N2]. destruct o as [s |]; [| exact N1].
    specialize (N2 s eq_refl). destruct active; [destruct (_ && _); [| exact N1] |]; apply named_put; assumption.
  - inv_pair E. unfold set_priority. destruct (for_writing c id) as [c1 o] eqn:Ew.
    destruct (named_writing _ _ _ _ _ _ _ _ I He H Ew) as [N1 N2]. destruct o as [s |]; [| exact N1].
    specialize (N2 s eq_refl). cbv zeta. apply named_reorder, named_put; assumption.
  - inv_pair E. unfold app_reset. destruct (w_lookup c id) as [s |] eqn:El; [| exact H].
    destruct (_ && _); [exact H |]. destruct (w_rst_req s); [exact H |]. apply named_put; [exact H |].
    destruct (named_lookup _ _ _ H El) as (X1 & X2 & X3). repeat split; assumption.
  - inv_pair E. unfold app_stop. destruct (w_lookup c id) as [s |] eqn:El; [| exact H].
    destruct reset_received; [exact H |]. destruct (w_stop_req s); [exact H |]. cbv zeta. apply named_insert, named_put; [exact H |].
    destruct (named_lookup _ _ _ H El) as (X1 & X2 & X3). repeat split; assumption.
  - inv_pair E. destruct (w_lookup c id) as [s |] eqn:El; [| exact H]. destruct (_ || _); [| exact H].
    unfold all_named. cbn [n_set_streams n_streams]. apply Forall_forall. intros x Hx. apply filter_In in Hx.
    unfold all_named in H. rewrite Forall_forall in H. apply H, Hx.
  - exfalso. eapply Hf. reflexivity.
Qed.

Lemma named_encodable A M cl log c : inv A M cl log c -> (forall id, A id < two62) -> all_named c -> Forall encodable (n_streams c).
Proof.
  intros I HA H. apply Forall_forall. intros s Hs. assert (W := i_str _ _ _ _ _ I). unfold all_named in H.
  rewrite Forall_forall in W, H. specialize (W s Hs). specialize (H s Hs). specialize (HA (w_id s)).
  destruct W as (W1 & W2 & _). destruct H as (H1 & H2 & H3). unfold encodable. repeat split; try assumption; lia.
Qed.

Lemma encodable_named c : Forall encodable (n_streams c) -> all_named c.
Proof. intro H. eapply Forall_impl; [| exact H]. intros s (A1 & A2 & A3 & _). repeat split; assumption. Qed.

(** Limits stay below 2^62. *)
Lemma fold_max_lt {X} (f : X -> N) b l : 0 < b -> Forall (fun x => f x < b) l -> fold_right (fun y m => N.max (f y) m) 0 l < b.
Proof. intros Hb H. induction H as [| x l Hx H IH]; cbn [fold_right]; [exact Hb |]. lia. Qed.

Lemma limit_fits cl id e : sev_ok e -> stream_limit cl id e < two62.
Proof.
  intro H. assert (Z : 0 < two62) by reflexivity. destruct e; cbn [sev_ok stream_limit] in *; try exact Z.
  - unfold initial_credit. destruct H as (H1 & H2 & H3). destruct (mine cl id), (bidi id); assumption || exact Z.
  - apply fold_max_lt; [exact Z |]. eapply Forall_impl; [| exact H]. intros [t v] Hv. cbn [snd] in Hv.
    unfold tp_stream, initial_credit. destruct t; try exact Z; destruct (mine cl id), (bidi id); assumption || exact Z.
  - destruct (id0 =? id); [apply H | exact Z].
Qed.

(** Writers write bytes. *)
Definition byte_writer (w : writer) : Prop := forall room b, w room = Some b -> bytes_ok b.

Lemma u8_byte x : is_byte (u8 x).
Proof. unfold is_byte, u8. apply N.mod_lt. discriminate. Qed.

Lemma uint8_bytes n : byte_writer (frames_uint8_encode n).
Proof.
  intros room b. unfold frames_uint8_encode. destruct (room <? 1); [discriminate |]. intro H. apply some_inj in H. subst b.
  constructor; [apply u8_byte | constructor].
Qed.

Lemma varint_bytes_w n : byte_writer (frames_varint_encode n).
Proof.
  intros room b. rewrite frames_varint_encode_eq. destruct (_ <=? room); [| discriminate]. intro H. apply some_inj in H. subst b.
  apply varint_bytes_ok.
Qed.

Lemma seq_bytes w1 w2 : byte_writer w1 -> byte_writer w2 -> byte_writer (w1 >>> w2).
Proof.
  intros H1 H2 room b. cbv beta delta [wseq]. destruct (w1 room) as [b1 |] eqn:E1; [| discriminate].
  destruct (w2 (room - blen b1)) as [b2 |] eqn:E2; [| discriminate]. intro H. apply some_inj in H. subst b.
  apply Forall_app. split; [eapply H1, E1 | eapply H2, E2].
Qed.

Lemma reset_bytes id err final : byte_writer (reset_writer id err final).
Proof. unfold reset_writer. repeat (apply seq_bytes; [first [apply uint8_bytes | apply varint_bytes_w] |]). apply varint_bytes_w. Qed.

Lemma stop_bytes id err : byte_writer (stop_writer id err).
Proof. unfold stop_writer. repeat (apply seq_bytes; [first [apply uint8_bytes | apply varint_bytes_w] |]). apply varint_bytes_w. Qed.

Lemma prefix_bytes id off room hdr space len fin : stream_frame_header id off room = Some hdr ->
  bytes_ok (frame_prefix hdr space len fin).
Proof.
  intro H. destruct (header_bytes _ _ _ _ H) as [-> _]. unfold frame_prefix. cbv zeta.
  assert (F : bytes_ok (stream_fields id off)).
  { unfold stream_fields. apply Forall_app. split; [apply varint_bytes_ok |]. destruct (0 <? off); [apply varint_bytes_ok | constructor]. }
  assert (V : bytes_ok (varint_encode space len)).
  { rewrite varint_encode_eq. destruct (_ <=? _); [apply varint_bytes_ok | constructor]. }
  assert (B : forall l f, is_byte (flags off l f)) by (intros l f; unfold flags, is_byte; destruct (0 <? off), l, f; cbn; lia).
  assert (B1 : is_byte (N.lor (flags off false false) 1)) by (unfold flags, is_byte; destruct (0 <? off); cbn; lia).
  assert (B2 : is_byte (N.lor (flags off false false) 2)) by (unfold flags, is_byte; destruct (0 <? off); cbn; lia).
  assert (B3 : is_byte (N.lor (N.lor (flags off false false) 1) 2)) by (unfold flags, is_byte; destruct (0 <? off); cbn; lia).
  assert (Z : is_byte 0) by reflexivity.
  destruct fin; destruct (len <? space); try destruct (len =? space - 1); cbn [set_flag app];
    repeat (constructor; [auto |]); auto; apply Forall_app; auto.
Qed.

Definition data_ok (its : list item) : Prop := forall id off fin d, In (IStream id off fin d) its -> bytes_ok d.

Lemma format_bytes c s room now r c' b its asked : format_stream c s room now r = FOk c' b its asked -> data_ok its -> bytes_ok b.
Proof.
  unfold format_stream. intros H Hd. assert (Nil : bytes_ok []) by constructor.
  destruct (above_limit c (w_id s)); [discriminate |].
  destruct (w_rst_sent s); [injection H as _ <- _ _; exact Nil |].
  destruct (w_rst_req s).
  { destruct (reset_writer _ _ _ room) as [x |] eqn:E; injection H as _ <- _ _; [eapply reset_bytes, E | exact Nil]. }
  destruct (w_stop_req s && negb (w_stop_sent s)).
  { destruct (w_rcv_end s); [injection H as _ <- _ _; exact Nil |].
    destruct (stop_writer _ _ room) as [x |] eqn:E; injection H as _ <- _ _; [eapply stop_bytes, E | exact Nil]. }
  destruct (_ && _ && _); [injection H as _ <- _ _; exact Nil |].
  destruct (stream_frame_header (w_id s) (w_sent s) room) as [hdr |] eqn:Eh; [| injection H as _ <- _ _; exact Nil].
  destruct (_ && _ && _).
  - unfold format_active in H. cbv zeta in H. destruct r as [| | d fin still]; [discriminate | injection H as _ <- _ _; exact Nil |].
    destruct (_ <? blen d); [injection H as _ <- _ _; exact Nil |].
    destruct (_ && _); [injection H as _ <- _ _; exact Nil |].
    destruct (room <? _); [discriminate |].
    assert (X : b = frame_prefix hdr (room - blen hdr) (blen d) fin ++ d /\ In (IStream (w_id s) (w_sent s) fin d) its).
    { destruct fin; injection H as _ <- <- _; (split; [reflexivity | cbn; auto]). }
    destruct X as [-> Hi]. apply Forall_app. split; [eapply prefix_bytes, Eh | eapply Hd, Hi].
  - unfold format_queued in H. cbv zeta in H.
    set (len := if _ <=? _ then _ else _) in H. set (d := match w_queue s with [] => [] | (b, o) :: _ => firstn (N.to_nat len) (skipn (N.to_nat o) b) end) in H.
    set (q := if 0 <? len then _ else _) in H. set (fin := match q with [] => _ | _ => _ end) in H.
    destruct (room <? _); [discriminate |].
    assert (X : b = [] \/ (b = frame_prefix hdr (room - blen hdr) len fin ++ d /\ In (IStream (w_id s) (w_sent s) fin d) its)).
    { destruct q; [| destruct (len =? 0)]; injection H as _ <- <- _; cbn [In]; auto. }
    destruct X as [-> | [-> Hi]]; [exact Nil |]. apply Forall_app. split; [eapply prefix_bytes, Eh | eapply Hd, Hi].
Qed.

Lemma fill_loop_bytes now prio app fuel : forall c st pos bytes its asks c' bytes' its' ok,
  fill_loop fuel c st pos bytes its asks now prio app = LDone c' bytes' its' ok ->
  (exists more, its' = its ++ more) /\ (data_ok its' -> bytes_ok bytes -> bytes_ok bytes').
Proof.
  induction fuel as [| fuel IH]; intros c st pos bytes its asks c' bytes' its' ok; [discriminate |].
  cbn [fill_loop]. cbv zeta.
  assert (Same : forall c1 ok1, LDone c1 bytes its ok1 = LDone c' bytes' its' ok ->
     (exists more, its' = its ++ more) /\ (data_ok its' -> bytes_ok bytes -> bytes_ok bytes')).
  { intros c1 ok1 H. injection H as _ <- <- _. split; [exists []; rewrite app_nil_r; reflexivity | auto]. }
  assert (Fin : match pos with Some _ => LDone c bytes its true | None => LNull c its end = LDone c' bytes' its' ok ->
     (exists more, its' = its ++ more) /\ (data_ok its' -> bytes_ok bytes -> bytes_ok bytes')).
  { destruct pos; [apply Same | discriminate]. }
  destruct st as [s |]; [| exact Fin]. destruct (_ && _); [| exact Fin].
  destruct pos as [room |].
  - destruct (format_stream c s room now (app asks)) as [| c1 b its1 asked | c1 asked |] eqn:Ef.
    + destruct (find_ready c). apply IH.
    + assert (Step : forall c2 b2 i2, (exists more, i2 = (its ++ its1) ++ more) /\ (data_ok i2 -> bytes_ok (bytes ++ b) -> bytes_ok b2) ->
         c2 = c' -> b2 = bytes' -> i2 = its' ->
         (exists more, its' = its ++ more) /\ (data_ok its' -> bytes_ok bytes -> bytes_ok bytes')).
      { intros c2 b2 i2 [[more Hm] Hb] _ <- <-. split; [exists (its1 ++ more); rewrite Hm, <- app_assoc; reflexivity |].
        intros D O. apply Hb; [exact D |]. apply Forall_app. split; [exact O |]. eapply format_bytes; [exact Ef |].
        intros x1 x2 x3 x4 X. eapply D. rewrite Hm. apply in_or_app. left. apply in_or_app. right. exact X. }
      destruct (find_ready c1) as [c2 st2]. destruct st2 as [s2 |].
      * destruct (_ <=? 17).
        { intro H. injection H as E1 E2 E3 _. eapply (Step c2 (bytes ++ b) (its ++ its1)); try assumption.
          split; [exists []; rewrite app_nil_r; reflexivity | auto]. }
        intro H. apply IH in H. exact (Step _ _ _ H eq_refl eq_refl eq_refl).
      * intro H. apply IH in H. exact (Step _ _ _ H eq_refl eq_refl eq_refl).
    + apply Same.
    + discriminate.
  - destruct (above_limit c (w_id s)); [| discriminate]. destruct (find_ready c). apply IH.
Qed.

Lemma fill_bytes c fuel room now prio app c' bytes its ok :
  fill fuel c room now prio app = LDone c' bytes its ok -> data_ok its -> bytes_ok bytes.
Proof.
  unfold fill. destruct (find_ready c) as [c1 st]. intros H Hd.
  apply (proj2 (fill_loop_bytes _ _ _ _ _ _ _ _ _ _ _ _ _ _ H) Hd). constructor.
Qed.

(** The values of frames sent on a stream fit. *)
Definition item_enc (x : item) : Prop :=
  match x with
  | IReset id err final => id < two62 /\ err < two62 /\ final < two62
  | IStop id err => id < two62 /\ err < two62
  | _ => True
  end.

Lemma format_enc c s room now r c' b its asked : encodable s -> format_stream c s room now r = FOk c' b its asked ->
  Forall item_enc its.
Proof.
  intros (S1 & S2 & S3 & S4 & S5) H. unfold format_stream in H.
  destruct (above_limit c (w_id s)); [discriminate |].
  destruct (w_rst_sent s); [injection H as _ _ <- _; constructor |].
  destruct (w_rst_req s).
  { destruct (reset_writer _ _ _ room) as [x |]; injection H as _ _ <- _; constructor; [cbn; auto | constructor]. }
  destruct (w_stop_req s && negb (w_stop_sent s)).
  { destruct (w_rcv_end s); [injection H as _ _ <- _; constructor |].
    destruct (stop_writer _ _ room) as [x |]; injection H as _ _ <- _; constructor; [cbn; auto | constructor]. }
  destruct (_ && _ && _); [injection H as _ _ <- _; constructor |].
  destruct (stream_frame_header (w_id s) (w_sent s) room) as [hdr |]; [| injection H as _ _ <- _; constructor].
  destruct (_ && _ && _).
  - unfold format_active in H. cbv zeta in H. destruct r as [| | d fin still]; [discriminate | injection H as _ _ <- _; constructor |].
    destruct (_ <? blen d); [injection H as _ _ <- _; constructor |].
    destruct (_ && _); [injection H as _ _ <- _; constructor |].
    destruct (room <? _); [discriminate |].
    destruct fin; injection H as _ _ <- _; repeat (constructor; [exact Logic.I |]); constructor.
  - unfold format_queued in H. cbv zeta in H.
    destruct (room <? _); [discriminate |].
    match type of H with match ?q with _ => _ end = _ => destruct q end;
      [| match type of H with (if ?b then _ else _) = _ => destruct b end]; injection H as _ _ <- _;
      repeat (constructor; [exact Logic.I |]); constructor.
Qed.
