(** Proofs about the repetition of lost STREAM frames: one frame. *)
From Verif Require Import Base Tac Varint_model Varint_proofs Sack_model Sack_spec Stream_model Frames_model Frames_spec
  Frames_proofs Frames2_proofs Frames5_proofs Send_model Send_spec Send_proofs Send2_proofs Send3_proofs
  Repeat_model Repeat_spec.

(** ** Reading back *)
Lemma readable_wire room b its :
  (forall S (h : handlers S) o epoch, (epoch = 1 \/ epoch = 3) -> (forall s, h_frame h s RPadding = (s, true)) ->
   wire_ok S h o epoch room b its) ->
  readable room b (frames_of its).
Proof.
  intro H. split.
  - apply (H unit (mk_h (fun s _ => (s, true)) (fun s _ _ => s) (fun _ _ => true)) (mk_opt false false false false false false 0 0 0) 1); auto.
  - intros S h o epoch He Hp tail s Hok Hs. apply (H S h o epoch He Hp); assumption.
Qed.

Lemma wire_readable room b its S (h : handlers S) o epoch :
  (epoch = 1 \/ epoch = 3) -> (forall s, h_frame h s RPadding = (s, true)) ->
  readable room b (frames_of its) -> wire_ok S h o epoch room b its.
Proof.
  intros He Hp [H1 H2]. split; [exact H1 |]. intros tail Hok Hs s. apply H2; assumption.
Qed.

Lemma skip_zeros k b l : b <> 0 -> skip_run 0 (repeat 0 k ++ b :: l) = b :: l.
Proof.
  intro Hb. induction k as [| k IH]; cbn [repeat app skip_run].
  - destruct (N.eqb_spec b 0); [contradiction | reflexivity].
  - exact IH.
Qed.

Lemma reads_zeros S (h : handlers S) o epoch k b l fs tail :
  (epoch = 1 \/ epoch = 3) -> b <> 0 -> (forall s, h_frame h s RPadding = (s, true)) ->
  reads_as S h o epoch (b :: l) fs tail -> reads_as S h o epoch (repeat 0 k ++ b :: l) fs tail.
Proof.
  intros He Hb Hp H. destruct k as [| k]; [exact H |]. intro s. cbn [repeat app]. rewrite decode_cons. rewrite <- (H s).
  rewrite <- app_assoc. cbn [app].
  assert (E : decode_one h o epoch s 0 (repeat 0 k ++ b :: l ++ tail) = deliver h s RPadding (b :: l ++ tail)).
  { unfold decode_one, decode_by_type. change (is_stream_type 0) with false. cbn [andb].
    ev. rewrite !andb_false_r. rewrite skip_zeros by exact Hb. reflexivity. }
  rewrite E. unfold deliver. rewrite Hp. reflexivity.
Qed.

Lemma repeat_blen k : blen (repeat 0 k) = N.of_nat k.
Proof. unfold blen. rewrite repeat_length. reflexivity. Qed.

Lemma blen_zero (l : list N) : blen l = 0 -> l = [].
Proof. destruct l; [reflexivity |]. unfold blen. cbn [length]. lia. Qed.

Lemma repeat_ok k : bytes_ok (repeat 0 k).
Proof. induction k; constructor; [reflexivity | assumption]. Qed.

Lemma fields_ok id off : bytes_ok (stream_fields id off).
Proof.
  unfold stream_fields. apply Forall_app. split; [apply varint_bytes_ok |].
  destruct (0 <? off); [apply varint_bytes_ok | constructor].
Qed.

Lemma flags_ok off a b : flags off a b < 256 /\ flags off a b <> 0.
Proof. unfold flags. destruct (0 <? off), a, b; split; lia. Qed.

Lemma header_len id off : id < two62 -> off < two62 ->
  blen (flags off false false :: stream_fields id off) <= 17.
Proof.
  intros _ _. rewrite Varint_proofs.blen_cons. unfold stream_fields. rewrite Varint_proofs.blen_app, varint_bytes_length.
  pose proof (encode_varint_length_pos id). pose proof (encode_varint_length_pos off).
  destruct (0 <? off); [rewrite varint_bytes_length | unfold blen; cbn [length]]; lia.
Qed.

(** What [repeat_write] does: nothing, or one frame that carries a prefix of the
    data; all of it with the FIN flag, or at least 512 bytes without. *)
Definition wrote_piece (id off : N) (fin : bool) (d : list N) (room : N) (bytes : list N) (its : list item) (ns : N) : Prop :=
  exists k f, its = [IStream id off f (firstn (N.to_nat k) d)] /\ bytes <> [] /\ bytes_ok bytes /\
    readable room bytes (frames_of its) /\
    ((k = blen d /\ f = fin /\ ns = 0) \/ (512 <= k < blen d /\ f = false /\ ns = blen d - k)).

Lemma firstn_all_blen (d : list N) : firstn (N.to_nat (blen d)) d = d.
Proof. unfold blen. rewrite Nat2N.id. apply firstn_all. Qed.

Lemma repeat_write_spec id off fin d room bytes its ns :
  id < two62 -> off + blen d < two62 -> bytes_ok d ->
  repeat_write id off fin d room = (bytes, its, ns) ->
  (bytes = [] /\ its = [] /\ ns = blen d /\ room < 17 + 512 /\ (blen d = 0 -> room < 18)) \/ wrote_piece id off fin d room bytes its ns.
Proof.
  intros Hi Ho Hd. unfold repeat_write.
  assert (HL := header_len id off Hi ltac:(lia)).
  destruct (stream_frame_header id off room) as [hdr |] eqn:Eh.
  2: { intro E. injection E as <- <- <-. left. split; [reflexivity |]. split; [reflexivity |]. split; [reflexivity |].
       destruct (N.ltb_spec room 17) as [L | L]; [split; [| intros _]; lia |]. exfalso.
       unfold stream_frame_header in Eh. unfold flags, stream_fields in HL. destruct (0 <? off).
       - assert (C : canon (frames_uint8_encode 12 >>> frames_varint_encode id >>> frames_varint_encode off)
           ([u8 12] ++ varint_bytes id ++ varint_bytes off))
           by (apply canon_seq; [apply canon_uint8 | apply canon_seq; apply canon_varint]).
         rewrite C in Eh. change ([u8 12] ++ varint_bytes id ++ varint_bytes off) with (8 + 4 + 0 + 0 :: varint_bytes id ++ varint_bytes off) in Eh.
         destruct (N.leb_spec (blen (8 + 4 + 0 + 0 :: varint_bytes id ++ varint_bytes off)) room); [discriminate | lia].
       - assert (C : canon (frames_uint8_encode 8 >>> frames_varint_encode id) ([u8 8] ++ varint_bytes id))
           by (apply canon_seq; [apply canon_uint8 | apply canon_varint]).
         rewrite C in Eh. rewrite app_nil_r in HL. change ([u8 8] ++ varint_bytes id) with (8 + 0 + 0 + 0 :: varint_bytes id) in Eh.
         destruct (N.leb_spec (blen (8 + 0 + 0 + 0 :: varint_bytes id)) room); [discriminate | lia]. }
  destruct (header_bytes _ _ _ _ Eh) as [Hb Hl]. rewrite Hb in HL at 1 || rewrite <- Hb in HL.
  destruct (N.eqb_spec (blen hdr) room) as [Er | Er].
  { intro E. injection E as <- <- <-. left. repeat split; [| intros _]; lia. }
  cbv zeta. set (space := room - blen hdr). set (hdr1 := if fin then set_flag hdr 1 else hdr).
  assert (Hsp : 0 < space) by (unfold space; lia).
  assert (E1 : hdr1 = flags off false fin :: stream_fields id off).
  { unfold hdr1. rewrite Hb. unfold flags. destruct fin, (0 <? off); reflexivity. }
  assert (B1 : blen hdr1 = blen hdr) by (rewrite E1, Hb; unfold blen; reflexivity).
  assert (NoLen : forall bytes its ns,
    (if blen d <=? space then (repeat 0 (N.to_nat (space - blen d)) ++ hdr1 ++ d, [IStream id off fin d], 0)
     else if space <? 512 then ([], [], blen d)
     else (hdr ++ firstn (N.to_nat space) d, [IStream id off false (firstn (N.to_nat space) d)], blen d - space)) = (bytes, its, ns) ->
    (bytes = [] /\ its = [] /\ ns = blen d /\ room < 17 + 512 /\ (blen d = 0 -> room < 18)) \/ wrote_piece id off fin d room bytes its ns).
  { clear bytes its ns. intros bytes its ns. destruct (N.leb_spec (blen d) space) as [L | L].
    - intro E. injection E as <- <- <-. right. exists (blen d), fin. rewrite firstn_all_blen.
      assert (Bl : blen (repeat 0 (N.to_nat (space - blen d)) ++ hdr1 ++ d) = room).
      { rewrite !Varint_proofs.blen_app, repeat_blen, B1. unfold space. lia. }
      split; [reflexivity |]. split.
      { intro X. rewrite X in Bl. unfold blen in Bl. cbn [length] in Bl. lia. }
      split.
      { apply Forall_app. split; [apply repeat_ok |]. apply Forall_app. split; [| exact Hd]. rewrite E1.
        constructor; [apply flags_ok | apply fields_ok]. }
      split; [| left; repeat split].
      apply readable_wire. intros S h o epoch He Hp. split; [lia |]. intros tail Hok Hs.
      assert (tail = []) by (apply blen_zero; lia). subst tail. rewrite E1. cbn [app frames_of].
      apply reads_zeros; [exact He | apply flags_ok | exact Hp |].
      apply (reads_stream S h o epoch id off fin d [] false); auto. constructor.
    - destruct (N.ltb_spec space 512) as [L2 | L2]; intro E; injection E as <- <- <-.
      { left. repeat split; [unfold space in L2 | intro]; lia. }
      right. exists space, false. split; [reflexivity |].
      assert (Bf : blen (firstn (N.to_nat space) d) = space) by (apply firstn_blen; lia).
      assert (Bl : blen (hdr ++ firstn (N.to_nat space) d) = room).
      { rewrite Varint_proofs.blen_app, Bf. unfold space. lia. }
      assert (Hf : bytes_ok (firstn (N.to_nat space) d)).
      { rewrite <- (firstn_skipn (N.to_nat space) d) in Hd. apply Forall_app in Hd. tauto. }
      split. { intro X. rewrite X in Bl. unfold blen in Bl. cbn [length] in Bl. lia. }
      split. { apply Forall_app. split; [| exact Hf]. rewrite Hb. constructor; [apply flags_ok | apply fields_ok]. }
      split; [| right; repeat split; lia].
      apply readable_wire. intros S h o epoch He Hp. split; [lia |]. intros tail Hok Hs.
      assert (tail = []) by (apply blen_zero; lia). subst tail. rewrite Hb. cbn [app frames_of].
      apply (reads_stream S h o epoch id off false (firstn (N.to_nat space) d) [] false); auto; [lia | constructor]. }
  rewrite frames_varint_encode_eq.
  destruct (N.leb_spec (encode_varint_length (blen d)) space) as [V | V]; [| apply NoLen].
  destruct (N.leb_spec (blen (varint_bytes (blen d)) + blen d) space) as [V2 | V2]; [| apply NoLen].
  intro E. injection E as <- <- <-. right. exists (blen d), fin. rewrite firstn_all_blen. clear NoLen.
  rewrite varint_bytes_length in V2.
  assert (E2 : set_flag hdr1 2 = flags off true fin :: stream_fields id off).
  { rewrite E1. unfold flags. destruct fin, (0 <? off); reflexivity. }
  assert (B2 : blen (set_flag hdr1 2) = blen hdr) by (rewrite <- B1, E2, E1; unfold blen; reflexivity).
  split; [reflexivity |]. rewrite E2. split; [discriminate |].
  split. { constructor; [apply flags_ok |]. apply Forall_app. split; [apply fields_ok |].
           apply Forall_app. split; [apply varint_bytes_ok | exact Hd]. }
  split; [| left; repeat split].
  apply readable_wire. intros S h o epoch He Hp. rewrite <- E2. split.
  { rewrite !Varint_proofs.blen_app, B2, varint_bytes_length. unfold space in *. lia. }
  intros tail Hok _. rewrite E2. cbn [frames_of].
  apply (reads_stream S h o epoch id off fin d tail true); auto; [| discriminate].
  apply Forall_app in Hok. tauto.
Qed.
