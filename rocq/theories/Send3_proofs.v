(** Proofs about the sending side: the packets that the filling loop produces
    are read back by the frame decoder. *)
From Verif Require Import Base Tac Varint_model Varint_proofs Stream_model Frames_model Frames_spec
  Frames_proofs Frames2_proofs Frames5_proofs Send_model Send_spec Send_proofs Send2_proofs.

(** Decoding of a packet that starts with one frame. *)
Definition reads_as (S : Type) (h : handlers S) (o : options) (epoch : N) (b : list N) (fs : list rframe)
    (tail : list N) : Prop :=
  forall s, decode_frames h o epoch s (b ++ tail) =
    match process h s fs with
    | (s', true) => decode_frames h o epoch s' tail
    | (s', false) => (s', Some false)
    end.

Lemma decode_cons S (h : handlers S) o epoch s b l :
  decode_frames h o epoch s (b :: l) =
  match decode_one h o epoch s b l with
  | Halt s' => (s', Some false)
  | Continue s' rest => decode_frames h o epoch s' rest
  end.
Proof.
  unfold decode_frames. cbn [length decode_frames_loop].
  destruct (decode_one h o epoch s b l) as [s' | s' rest] eqn:E; [reflexivity |].
  apply one_progress in E. apply progress_len in E. cbn [length] in E. apply loop_fuel; lia.
Qed.

Lemma reads_one S (h : handlers S) o epoch b l f tail :
  (forall s, decode_one h o epoch s b (l ++ tail) = deliver h s f tail) ->
  reads_as S h o epoch (b :: l) [f] tail.
Proof.
  intros H s. cbn [app process]. rewrite decode_cons, H. unfold deliver.
  destruct (h_frame h s f) as [s' []]; reflexivity.
Qed.

Lemma reads_nil S (h : handlers S) o epoch tail : reads_as S h o epoch [] [] tail.
Proof. intro s. reflexivity. Qed.

Lemma process_app S (h : handlers S) fs1 fs2 : forall s,
  process h s (fs1 ++ fs2) =
  match process h s fs1 with (s', true) => process h s' fs2 | (s', false) => (s', false) end.
Proof.
  induction fs1 as [| f fs1 IH]; intro s; cbn [app process]; [reflexivity |].
  destruct (h_frame h s f) as [s' []]; [apply IH | reflexivity].
Qed.

Lemma reads_app S (h : handlers S) o epoch b1 b2 fs1 fs2 tail :
  reads_as S h o epoch b1 fs1 (b2 ++ tail) -> reads_as S h o epoch b2 fs2 tail ->
  reads_as S h o epoch (b1 ++ b2) (fs1 ++ fs2) tail.
Proof.
  intros H1 H2 s. rewrite <- app_assoc, H1, process_app. destruct (process h s fs1) as [s' []]; [apply H2 | reflexivity].
Qed.

Lemma frames_app a b : frames_of (a ++ b) = frames_of a ++ frames_of b.
Proof. induction a as [| [] a IH]; cbn [app frames_of]; rewrite ?IH; reflexivity. Qed.

(** A leading padding byte. *)
Lemma reads_pad S (h : handlers S) o epoch b l fs tail :
  (epoch = 1 \/ epoch = 3) -> b <> 0 -> (forall s, h_frame h s RPadding = (s, true)) ->
  reads_as S h o epoch (b :: l) fs tail -> reads_as S h o epoch (0 :: b :: l) fs tail.
Proof.
  intros He Hb Hp H s. cbn [app]. rewrite decode_cons. rewrite <- (H s). cbn [app].
  assert (E : decode_one h o epoch s 0 (b :: l ++ tail) = deliver h s RPadding (b :: l ++ tail)).
  { unfold decode_one, decode_by_type. change (is_stream_type 0) with false. cbn [andb].
    ev. rewrite !andb_false_r. cbn [skip_run]. destruct (N.eqb_spec b 0); [contradiction |]. reflexivity. }
  rewrite E. unfold deliver. rewrite Hp. reflexivity.
Qed.

(** STREAM frames. *)
Definition flags (off : N) (len fin : bool) : N :=
  8 + (if 0 <? off then 4 else 0) + (if len then 2 else 0) + (if fin then 1 else 0).

Definition stream_fields (id off : N) : list N := varint_bytes id ++ (if 0 <? off then varint_bytes off else []).

Lemma vr_app n rest : n < two62 -> bytes_ok rest ->
  varint_read (varint_bytes n ++ rest) = Some (n, rest).
Proof.
  intros Hn Hr. rewrite varint_read_eq.
  - apply frames_varint_decode_bytes, Hn.
  - apply Forall_app. split; [apply varint_bytes_ok | exact Hr].
Qed.

Lemma parse_fields b id off rest : id < two62 -> off < two62 -> bytes_ok rest ->
  N.land b 4 = (if 0 <? off then 4 else 0) ->
  parse_stream b (stream_fields id off ++ rest) =
  (if N.land b 2 =? 0 then Some ((id, off, negb (N.land b 1 =? 0), rest), [])
   else
        match varint_read rest with
        | None => None
        | Some (length, l3) =>
          match take_bytes length l3 with
          | None => None
          | Some (data, rest) => Some ((id, off, negb (N.land b 1 =? 0), data), rest)
          end
        end).
Proof.
  intros Hi Ho Hr Hb. unfold parse_stream, stream_fields. rewrite <- app_assoc.
  rewrite vr_app; [| exact Hi |]. rewrite Hb. 2: {
    destruct (0 <? off); [| exact Hr]. apply Forall_app. split; [apply varint_bytes_ok | exact Hr]. }
  destruct (N.ltb_spec 0 off) as [H | H]; change (4 =? 0) with false; change (0 =? 0) with true; cbv iota.
  - rewrite vr_app by assumption. reflexivity.
  - assert (off = 0) by lia. subst off. reflexivity.
Qed.

Lemma flags_bits off len fin :
  N.land (flags off len fin) 4 = (if 0 <? off then 4 else 0) /\
  N.land (flags off len fin) 2 = (if len then 2 else 0) /\
  N.land (flags off len fin) 1 = (if fin then 1 else 0) /\
  is_stream_type (flags off len fin) = true.
Proof. unfold flags. destruct (0 <? off), len, fin; repeat split. Qed.

Lemma reads_stream S (h : handlers S) o epoch id off fin d tail (len : bool) :
  (epoch = 1 \/ epoch = 3) -> id < two62 -> off + blen d < two62 ->
  bytes_ok d -> bytes_ok tail -> (len = false -> tail = []) ->
  reads_as S h o epoch
    (flags off len fin :: stream_fields id off ++ (if len then varint_bytes (blen d) else []) ++ d)
    [RStream id off fin d] tail.
Proof.
  intros He Hi Ho Hd Ht Hl. apply reads_one. intro s. unfold decode_one.
  destruct (flags_bits off len fin) as (F4 & F2 & F1 & Fs). rewrite Fs.
  assert (Ee : negb (epoch =? epoch_0rtt) && negb (epoch =? epoch_1rtt) = false).
  { destruct He; subst epoch; reflexivity. }
  rewrite Ee. unfold decode_stream. rewrite <- !app_assoc.
  assert (Hdt : bytes_ok (d ++ tail)) by (apply Forall_app; auto).
  rewrite parse_fields; try assumption; [| lia |]. 2: {
    destruct len; [| exact Hdt]. apply Forall_app. split; [apply varint_bytes_ok | exact Hdt]. }
  rewrite F2, F1. destruct len.
  - change (2 =? 0) with false. cbv iota.
    rewrite vr_app; [| lia | exact Hdt]. rewrite take_app.
    replace (two62 <=? off + blen d) with false by (symmetry; apply N.leb_gt; exact Ho).
    destruct fin; reflexivity.
  - change (0 =? 0) with true. cbv iota. rewrite (Hl eq_refl), app_nil_r. cbn [app].
    replace (two62 <=? off + blen d) with false by (symmetry; apply N.leb_gt; exact Ho).
    destruct fin; reflexivity.
Qed.

Lemma reads_reset S (h : handlers S) o epoch id err final tail :
  (epoch = 1 \/ epoch = 3) -> id < two62 -> err < two62 -> final < two62 ->
  reads_as S h o epoch (4 :: varint_bytes id ++ varint_bytes err ++ varint_bytes final)
    [RReset id err final] tail.
Proof.
  intros He Hi Hr Hf. apply reads_one. intro s.
  apply (round_trip_one S h o epoch s (WReset id err final) tail 4).
  - repeat split; assumption.
  - exact Logic.I.
  - cbn. apply p_reset. exact He.
  - discriminate.
  - cbn [frame_bytes app]. rewrite <- ?app_assoc. reflexivity.
Qed.

Lemma reads_stop S (h : handlers S) o epoch id err tail :
  (epoch = 1 \/ epoch = 3) -> id < two62 -> err < two62 ->
  reads_as S h o epoch (5 :: varint_bytes id ++ varint_bytes err) [RStopSending id err] tail.
Proof.
  intros He Hi Hr. apply reads_one. intro s.
  apply (round_trip_one S h o epoch s (WStopSending id err) tail 5).
  - repeat split; assumption.
  - exact Logic.I.
  - cbn. apply p_stop. exact He.
  - discriminate.
  - cbn [frame_bytes app]. rewrite <- ?app_assoc. reflexivity.
Qed.

(** The header and the prefix. *)
Lemma header_bytes id off room hdr : stream_frame_header id off room = Some hdr ->
  hdr = flags off false false :: stream_fields id off /\ blen hdr <= room.
Proof.
  unfold stream_frame_header, stream_fields, flags. destruct (0 <? off).
  - assert (C : canon (frames_uint8_encode 12 >>> frames_varint_encode id >>> frames_varint_encode off)
        ([u8 12] ++ varint_bytes id ++ varint_bytes off))
      by (apply canon_seq; [apply canon_uint8 | apply canon_seq; apply canon_varint]).
    rewrite C. destruct (N.leb_spec (blen ([u8 12] ++ varint_bytes id ++ varint_bytes off)) room); [| discriminate].
    intro E; apply some_inj in E; subst hdr; (split; [reflexivity | assumption]).
  - assert (C : canon (frames_uint8_encode 8 >>> frames_varint_encode id) ([u8 8] ++ varint_bytes id))
      by (apply canon_seq; [apply canon_uint8 | apply canon_varint]).
    rewrite C. destruct (N.leb_spec (blen ([u8 8] ++ varint_bytes id)) room); [| discriminate].
    intro E; apply some_inj in E; subst hdr; (split; [rewrite app_nil_r; reflexivity | assumption]).
Qed.

Lemma varint_small_len len : len < 16384 -> encode_varint_length len <= 2.
Proof.
  intro H. unfold encode_varint_length. destruct (N.ltb_spec len 16384); [| lia]. destruct (len <? 64); lia.
Qed.

Lemma prefix_reads S (h : handlers S) o epoch id off room hdr d fin :
  (epoch = 1 \/ epoch = 3) -> (forall s, h_frame h s RPadding = (s, true)) ->
  stream_frame_header id off room = Some hdr -> room <= 16384 ->
  blen d <= room - blen hdr -> id < two62 -> off + blen d < two62 ->
  let pre := frame_prefix hdr (room - blen hdr) (blen d) fin in
  blen (pre ++ d) <= room /\
  forall tail, bytes_ok ((pre ++ d) ++ tail) -> blen (pre ++ d) + blen tail <= room ->
    reads_as S h o epoch (pre ++ d) [RStream id off fin d] tail.
Proof.
  intros He Hp Hh Hr Hd Hi Ho. cbv zeta. destruct (header_bytes _ _ _ _ Hh) as [Hb Hl].
  set (hdr1 := if fin then set_flag hdr 1 else hdr).
  assert (E1 : hdr1 = flags off false fin :: stream_fields id off).
  { unfold hdr1. rewrite Hb. unfold flags. destruct fin, (0 <? off); reflexivity. }
  assert (B1 : blen hdr1 = blen hdr) by (rewrite E1, Hb; unfold blen; reflexivity).
  assert (Full : forall l, blen l = 0 -> l = []).
  { intros l. destruct l; [reflexivity |]. unfold blen. cbn [length]. lia. }
  unfold frame_prefix. cbv zeta. fold hdr1.
  destruct (N.ltb_spec (blen d) (room - blen hdr)) as [L1 | L1].
  - destruct (N.eqb_spec (blen d) (room - blen hdr - 1)) as [L2 | L2].
    + assert (B : blen ((0 :: hdr1) ++ d) = room).
      { rewrite blen_app. change (0 :: hdr1) with ([0] ++ hdr1). rewrite blen_app, B1. change (blen [0]) with 1. lia. }
      split; [lia |]. intros tail Hok Hsum. assert (tail = []) by (apply Full; lia). subst tail.
      rewrite app_nil_r in Hok. apply Forall_app in Hok. destruct Hok as [_ Hok].
      rewrite E1. cbn [app].
      apply reads_pad; [exact He | unfold flags; destruct (0 <? off), fin; lia | exact Hp |].
      apply (reads_stream S h o epoch id off fin d [] false); auto. constructor.
    + rewrite varint_encode_eq.
      assert (V : encode_varint_length (blen d) <= room - blen hdr).
      { pose proof (varint_small_len (blen d)). lia. }
      assert (V2 : encode_varint_length (blen d) + blen d <= room - blen hdr).
      { pose proof (varint_small_len (blen d)). lia. }
      replace (encode_varint_length (blen d) <=? room - blen hdr) with true by (symmetry; apply N.leb_le; exact V).
      assert (E2 : set_flag hdr1 2 = flags off true fin :: stream_fields id off).
      { rewrite E1. unfold flags. destruct fin, (0 <? off); reflexivity. }
      assert (B2 : blen (set_flag hdr1 2) = blen hdr) by (rewrite <- B1, E2, E1; unfold blen; reflexivity).
      split.
      { rewrite !blen_app, B2, varint_bytes_length. lia. }
      intros tail Hok Hsum. rewrite <- app_assoc in Hok. apply Forall_app in Hok. destruct Hok as [_ Hok].
      apply Forall_app in Hok. rewrite E2. cbn [app]. rewrite <- app_assoc.
      apply (reads_stream S h o epoch id off fin d tail true); try tauto. discriminate.
  - assert (B : blen (hdr1 ++ d) = room) by (rewrite blen_app, B1; lia).
    split; [lia |]. intros tail Hok Hsum. assert (tail = []) by (apply Full; lia). subst tail.
    rewrite app_nil_r in Hok. apply Forall_app in Hok. destruct Hok as [_ Hok].
    rewrite E1. cbn [app].
    apply (reads_stream S h o epoch id off fin d [] false); auto. constructor.
Qed.

(** An error of the application leaves the state unchanged. *)
Lemma format_err_same c s room now r c1 asked : format_stream c s room now r = FErr c1 asked -> c1 = c.
Proof.
  unfold format_stream. destruct (above_limit c (w_id s)); [discriminate |].
  destruct (w_rst_sent s); [discriminate |].
  destruct (w_rst_req s); [destruct (reset_writer _ _ _ _); discriminate |].
  destruct (w_stop_req s && negb (w_stop_sent s)).
  { destruct (w_rcv_end s); [discriminate |]. destruct (stop_writer _ _ _); discriminate. }
  destruct (negb (w_active s) && negb (queue_ready s) && (negb (w_fin_req s) || w_fin_sent s)); [discriminate |].
  destruct (stream_frame_header _ _ _) as [hdr |]; [| discriminate].
  destruct (_ && _ && _).
  + unfold format_active. cbv zeta. destruct r as [| | d fin still]; try discriminate.
    * intro H. injection H as <- _. reflexivity.
    * destruct (_ <? _); [discriminate |]. destruct (_ && _); [discriminate |]. destruct (_ <? _); [discriminate |].
      destruct fin; discriminate.
  + unfold format_queued. cbv zeta. destruct (_ <? _); [discriminate |].
    intro H; repeat match type of H with
    | (match ?x with _ => _ end) = _ => destruct x; try discriminate
    end.
Qed.

(** One call of the formatting function. *)
Section wire.
Context (S : Type) (h : handlers S) (o : options) (epoch : N).
Hypothesis He : epoch = 1 \/ epoch = 3.
Hypothesis Hp : forall s, h_frame h s RPadding = (s, true).

Definition wire_ok (room : N) (b : list N) (its : list item) : Prop :=
  blen b <= room /\
  forall tail, bytes_ok (b ++ tail) -> blen b + blen tail <= room ->
    reads_as S h o epoch b (frames_of its) tail.

Lemma wire_nil room : wire_ok room [] [].
Proof. split; [apply N.le_0_l |]. intros tail _ _. apply reads_nil. Qed.

Lemma wire_of room b its f : frames_of its = [f] -> blen b <= room ->
  (forall tail, bytes_ok (b ++ tail) -> blen b + blen tail <= room -> reads_as S h o epoch b [f] tail) ->
  wire_ok room b its.
Proof. intros Hi Hb H. split; [exact Hb |]. rewrite Hi. exact H. Qed.

Definition fmt_wire (room : N) (f : fmt) : Prop :=
  match f with
  | FNull => True
  | FOk c' b its _ => Forall encodable (n_streams c') /\ wire_ok room b its
  | FErr c' _ => True
  | FUb => False
  end.

Lemma put_enc c s : Forall encodable (n_streams c) -> encodable s -> Forall encodable (n_streams (w_put c s)).
Proof.
  intros H Hs. unfold w_put. cbn [n_set_streams n_streams]. apply Forall_forall. intros x Hx.
  apply in_map_iff in Hx. destruct Hx as (y & <- & Hy). destruct (w_id y =? w_id s); [exact Hs |].
  rewrite Forall_forall in H. apply H, Hy.
Qed.

Lemma add_enc c n : Forall encodable (n_streams c) -> Forall encodable (n_streams (n_add_sent c n)).
Proof. intro H. exact H. Qed.

Lemma active_wire c s hdr room now r :
  Forall encodable (n_streams c) -> encodable s -> has_data c s = true -> room <= 16384 ->
  stream_frame_header (w_id s) (w_sent s) room = Some hdr ->
  fmt_wire room (format_active c s hdr room now r).
Proof.
  intros He' Hs Hd Hr Hh. unfold format_active. cbv zeta.
  destruct (allowed_le c s (room - blen hdr) Hd) as (L1 & L2 & L3).
  destruct (has_data_limits _ _ Hd) as [B1 B2].
  assert (Quiet : forall a fr fs, fmt_wire room (FOk (w_put c (w_set_fin s a fr fs)) [] [] true)).
  { intros. split; [| apply wire_nil]. apply put_enc; assumption. }
  destruct r as [| | d fin still]; [exact Logic.I | apply Quiet |].
  destruct (N.ltb_spec (allowed_space c s (room - blen hdr)) (blen d)) as [La | La]; [apply Quiet |].
  destruct ((blen d =? 0) && negb fin); [apply Quiet |].
  destruct Hs as (S1 & S2 & S3 & S4 & S5).
  destruct (prefix_reads S h o epoch (w_id s) (w_sent s) room hdr d fin) as [P1 P2];
    [exact He | exact Hp | exact Hh | exact Hr | lia | exact S1 | lia |].
  set (pre := frame_prefix hdr (room - blen hdr) (blen d) fin) in *.
  destruct (N.ltb_spec room (blen pre + blen d)) as [Lr | Lr]; [rewrite blen_app in P1; lia |].
  assert (En : forall a fr fs, Forall encodable
     (n_streams (w_put c (w_set_fin (w_set_data s (w_sent s + blen d) (w_queue s) now) a fr fs)))).
  { intros. apply put_enc; [exact He' |]. unfold encodable. cbn. repeat split; try assumption. lia. }
  destruct fin; (split; [apply En |]); eapply wire_of; try reflexivity; try exact P1; exact P2.
Qed.

Lemma queued_wire c s hdr room now :
  Forall encodable (n_streams c) -> encodable s -> has_data c s = true -> room <= 16384 ->
  stream_frame_header (w_id s) (w_sent s) room = Some hdr ->
  fmt_wire room (format_queued c s hdr room now).
Proof.
  intros He' Hs Hd Hr Hh. unfold format_queued. cbv zeta.
  destruct (allowed_le c s (room - blen hdr) Hd) as (L1 & L2 & L3).
  destruct (has_data_limits _ _ Hd) as [B1 B2].
  set (al := allowed_space c s (room - blen hdr)) in *.
  set (avail := match w_queue s with [] => 0 | (d, o) :: _ => blen d - o end).
  set (len := if al <=? avail then al else avail).
  assert (Len : len <= avail /\ len <= al) by (unfold len; destruct (N.leb_spec al avail); lia).
  set (d := match w_queue s with [] => [] | (b, o) :: _ => firstn (N.to_nat len) (skipn (N.to_nat o) b) end).
  set (q := if 0 <? len then _ else w_queue s).
  assert (Bd : blen d = len).
  { unfold d, avail in *. destruct (w_queue s) as [| [b0 o0] r]; [cbn; lia |].
    apply firstn_blen. rewrite skipn_blen. lia. }
  set (fin := match q with [] => w_fin_req s | _ :: _ => false end).
  destruct Hs as (S1 & S2 & S3 & S4 & S5).
  destruct (prefix_reads S h o epoch (w_id s) (w_sent s) room hdr d fin) as [P1 P2];
    [exact He | exact Hp | exact Hh | exact Hr | lia | exact S1 | lia |].
  rewrite Bd in P1, P2.
  set (pre := frame_prefix hdr (room - blen hdr) len fin) in *.
  destruct (N.ltb_spec room (blen pre + len)) as [Lr | Lr]; [rewrite blen_app in P1; lia |].
  set (c1 := n_add_sent _ len).
  assert (En : Forall encodable (n_streams c1)).
  { unfold c1. apply add_enc, put_enc; [exact He' |].
    destruct (0 <? len); unfold encodable; cbn; repeat split; try assumption; lia. }
  assert (W : fmt_wire room (FOk c1 (pre ++ d) [IStream (w_id s) (w_sent s) fin d] false)).
  { split; [exact En |]. eapply wire_of; [reflexivity | exact P1 | exact P2]. }
  destruct q; [exact W |]. destruct (len =? 0); [| exact W].
  split; [exact En | apply wire_nil].
Qed.

Lemma writer_some (w : writer) b room x : canon w b -> w room = Some x -> x = b /\ blen b <= room.
Proof.
  intros C H. rewrite C in H. destruct (N.leb_spec (blen b) room); [| discriminate].
  apply some_inj in H. auto.
Qed.

Lemma format_wire c s room now r :
  Forall encodable (n_streams c) -> chosen c s -> room <= 16384 ->
  fmt_wire room (format_stream c s room now r).
Proof.
  intros He' [Hl Hc] Hr.
  assert (Hs : encodable s). { rewrite Forall_forall in He'. apply He'. apply lookup_in in Hl. tauto. }
  assert (N0 : fmt_wire room (FOk c [] [] false)) by (split; [exact He' | apply wire_nil]).
  unfold format_stream. destruct (above_limit c (w_id s)); [exact Logic.I |].
  destruct (w_rst_sent s) eqn:Er; [exact N0 |].
  destruct (w_rst_req s) eqn:Eq.
  { destruct (reset_writer _ _ _ _) as [bb |] eqn:Ew; [| exact N0]. cbv zeta.
    destruct Hs as (S1 & S2 & S3 & S4 & S5).
    assert (C : canon (reset_writer (w_id s) (w_err s) (w_sent s))
       (4 :: varint_bytes (w_id s) ++ varint_bytes (w_err s) ++ varint_bytes (w_sent s))).
    { unfold reset_writer. change (4 :: ?l) with ([u8 4] ++ l).
      apply canon_seq; [apply canon_uint8 |]. apply canon_seq; [apply canon_varint |].
      apply canon_seq; apply canon_varint. }
    destruct (writer_some _ _ _ _ C Ew) as [-> Hb]. split.
    - apply put_enc; [exact He' |]. unfold encodable. cbn. auto.
    - eapply wire_of; [reflexivity | exact Hb |]. intros tail _ _. apply reads_reset; assumption. }
  destruct (w_stop_req s && negb (w_stop_sent s)) eqn:Es.
  { destruct (w_rcv_end s). { split; [| apply wire_nil]. apply put_enc; [exact He' |]. exact Hs. }
    destruct (stop_writer _ _ _) as [bb |] eqn:Ew; [| exact N0].
    assert (C : canon (stop_writer (w_id s) (w_stop_err s))
       (5 :: varint_bytes (w_id s) ++ varint_bytes (w_stop_err s))).
    { unfold stop_writer. change (5 :: ?l) with ([u8 5] ++ l).
      apply canon_seq; [apply canon_uint8 |]. apply canon_seq; apply canon_varint. }
    destruct (writer_some _ _ _ _ C Ew) as [-> Hb]. split.
    - apply put_enc; [exact He' |]. exact Hs.
    - destruct Hs as (S1 & S2 & S3 & S4 & S5).
      eapply wire_of; [reflexivity | exact Hb |]. intros tail _ _. apply reads_stop; assumption. }
  assert (Hd : has_data c s = true).
  { destruct Hc as [Hc | Hc]; [| exact Hc]. unfold urgent in Hc. rewrite Eq, Es in Hc. discriminate. }
  destruct (negb (w_active s) && negb (queue_ready s) && (negb (w_fin_req s) || w_fin_sent s)); [exact N0 |].
  destruct (stream_frame_header _ _ _) as [hdr |] eqn:Eh; [| exact N0].
  destruct (w_active s && match w_queue s with [] => true | _ :: _ => false end && negb (w_fin_req s)).
  - apply active_wire; assumption.
  - apply queued_wire; assumption.
Qed.

Definition loop_wire (room0 : N) (r : loop_result) : Prop :=
  match r with
  | LDone c' b its _ => Forall encodable (n_streams c') /\ wire_ok room0 b its
  | _ => True
  end.

Lemma same_enc c c' : same_but_out c c' -> Forall encodable (n_streams c) -> Forall encodable (n_streams c').
Proof. intros [out ->] H. exact H. Qed.

Lemma wire_app room0 b1 i1 b2 i2 :
  wire_ok room0 b1 i1 -> wire_ok (room0 - blen b1) b2 i2 -> wire_ok room0 (b1 ++ b2) (i1 ++ i2).
Proof.
  intros [A1 A2] [B1 B2]. split; [rewrite blen_app; lia |]. intros tail Hok Hsum.
  rewrite blen_app in Hsum. rewrite frames_app. rewrite <- app_assoc in Hok. apply reads_app.
  - apply A2; [exact Hok | rewrite blen_app; lia].
  - apply B2; [| lia]. apply Forall_app in Hok. tauto.
Qed.

Lemma none_not_done now prio app fuel : forall c st bytes its asks c' b i ok,
  fill_loop fuel c st None bytes its asks now prio app <> LDone c' b i ok.
Proof.
  induction fuel as [| fuel IH]; intros c st bytes its asks c' b i ok; [discriminate |].
  cbn [fill_loop]. cbv zeta. destruct st as [s |]; [| discriminate].
  destruct (_ && _); [| discriminate]. destruct (above_limit c (w_id s)); [| discriminate].
  destruct (find_ready c) as [c1 st1]. apply IH.
Qed.

Lemma none_wire room0 now prio app fuel c st bytes its asks :
  loop_wire room0 (fill_loop fuel c st None bytes its asks now prio app).
Proof.
  destruct (fill_loop fuel c st None bytes its asks now prio app) eqn:E; try exact Logic.I.
  apply none_not_done in E. destruct E.
Qed.

Lemma fill_loop_wire room0 now prio app fuel : room0 <= 16384 -> forall c st bytes its asks,
  Forall encodable (n_streams c) -> wire_ok room0 bytes its -> (forall s, st = Some s -> chosen c s) ->
  loop_wire room0 (fill_loop fuel c st (Some (room0 - blen bytes)) bytes its asks now prio app).
Proof.
  intro Hr. induction fuel as [| fuel IH]; intros c st bytes its asks Hen W Hc; [exact Logic.I |].
  cbn [fill_loop]. cbv zeta.
  assert (Fin : loop_wire room0 (LDone c bytes its true)) by (split; assumption).
  destruct st as [s |]; [| exact Fin]. destruct (_ && _); [| exact Fin].
  assert (Hs := Hc s eq_refl).
  assert (F := format_wire c s (room0 - blen bytes) now (app asks) Hen Hs).
  destruct (format_stream c s (room0 - blen bytes) now (app asks)) as [| c1 b its1 asked | c1 asked |] eqn:Ef.
  - destruct (find_ready c). apply none_wire.
  - destruct F as [F1 F2]; [lia |].
    destruct (find_ready c1) as [c2 st2] eqn:Er. destruct (find_ready_spec _ _ _ Er) as [G1 G2].
    assert (W2 : wire_ok room0 (bytes ++ b) (its ++ its1)) by (apply wire_app; assumption).
    assert (E2 := same_enc _ _ G1 F1).
    replace (room0 - blen bytes - blen b) with (room0 - blen (bytes ++ b)) by (rewrite blen_app; lia).
    assert (C3 : forall x, st2 = Some x -> chosen c2 x) by (intros x Hx; eapply same_chosen; [exact G1 | auto]).
    destruct st2 as [s2 |].
    + destruct (_ <=? 17); [split; assumption |]. apply IH; assumption.
    + apply IH; assumption.
  - apply format_err_same in Ef. subst c1. exact Fin.
  - destruct F. lia.
Qed.

Lemma fill_wire c fuel room now prio app c' bytes its ok tail :
  Forall encodable (n_streams c) -> room <= 16384 ->
  fill fuel c room now prio app = LDone c' bytes its ok ->
  blen bytes <= room /\ Forall encodable (n_streams c') /\
  (bytes_ok (bytes ++ tail) -> blen bytes + blen tail <= room ->
   reads_as S h o epoch bytes (frames_of its) tail).
Proof.
  intros Hen Hr. unfold fill. destruct (find_ready c) as [c1 st] eqn:Ef.
  destruct (find_ready_spec _ _ _ Ef) as [F1 F2]. intro H.
  assert (W := fill_loop_wire room now prio app fuel Hr c1 st [] [] 0%nat (same_enc _ _ F1 Hen) (wire_nil room)
    (fun x Hx => same_chosen _ _ _ F1 (F2 x Hx))).
  change (room - blen []) with (room - 0) in W. rewrite N.sub_0_r in W. rewrite H in W.
  destruct W as [W1 [W2 W3]]. auto.
Qed.
End wire.
