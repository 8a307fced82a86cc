(** Proofs about the composition of two endpoints, part 3: what packets carry. *)
From Verif Require Import Base Tac Varint_model Varint_proofs Frames_model Frames_spec Stream_model Send_model Send_spec
  Send_proofs Send2_proofs Send3_proofs Frames5_proofs Repeat_model Repeat_spec Repeat3_proofs Repeat4_proofs
  Net_model Net_spec Net_proofs Net2_proofs.

Lemma noted_pad s : h_frame noted s RPadding = (s, true).
Proof. reflexivity. Qed.

Lemma fill_loop_enc room0 now prio app fuel : room0 <= 16384 -> forall c st bytes its asks c' bytes' its' ok,
  Forall encodable (n_streams c) -> blen bytes <= room0 -> (forall s, st = Some s -> chosen c s) -> Forall item_enc its ->
  fill_loop fuel c st (Some (room0 - blen bytes)) bytes its asks now prio app = LDone c' bytes' its' ok ->
  Forall item_enc its'.
Proof.
  intro Hr. induction fuel as [| fuel IH]; intros c st bytes its asks c' bytes' its' ok Hen Hb Hc Hi; [discriminate |].
  cbn [fill_loop]. cbv zeta.
  assert (Fin : forall c1 ok1, LDone c1 bytes its ok1 = LDone c' bytes' its' ok -> Forall item_enc its').
  { intros c1 ok1 H. injection H as _ _ <- _. exact Hi. }
  destruct st as [s |]; [| apply Fin]. destruct (_ && _); [| apply Fin].
  assert (Hs := Hc s eq_refl).
  assert (Es : encodable s). { rewrite Forall_forall in Hen. apply Hen. destruct Hs as [Hs _]. apply lookup_in in Hs. tauto. }
  assert (F := format_wire (list sfr) noted noted_opt 3 (or_intror eq_refl) noted_pad c s (room0 - blen bytes) now (app asks) Hen Hs).
  destruct (format_stream c s (room0 - blen bytes) now (app asks)) as [| c1 b its1 asked | c1 asked |] eqn:Ef.
  - destruct (find_ready c). intro H. apply none_not_done in H. destruct H.
  - destruct F as [F1 [F2 _]]; [lia |].
    assert (I2 : Forall item_enc (its ++ its1)) by (apply Forall_app; split; [exact Hi | eapply format_enc; eassumption]).
    destruct (find_ready c1) as [c2 st2] eqn:Er. destruct (find_ready_spec _ _ _ Er) as [G1 G2].
    assert (E2 := same_enc _ _ G1 F1).
    replace (room0 - blen bytes - blen b) with (room0 - blen (bytes ++ b)) by (rewrite Varint_proofs.blen_app; lia).
    assert (Hb2 : blen (bytes ++ b) <= room0) by (rewrite Varint_proofs.blen_app; lia).
    assert (C3 : forall x, st2 = Some x -> chosen c2 x) by (intros x Hx; eapply same_chosen; [exact G1 | auto]).
    destruct st2 as [s2 |].
    + destruct (_ <=? 17); [intro H; injection H as _ _ <- _; exact I2 |]. apply IH; assumption.
    + apply IH; assumption.
  - apply Fin.
  - discriminate.
Qed.

Lemma fill_enc c fuel room now prio app c' bytes its ok : Forall encodable (n_streams c) -> room <= 16384 ->
  fill fuel c room now prio app = LDone c' bytes its ok -> Forall item_enc its.
Proof.
  intros Hen Hr. unfold fill. destruct (find_ready c) as [c1 st] eqn:Ef.
  destruct (find_ready_spec _ _ _ Ef) as [F1 F2]. intro H.
  eapply (fill_loop_enc room now prio app fuel Hr c1 st [] []); [eapply same_enc; eassumption | cbn; lia | | constructor |].
  - intros x Hx. eapply same_chosen; [exact F1 | auto].
  - change (room - blen (@nil N)) with (room - 0). rewrite N.sub_0_r. exact H.
Qed.

Lemma fill_readable c fuel room now prio app c' bytes its ok : Forall encodable (n_streams c) -> room <= 16384 ->
  fill fuel c room now prio app = LDone c' bytes its ok ->
  readable room bytes (frames_of its) /\ Forall encodable (n_streams c').
Proof.
  intros Hen Hr H.
  destruct (fill_wire (list sfr) noted noted_opt 3 (or_intror eq_refl) noted_pad c fuel room now prio app c' bytes its ok [] Hen Hr H)
    as (L & E & _).
  split; [| exact E]. split; [exact L |]. intros S h o epoch He Hp tail s Hok Hsum.
  destruct (fill_wire S h o epoch He Hp c fuel room now prio app c' bytes its ok tail Hen Hr H) as (_ & _ & W).
  apply W; assumption.
Qed.

(** A frame that carries bytes written by the application; the FIN only at the end of
    what was written when it was requested. *)
Definition slice (cl : bool) (log : list item) (f : sfr) : Prop :=
  let '(id, off, fin, d) := f in
  off + blen d < two62 /\
  (exists a b, wrote_bytes id log = a ++ d ++ b /\ blen a = off) /\
  (fin = true -> exists l1 l2, log = l1 ++ l2 /\ off + blen d = blen (wrote_bytes id l1) /\
     (In (IFin id) l1 \/ rx_only cl id = true)).

Lemma slice_more cl log more f : slice cl log f -> slice cl (log ++ more) f.
Proof.
  destruct f as [[[id off] fin] d]. intros (H1 & (a & b & E & L) & H3). split; [exact H1 |]. split.
  - exists a, (b ++ wrote_bytes id more). rewrite wrote_app, E, <- !app_assoc. auto.
  - intro F. destruct (H3 F) as (l1 & l2 & -> & X & Y). exists l1, (l2 ++ more). rewrite <- app_assoc. auto.
Qed.

Lemma slice_piece cl log g f : slice cl log g -> piece_of g f -> slice cl log f.
Proof.
  destruct g as [[[id0 off0] fin0] d0]. destruct f as [[[id off] fin] d].
  intros (H1 & (a & b & E & L) & H3) (-> & a' & b' & -> & -> & Hf). rewrite !Varint_proofs.blen_app in *. split; [lia |]. split.
  - exists (a ++ a'), (b' ++ b). rewrite E, <- !app_assoc. rewrite Varint_proofs.blen_app. split; [reflexivity | lia].
  - intro F. destruct (Hf F) as [F0 ->]. destruct (H3 F0) as (l1 & l2 & El & X & Y). exists l1, l2.
    change (blen (@nil N)) with 0 in X. split; [exact El |]. split; [lia | exact Y].
Qed.

Lemma wrote_data log x id off fin d : x = IStream id off fin d -> forall id', wrote_bytes id' (log ++ [x]) = wrote_bytes id' log.
Proof. intros -> id'. rewrite wrote_app. cbn. apply app_nil_r. Qed.

Lemma good_slices A cl log its : (forall id, A id < two62) -> good A cl log its -> Forall (slice cl (log ++ its)) (sfrs_of its).
Proof.
  intros HA G. apply Forall_forall. intros [[[id off] fin] d] H. apply sfrs_in in H.
  apply in_split in H. destruct H as (l1 & l2 & E). specialize (G l1 _ l2 E). cbn [frame_ok] in G.
  destruct G as (G1 & G2 & _ & rest & G3 & G4). specialize (HA id).
  assert (X : log ++ its = (log ++ l1) ++ (IStream id off fin d :: l2)) by (rewrite E, <- app_assoc; reflexivity).
  split; [lia |]. split.
  - exists (sent_bytes id (log ++ l1)), (rest ++ wrote_bytes id l2). rewrite X, wrote_app. cbn [wrote_bytes].
    rewrite G3, <- !app_assoc. auto.
  - intro F. destruct (G4 F) as [-> Y]. exists (log ++ l1), (IStream id off fin d :: l2). split; [exact X |]. split; [| exact Y].
    rewrite G3, app_nil_r, Varint_proofs.blen_app. lia.
Qed.

(** Resets of a list of frames are in the log. *)
Definition resets_in (its log : list item) : Prop := forall id e f, In (IReset id e f) its -> In (IReset id e f) log.

(** Invariant of A. *)
Record a_inv (cl : bool) (c : snd_cnx) (q : list lost) (log : list item) : Prop := mk_ainv {
  ai_inv : exists A M, (forall id, A id < two62) /\ inv A M cl log c;
  ai_named : all_named c;
  ai_enc : Forall item_enc log;
  ai_q : exists fss, queue_waits q fss /\ Forall (slice cl log) (concat fss) }.

(** What a packet carries. *)
Definition packet_ok (cl : bool) (log : list item) (b : list N) : Prop :=
  exists its room, bytes_ok b /\ readable room b (frames_of its) /\ Forall (slice cl log) (sfrs_of its) /\ resets_in its log.

Lemma slice_bytes cl log id off fin d : bytes_written log -> slice cl log (id, off, fin, d) -> bytes_ok d.
Proof.
  intros Hw (_ & (a & b & E & _) & _). specialize (Hw id). rewrite E in Hw. unfold bytes_ok in *.
  apply Forall_app in Hw. destruct Hw as [_ Hw]. apply Forall_app in Hw. tauto.
Qed.

Lemma slices_data cl log its : bytes_written log -> Forall (slice cl log) (sfrs_of its) -> data_ok its.
Proof.
  intros Hw H id off fin d Hi. apply sfrs_in in Hi. rewrite Forall_forall in H. eapply slice_bytes; [exact Hw | apply H, Hi].
Qed.

Lemma written_prefix log more : bytes_written (log ++ more) -> bytes_written log.
Proof. intros H id. specialize (H id). rewrite wrote_app in H. unfold bytes_ok in *. apply Forall_app in H. tauto. Qed.

Lemma again_spec x room : item_enc x -> exists its, readable room (again (Some x) room) (frames_of its) /\
  bytes_ok (again (Some x) room) /\ sfrs_of its = [] /\ (forall y, In y its -> y = x).
Proof.
  assert (Nil : exists its, readable room [] (frames_of its) /\ bytes_ok [] /\ sfrs_of its = [] /\ (forall y, In y its -> y = x)).
  { exists []. split; [apply readable_nil |]. split; [constructor |]. split; [reflexivity | intros y []]. }
  intro He. unfold again. cbv zeta. destruct x as [| | | id err final | id err]; cbv iota; try exact Nil.
  - destruct (reset_writer id err final room) as [b |] eqn:Ew; [| exact Nil].
    exists [IReset id err final]. split; [| split; [eapply reset_bytes, Ew | split; [reflexivity | intros y [<- | []]; reflexivity]]].
    destruct He as (S1 & S2 & S3).
    assert (C : canon (reset_writer id err final) (4 :: varint_bytes id ++ varint_bytes err ++ varint_bytes final)).
    { unfold reset_writer. change (4 :: ?l) with ([u8 4] ++ l).
      apply canon_seq; [apply canon_uint8 |]. apply canon_seq; [apply canon_varint |].
      apply canon_seq; apply canon_varint. }
    destruct (writer_some _ _ _ _ C Ew) as [-> Hb]. split; [exact Hb |].
    intros S h o epoch Hep Hp tail s _ _. apply reads_reset; assumption.
  - destruct (stop_writer id err room) as [b |] eqn:Ew; [| exact Nil].
    exists [IStop id err]. split; [| split; [eapply stop_bytes, Ew | split; [reflexivity | intros y [<- | []]; reflexivity]]].
    destruct He as (S1 & S2).
    assert (C : canon (stop_writer id err) (5 :: varint_bytes id ++ varint_bytes err)).
    { unfold stop_writer. change (5 :: ?l) with ([u8 5] ++ l).
      apply canon_seq; [apply canon_uint8 |]. apply canon_seq; apply canon_varint. }
    destruct (writer_some _ _ _ _ C Ew) as [-> Hb]. split; [exact Hb |].
    intros S h o epoch Hep Hp tail s _ _. apply reads_stop; assumption.
Qed.

Lemma forall_slice_more cl log more fs : Forall (slice cl log) fs -> Forall (slice cl (log ++ more)) fs.
Proof. apply Forall_impl. intro f. apply slice_more. Qed.

Lemma build_log parts : forall c q log room c' q' log' b,
  build parts c q log room = Some (c', q', log', b) -> exists more, log' = log ++ more.
Proof.
  induction parts as [| p r IH]; intros c q log room c' q' log' b H; cbn [build] in H.
  - injection H as _ _ <- _. exists []. rewrite app_nil_r. reflexivity.
  - destruct (room <=? 8); [injection H as _ _ <- _; exists []; rewrite app_nil_r; reflexivity |]. cbv zeta in H.
    destruct p as [fuel now prio app | streams pos | k].
    + destruct (fill fuel c room now prio app) as [c1 b1 i1 ok1 | | |]; try discriminate.
      destruct (build r c1 q (log ++ i1) (room - blen b1)) as [[[[c2 q2] log2] b2] |] eqn:E; [| discriminate].
      injection H as _ _ <- _. apply IH in E. destruct E as [more ->]. exists (i1 ++ more). rewrite app_assoc. reflexivity.
    + destruct (copy_frames streams q room pos) as [[[[b1 i1] q1] []] |]; try discriminate.
      destruct (build r c q1 log (room - blen b1)) as [[[[c2 q2] log2] b2] |] eqn:E; [| discriminate].
      injection H as _ _ <- _. eapply IH, E.
    + destruct (build r c q log (room - blen (again (nth_error log k) room))) as [[[[c2 q2] log2] b2] |] eqn:E; [| discriminate].
      injection H as _ _ <- _. eapply IH, E.
Qed.

(** What becomes of the new frames and of those that wait. *)
Definition kept (parts : list part) (log : list item) (q : list lost) (log' : list item) (q' : list lost) (its : list item) : Prop :=
  forall fss, queue_waits q fss -> exists fss' new, queue_waits q' fss' /\ log' = log ++ new /\
    forall id i v, log_byte new id i v \/ pending_byte fss id i v ->
      log_byte its id i v \/ pending_byte fss' id i v \/
      exists st pos, In (PRepeat st pos) parts /\ not_needed st id i (i + 1) false.

Lemma log_byte_app a b id i v : log_byte (a ++ b) id i v <-> log_byte a id i v \/ log_byte b id i v.
Proof.
  unfold log_byte. split.
  - intros (off & fin & d & H & X). apply in_app_or in H. destruct H; [left | right]; exists off, fin, d; auto.
  - intros [(off & fin & d & H & X) | (off & fin & d & H & X)]; exists off, fin, d; (split; [apply in_or_app; auto | exact X]).
Qed.

Lemma log_byte_nil id i v : ~ log_byte [] id i v.
Proof. intros (off & fin & d & [] & _). Qed.

Lemma kept_nil parts log q : kept parts log q log q [].
Proof.
  intros fss Hq. exists fss, []. split; [exact Hq |]. split; [rewrite app_nil_r; reflexivity |].
  intros id i v [H | H]; [destruct (log_byte_nil _ _ _ H) | auto].
Qed.

Lemma kept_fill fuel now prio app r log i1 q log' q' its : kept r (log ++ i1) q log' q' its ->
  kept (PFill fuel now prio app :: r) log q log' q' (i1 ++ its).
Proof.
  intros K fss Hq. destruct (K fss Hq) as (fss' & new & Hq' & E & X). exists fss', (i1 ++ new).
  split; [exact Hq' |]. split; [rewrite E, app_assoc; reflexivity |]. intros id i v H. rewrite log_byte_app in H |- *.
  assert (Y : log_byte i1 id i v \/ log_byte new id i v \/ pending_byte fss id i v) by tauto.
  destruct Y as [Y | Y]; [tauto |]. destruct (X _ _ _ Y) as [Z | [Z | (st & pos & Z1 & Z2)]]; [tauto | tauto |].
  right. right. exists st, pos. split; [right; exact Z1 | exact Z2].
Qed.

Lemma kept_again k r log q log' q' i1 its : kept r log q log' q' its -> kept (PAgain k :: r) log q log' q' (i1 ++ its).
Proof.
  intros K fss Hq. destruct (K fss Hq) as (fss' & new & Hq' & E & X). exists fss', new.
  split; [exact Hq' |]. split; [exact E |]. intros id i v H. rewrite log_byte_app.
  destruct (X _ _ _ H) as [Z | [Z | (st & pos & Z1 & Z2)]]; [tauto | tauto |].
  right. right. exists st, pos. split; [right; exact Z1 | exact Z2].
Qed.

Lemma kept_repeat streams pos room r log q b1 i1 q1 log' q' its : prio_ok streams ->
  copy_frames streams q room pos = Some (b1, i1, q1, true) -> kept r log q1 log' q' its ->
  kept (PRepeat streams pos :: r) log q log' q' (i1 ++ its).
Proof.
  intros Hp Ec K fss Hq.
  destruct (copy_frames_spec streams q fss room pos Hp Hq) as (b2 & i2 & q2 & fss1 & Ec2 & Hq1 & _ & _ & (_ & _ & C & _) & _).
  rewrite Ec in Ec2. injection Ec2 as <- <- <-. destruct (K fss1 Hq1) as (fss' & new & Hq' & E & X). exists fss', new.
  split; [exact Hq' |]. split; [exact E |]. intros id i v H. rewrite log_byte_app.
  assert (Y : log_byte i1 id i v \/ (log_byte new id i v \/ pending_byte fss1 id i v) \/ not_needed streams id i (i + 1) false).
  { destruct H as [H | H]; [tauto |]. destruct (C _ _ _ H) as [Z | [Z | Z]]; tauto. }
  destruct Y as [Y | [Y | Y]]; [tauto | | right; right; exists streams, pos; split; [left; reflexivity | exact Y]].
  destruct (X _ _ _ Y) as [Z | [Z | (st & p & Z1 & Z2)]]; [tauto | tauto |].
  right. right. exists st, p. split; [right; exact Z1 | exact Z2].
Qed.

Lemma build_spec cl parts : forall c q log room c' q' log' b,
  Forall (fun p => match p with PRepeat st _ => prio_ok st | _ => True end) parts -> room <= 16384 ->
  a_inv cl c q log -> build parts c q log room = Some (c', q', log', b) -> bytes_written log' ->
  a_inv cl c' q' log' /\ exists its, readable room b (frames_of its) /\ bytes_ok b /\
    Forall (slice cl log') (sfrs_of its) /\ resets_in its log' /\ kept parts log q log' q' its.
Proof.
  induction parts as [| p r IH]; intros c q log room c' q' log' b Hp Hr I H Hw; cbn [build] in H.
  - injection H as <- <- <- <-. split; [exact I |]. exists []. split; [apply readable_nil |]. split; [constructor |]. split; [constructor |]. split; [intros ? ? ? [] | apply kept_nil].
  - inversion Hp as [| x y Hp1 Hp2]; subst x y.
    destruct (room <=? 8).
    { injection H as <- <- <- <-. split; [exact I |]. exists []. split; [apply readable_nil |]. split; [constructor |]. split; [constructor |]. split; [intros ? ? ? [] | apply kept_nil]. }
    cbv zeta in H. destruct I as [(A & M & HA & I) Hn He (fss & Hq & Hs)].
    destruct p as [fuel now prio app | streams pos | k].
    + destruct (fill fuel c room now prio app) as [c1 b1 i1 ok1 | | |] eqn:Ef; try discriminate.
      destruct (build r c1 q (log ++ i1) (room - blen b1)) as [[[[c2 q2] log2] b2] |] eqn:E; [| discriminate].
      injection H as <- <- <- <-. destruct (build_log _ _ _ _ _ _ _ _ _ E) as [more ->].
      assert (Hen := named_encodable _ _ _ _ _ I HA Hn).
      destruct (fill_ok _ _ _ _ _ _ _ _ _ _ _ _ _ _ I Ef) as [I1 G1].
      destruct (fill_readable _ _ _ _ _ _ _ _ _ _ Hen Hr Ef) as [R1 Hen1].
      assert (S1 := good_slices _ _ _ _ HA G1).
      assert (B1 : bytes_ok b1).
      { eapply fill_bytes; [exact Ef |]. eapply slices_data; [| exact S1]. eapply written_prefix, Hw. }
      destruct (IH c1 q (log ++ i1) (room - blen b1) c2 q2 ((log ++ i1) ++ more) b2 Hp2) as (I2 & its & R2 & B2 & S2 & Z2 & K2);
        [lia | | exact E | exact Hw |].
      { constructor; [exists A, M; auto | apply encodable_named, Hen1 | apply Forall_app; split; [exact He | eapply fill_enc; [exact Hen | exact Hr | exact Ef]] |].
        exists fss. split; [exact Hq | apply forall_slice_more, Hs]. }
      split; [exact I2 |]. exists (i1 ++ its). split; [apply readable_app; assumption |].
      split; [apply Forall_app; auto |]. split; [rewrite sfrs_app; apply Forall_app; split; [apply forall_slice_more, S1 | exact S2] |].
      split; [| apply kept_fill, K2].
      intros id e f Hx. apply in_app_or in Hx. destruct Hx as [Hx | Hx]; [| eapply Z2, Hx].
      apply in_or_app. left. apply in_or_app. right. exact Hx.
    + destruct (copy_frames_spec streams q fss room pos Hp1 Hq) as (b1 & i1 & q1 & fss1 & Ec & Hq1 & R1 & B1 & _ & [U1 U2] & _).
      rewrite Ec in H.
      destruct (build r c q1 log (room - blen b1)) as [[[[c2 q2] log2] b2] |] eqn:E; [| discriminate].
      injection H as <- <- <- <-. destruct (build_log _ _ _ _ _ _ _ _ _ E) as [more ->].
      assert (S1 : Forall (slice cl log) (sfrs_of i1)).
      { apply Forall_forall. intros [[[id off] fin] d] Hx. apply sfrs_in in Hx. destruct (U1 _ Hx) as (id' & off' & fin' & d' & g & X & Hg & Hpi).
        injection X as <- <- <- <-. eapply slice_piece; [| exact Hpi]. rewrite Forall_forall in Hs. apply Hs, Hg. }
      destruct (IH c q1 log (room - blen b1) c2 q2 (log ++ more) b2 Hp2) as (I2 & its & R2 & B2 & S2 & Z2 & K2);
        [lia | | exact E | exact Hw |].
      { constructor; [exists A, M; auto | exact Hn | exact He |].
        exists fss1. split; [exact Hq1 |]. apply Forall_forall. intros f Hf. destruct (U2 _ Hf) as (g & Hg & Hpi).
        eapply slice_piece; [| exact Hpi]. rewrite Forall_forall in Hs. apply Hs, Hg. }
      split; [exact I2 |]. exists (i1 ++ its). split; [apply readable_app; assumption |].
      split; [apply Forall_app; auto |]. split; [rewrite sfrs_app; apply Forall_app; split; [apply forall_slice_more, S1 | exact S2] |].
      split; [| eapply kept_repeat; [exact Hp1 | exact Ec | exact K2]].
      intros id e f Hx. apply in_app_or in Hx. destruct Hx as [Hx | Hx]; [| eapply Z2, Hx].
      destruct (U1 _ Hx) as (id' & off' & fin' & d' & g & X & _). discriminate.
    + set (b1 := again (nth_error log k) room) in *.
      destruct (build r c q log (room - blen b1)) as [[[[c2 q2] log2] b2] |] eqn:E; [| discriminate].
      injection H as <- <- <- <-. destruct (build_log _ _ _ _ _ _ _ _ _ E) as [more ->].
      assert (X : exists its, readable room b1 (frames_of its) /\ bytes_ok b1 /\ sfrs_of its = [] /\ (forall y, In y its -> In y log)).
      { unfold b1. destruct (nth_error log k) as [x |] eqn:En.
        - assert (Hx : In x log) by (eapply nth_error_In, En).
          destruct (again_spec x room) as (its & R & B & S & Y); [rewrite Forall_forall in He; apply He, Hx |].
          exists its. split; [exact R |]. split; [exact B |]. split; [exact S |]. intros y Hy. rewrite (Y y Hy). exact Hx.
        - exists []. split; [apply readable_nil |]. split; [constructor |]. split; [reflexivity | intros y []]. }
      destruct X as (i1 & R1 & B1 & S1 & Z1).
      destruct (IH c q log (room - blen b1) c2 q2 (log ++ more) b2 Hp2) as (I2 & its & R2 & B2 & S2 & Z2 & K2);
        [lia | | exact E | exact Hw |].
      { constructor; [exists A, M; auto | exact Hn | exact He | exists fss; auto]. }
      split; [exact I2 |]. exists (i1 ++ its). split; [apply readable_app; assumption |].
      split; [apply Forall_app; auto |]. split; [rewrite sfrs_app, S1; exact S2 |].
      split; [| apply kept_again, K2].
      intros id e f Hx. apply in_app_or in Hx. destruct Hx as [Hx | Hx]; [| eapply Z2, Hx].
      apply in_or_app. left. apply Z1, Hx.
Qed.
