(** Proofs about the composition of two endpoints, part 1: the STREAM frames of a
    payload are what a receiver gets. *)
From Verif Require Import Base Tac Varint_model Varint_proofs Frames_model Frames_spec Frames_proofs Frames2_proofs
  Frames4_proofs Send_model Send_spec Send3_proofs Repeat_model Repeat_spec.

(** A receiver that notes the STREAM frames and ignores the rest. *)
Definition noted : handlers (list sfr) :=
  mk_h (fun s f => (match f with RStream id off fin d => s ++ [(id, off, fin, d)] | _ => s end, true))
       (fun s _ _ => s) (fun _ _ => true).
Definition noted_opt : options := mk_opt true true true true true true two62 0 0.

Lemma noted_other s b l s' rest : is_stream_type b = false ->
  decode_one noted noted_opt 3 s b l = Continue s' rest -> s' = s.
Proof.
  intros Hb H. unfold decode_one in H. rewrite Hb in H.
  cbv [decode_by_type decode_with decode_negotiated decode_ack decode_new_connection_id decode_retire_connection_id
       decode_new_token decode_path_challenge decode_handshake_done decode_datagram decode_ack_frequency
       decode_immediate_ack decode_time_stamp decode_bdp decode_extension deliver halt_error
       noted h_frame h_error h_path noted_opt o_client o_multipath o_ack_frequency o_time_stamp o_address_discovery o_bdp
       o_max_datagram o_min_ack_delay o_exponent negb andb] in H.
  repeat first
    [ discriminate H
    | injection H as <- _; repeat match goal with |- context [let (_, _) := ?x in _] => destruct x end; reflexivity
    | match type of H with
      | (if ?c then _ else _) = _ => destruct c
      | (match ?x with _ => _ end) = _ => destruct x
      end ].
Qed.

Lemma noted_reads : forall n l s s', (length l <= n)%nat -> bytes_ok l ->
  decode_frames noted noted_opt 3 s l = (s', Some true) -> exists fs, payload_streams l fs /\ s' = s ++ fs.
Proof.
  induction n as [| n IH]; intros l s s' Hn Hok H; destruct l as [| b l].
  1, 3: exists []; rewrite app_nil_r; cbn in H; split; [constructor | congruence].
  - cbn [length] in Hn. lia.
  - rewrite decode_cons in H. destruct (decode_one noted noted_opt 3 s b l) as [s1 | s1 rest] eqn:E; [discriminate |].
    destruct (one_progress _ _ _ _ _ _ _ _ _ E) as (b' & p & Ep).
    assert (Hl : (length rest <= n)%nat).
    { apply (f_equal (@length N)) in Ep. cbn [length] in Ep, Hn. rewrite app_length in Ep. lia. }
    assert (Hr : bytes_ok rest).
    { rewrite Ep in Hok. unfold bytes_ok in *. inversion Hok as [| x y _ H2]; subst x y. apply Forall_app in H2. tauto. }
    destruct (IH rest s1 s' Hl Hr H) as (fs & Hfs & ->).
    destruct (is_stream_type b) eqn:Hb.
    + unfold decode_one in E. rewrite Hb in E. cbn [negb andb N.eqb Pos.eqb epoch_0rtt epoch_1rtt] in E.
      change (3 =? epoch_0rtt) with false in E. change (3 =? epoch_1rtt) with true in E. cbn [negb andb] in E.
      unfold decode_stream in E. destruct (parse_stream b l) as [[[[[id off] fin] d] r]|] eqn:P; [| discriminate].
      destruct (two62 <=? off + blen d); [discriminate |]. cbn in E. injection E as <- <-.
      exists ((id, off, fin, d) :: fs). split; [eapply ps_stream; eassumption |]. rewrite <- app_assoc. reflexivity.
    + exists fs. split; [| f_equal; eapply noted_other; eassumption].
      eapply ps_other; [exact Hb | | exact Hfs]. eapply skip_agrees; [exact Hok | | | exact E]; reflexivity.
Qed.

(** The STREAM frames of a log. *)
Fixpoint sfrs_of (its : list item) : list sfr :=
  match its with
  | [] => []
  | IStream id off fin d :: r => (id, off, fin, d) :: sfrs_of r
  | _ :: r => sfrs_of r
  end.

Lemma sfrs_app a b : sfrs_of (a ++ b) = sfrs_of a ++ sfrs_of b.
Proof. induction a as [| x a IH]; [reflexivity |]. destruct x; cbn [app sfrs_of]; rewrite IH; reflexivity. Qed.

Lemma sfrs_in its id off fin d : In (id, off, fin, d) (sfrs_of its) <-> In (IStream id off fin d) its.
Proof.
  induction its as [| x its IH]; [reflexivity |].
  destruct x; cbn [sfrs_of In]; rewrite IH; split; intros [H | H] || intro H; auto; try discriminate;
    try (injection H as <- <- <- <-; auto); auto; destruct H; try discriminate; auto.
Qed.

Lemma noted_process its : forall s, process noted s (frames_of its) = (s ++ sfrs_of its, true).
Proof.
  induction its as [| x its IH]; intro s; [cbn; rewrite app_nil_r; reflexivity |].
  destruct x; cbn [frames_of process sfrs_of h_frame noted]; try apply IH.
  rewrite IH, <- app_assoc. reflexivity.
Qed.

Lemma readable_streams room b its : readable room b (frames_of its) -> bytes_ok b -> payload_streams b (sfrs_of its).
Proof.
  intros [R1 R2] Hok.
  assert (E := R2 _ noted noted_opt 3 (or_intror eq_refl) (fun s => eq_refl) [] []).
  rewrite app_nil_r in E. specialize (E Hok). cbn [blen] in E.
  assert (L : blen b + blen (@nil N) <= room) by (change (blen (@nil N)) with 0; lia).
  specialize (E L). rewrite noted_process in E. cbn [app] in E.
  change (decode_frames noted noted_opt 3 (sfrs_of its) []) with (sfrs_of its, Some true) in E.
  destruct (noted_reads (length b) b [] _ (le_n _) Hok E) as (fs & F & ->). exact F.
Qed.

Lemma streams_fun l fs : payload_streams l fs -> forall fs', payload_streams l fs' -> fs = fs'.
Proof.
  induction 1 as [| b l id off fin d rest fs Hb Hp H IH | b l rest fs Hb Hs H IH]; intros fs' H'.
  - inversion H'. reflexivity.
  - inversion H' as [| b1 l1 id1 off1 fin1 d1 rest1 fs1 X1 X2 X3 Y1 Y2 | b1 l1 rest1 fs1 X1 X2 X3 Y1 Y2]; subst; [| congruence].
    rewrite Hp in X2. injection X2 as <- <- <- <- <-. f_equal. auto.
  - inversion H' as [| b1 l1 id1 off1 fin1 d1 rest1 fs1 X1 X2 X3 Y1 Y2 | b1 l1 rest1 fs1 X1 X2 X3 Y1 Y2]; subst; [congruence |].
    rewrite Hs in X2. injection X2 as <-. auto.
Qed.
