(** Proofs about the repetition of lost frames: whole packets. *)
From Verif Require Import Base Tac Varint_model Varint_spec Varint_proofs Sack_model Sack_spec Ack_model Ack_spec Ack_proofs Frames_model
  Frames_spec Frames_proofs Frames2_proofs Frames3_proofs Frames4_proofs Frames5_proofs Header_model Send_model Stream_model Needs_model Needs_spec
  Needs_proofs Needs2_proofs Needs3_proofs.


Lemma payload_bytes : forall fs l, payload fs l -> bytes_ok l.
Proof.
  intros fs l H. induction H as [|f fs b l Hok Hs Hp IH Hl Hn]; [constructor|].
  destruct (skip_sent f b l Hok Hs IH) as (_ & Hb & _).
  - intros sid off fin d E. rewrite (Hl _ _ _ _ E) in Hp. inversion Hp. reflexivity.
  - exact Hn.
  - apply Forall_app. split; assumption.
Qed.

Lemma payload_step : forall f fs b l, sframe_ok f -> sent_as f b -> payload fs l ->
    (forall sid off fin d, f = SStream true sid off fin d -> fs = []) ->
    (forall t n, f = SRun t n -> hd_error l <> Some t) ->
  b <> [] /\ bytes_ok b /\ skip_frame (b ++ l) = (Ok l, pure_of f).
Proof.
  intros f fs b l Hok Hs Hp Hl Hn. apply skip_sent; try assumption.
  - eapply payload_bytes. exact Hp.
  - intros sid off fin d E. rewrite (Hl _ _ _ _ E) in Hp. inversion Hp. reflexivity.
Qed.

Lemma firstn_frame : forall b rest : list N, firstn (length (b ++ rest) - length rest) (b ++ rest) = b.
Proof.
  intros b rest. rewrite app_length. replace (length b + length rest - length rest)%nat with (length b) by lia.
  rewrite firstn_app, Nat.sub_diag, firstn_all. cbn [firstn]. apply app_nil_r.
Qed.

Ltac small_head Hw := cbn [app] in Hw; match type of Hw with _ :: _ = _ :: _ =>
  apply (f_equal (hd 0)) in Hw; cbn [hd] in Hw; rewrite <- Hw; reflexivity end.
Ltac ext_h Hx Hw := match type of Hw with varint_bytes ?t ++ ?m = _ =>
  lazymatch t with (if _ then _ else _) => fail | _ => idtac end;
  apply (Hx t m); [first [left; vm_compute; discriminate | right; reflexivity]|exact Hw] end.

Lemma head_stream : forall f b x l, sframe_ok f -> sent_as f b -> b = x :: l ->
  is_stream_type x = is_stream f /\
  (is_stream f = true -> (N.land x 2 =? 0) = match f with SStream last _ _ _ _ => last | _ => false end).
Proof.
  intros f b x l Hok Hs E. destruct f as [w|last sid off fin d|ecn path lg dl fi bl ct|t n]; cbn [is_stream].
  - split; [|discriminate]. destruct Hs as (room & Hw). apply sent_ctl in Hw. rewrite E in Hw. symmetry in Hw.
    assert (Hx : forall t m, (64 <= hd 0 (varint_bytes t) \/ hd 0 (varint_bytes t) = 31) -> varint_bytes t ++ m = x :: l ->
       is_stream_type x = false).
    { intros t m Hh Ht. rewrite <- (ext_head _ _ _ _ Ht) in Hh.
      destruct (is_stream_type x) eqn:Es; [|reflexivity]. apply stream_type_range in Es. lia. }
    destruct w; cbn [frame_bytes] in Hw; cbv zeta in Hw; repeat rewrite <- app_assoc in Hw;
      try (small_head Hw); try (ext_h Hx Hw).
    + destruct unidir; small_head Hw.
    + destruct unidir; small_head Hw.
    + destruct path_id; repeat rewrite <- app_assoc in Hw; [ext_h Hx Hw|small_head Hw].
    + destruct path_id; repeat rewrite <- app_assoc in Hw; [ext_h Hx Hw|small_head Hw].
    + rewrite <- (app_nil_r (varint_bytes ft_immediate_ack)) in Hw. ext_h Hx Hw.
    + destruct available; ext_h Hx Hw.
    + destruct v6; ext_h Hx Hw.
  - destruct (parse_sent last sid off fin d b [] Hok Hs) as (_ & b0 & m & E2 & Hst & H2 & _); [constructor|auto|].
    rewrite app_nil_r, E in E2. injection E2 as -> ->. auto.
  - split; [|discriminate]. destruct Hs as (p & -> & _). unfold ack_type in E.
    destruct path; [|destruct ecn]; cbn [app] in E; injection E as <- _; reflexivity.
  - split; [|discriminate]. cbn [sent_as sframe_ok] in *. subst b. cbn [repeat] in E. injection E as <- _.
    destruct Hok as [->| ->]; reflexivity.
Qed.


Lemma bytes_of_cons : forall f fs b l, sent_as f b -> bytes_of fs l -> bytes_of (f :: fs) (b ++ l).
Proof. intros f fs b l H (bs & H1 & ->). exists (b :: bs). split; [constructor; assumption|reflexivity]. Qed.

Lemma cond_eq : forall c pt f b, sframe_ok f -> sent_as f b ->
  (if pure_of f then Some (true, true) else check_needs c pt b) =
  Some (true, if pure_of f then true else no_need c pt f).
Proof.
  intros c pt f b Hok Hs. destruct (pure_of f) eqn:E; [reflexivity|]. apply check_sent; assumption.
Qed.

Lemma copy_payload : forall c pt force room fs l, conn_ok c -> carries_frames pt -> payload fs l ->
  forall fuel acc, (length l <= fuel)%nat -> blen (cf_bytes acc) <= room ->
  exists kept queued b qs stream,
    copy_lost fuel c pt force room l acc =
      COk (mk_cf (cf_bytes acc ++ b) (cf_queued acc ++ qs) (cf_stream acc || stream)) /\
    bytes_of kept b /\ Forall2 sent_as queued qs /\ blen (cf_bytes acc ++ b) <= room /\
    (force = true -> kept = []) /\
    (forall f, In f kept \/ In f queued -> In f fs /\ is_stream f = false) /\
    (stream = true -> exists f, In f fs /\ is_stream f = true) /\
    (forall f, In f fs -> loss_handled f -> needed c pt f ->
      if is_stream f then stream = true else In f kept \/ In f queued).
Proof.
  intros c pt force room fs l Hc Hpt H. induction H as [|f fs b l Hok Hs Hp IH Hl Hn]; intros fuel acc Hf Hr.
  { exists [], [], [], [], false. cbn [copy_lost]. destruct fuel; cbn [copy_lost].
    all: rewrite !app_nil_r, orb_false_r; split; [destruct acc; reflexivity|]; split; [exists []; split; [constructor|reflexivity]|];
         split; [constructor|]; split; [exact Hr|]; split; [reflexivity|]; split; [intros f [[]|[]]|];
         split; [discriminate|]; intros f []. }
  destruct (payload_step f fs b l Hok Hs Hp Hl Hn) as (Hne & Hb & Hsk).
  destruct b as [|x b]; [congruence|]. set (fb := x :: b) in *.
  assert (Hfl : exists fuel', fuel = S fuel' /\ (length l <= fuel')%nat).
  { rewrite app_length in Hf. unfold fb in Hf. cbn [length] in Hf. destruct fuel; [lia|]. exists fuel. split; [reflexivity|lia]. }
  destruct Hfl as (fuel' & -> & Hf'). change (fb ++ l) with (x :: b ++ l) at 1. cbn [copy_lost].
  change (x :: b ++ l) with (fb ++ l). rewrite Hsk. rewrite firstn_frame.
  rewrite cond_eq by assumption.
  destruct (head_stream f fb x b Hok Hs eq_refl) as [Hst _]. rewrite Hst.
  assert (Hneed : loss_handled f -> needed c pt f -> (if pure_of f then true else no_need c pt f) = false).
  { intros H1 H2. destruct (needed_checked c pt f Hc Hpt Hok H1 H2) as [H3 H4]. rewrite H3. exact H4. }
  destruct (if pure_of f then true else no_need c pt f) eqn:En.
  - (* not repeated *)
    destruct (IH fuel' acc Hf' Hr) as (kept & queued & nb & qs & st & E & A1 & A2 & A3 & A4 & A5 & A6 & A7).
    exists kept, queued, nb, qs, st. split; [exact E|]. split; [exact A1|]. split; [exact A2|]. split; [exact A3|].
    split; [exact A4|]. split; [intros g Hg; destruct (A5 g Hg); split; [right; assumption|assumption]|].
    split; [intro Hx; destruct (A6 Hx) as (g & ? & ?); exists g; split; [right; assumption|assumption]|].
    intros g [<-|Hg] H1 H2; [specialize (Hneed H1 H2); discriminate|]. apply A7; assumption.
  - destruct (is_stream f) eqn:Ef.
    + (* a STREAM frame *)
      destruct (IH fuel' (mk_cf (cf_bytes acc) (cf_queued acc) true) Hf' Hr)
        as (kept & queued & nb & qs & st & E & A1 & A2 & A3 & A4 & A5 & A6 & A7). cbn [cf_bytes cf_queued cf_stream] in *.
      exists kept, queued, nb, qs, true. rewrite orb_true_r. split; [exact E|].
      split; [exact A1|]. split; [exact A2|]. split; [exact A3|].
      split; [exact A4|]. split; [intros g Hg; destruct (A5 g Hg); split; [right; assumption|assumption]|].
      split; [intros _; exists f; split; [left; reflexivity|exact Ef]|].
      intros g [<-|Hg] H1 H2; [rewrite Ef; reflexivity|]. specialize (A7 g Hg H1 H2).
      destruct (is_stream g); [reflexivity|exact A7].
    + destruct (force || (room - blen (cf_bytes acc) <? blen fb)) eqn:Eq.
      * (* queued *)
        destruct (IH fuel' (mk_cf (cf_bytes acc) (cf_queued acc ++ [fb]) (cf_stream acc)) Hf' Hr)
          as (kept & queued & nb & qs & st & E & A1 & A2 & A3 & A4 & A5 & A6 & A7). cbn [cf_bytes cf_queued cf_stream] in *.
        exists kept, (f :: queued), nb, (fb :: qs), st. rewrite <- app_assoc in E. split; [exact E|].
        split; [exact A1|]. split; [constructor; assumption|]. split; [exact A3|]. split; [exact A4|].
        split. { intros g [Hg|[<-|Hg]]; [destruct (A5 g (or_introl Hg)); split; [right; assumption|assumption]
                                        |split; [left; reflexivity|exact Ef]
                                        |destruct (A5 g (or_intror Hg)); split; [right; assumption|assumption]]. }
        split; [intro Hx; destruct (A6 Hx) as (g & ? & ?); exists g; split; [right; assumption|assumption]|].
        intros g [<-|Hg] H1 H2; [rewrite Ef; right; left; reflexivity|]. specialize (A7 g Hg H1 H2).
        destruct (is_stream g); [exact A7|]. destruct A7 as [?|?]; [left; assumption|right; right; assumption].
      * (* copied *)
        apply orb_false_elim in Eq. destruct Eq as [Eq1 Eq2].
        assert (Hr2 : blen (cf_bytes acc ++ fb) <= room).
        { rewrite blen_app. assert (1 <= blen fb) by (unfold fb, blen; cbn [length]; lia). lia. }
        destruct (IH fuel' (mk_cf (cf_bytes acc ++ fb) (cf_queued acc) (cf_stream acc)) Hf' Hr2)
          as (kept & queued & nb & qs & st & E & A1 & A2 & A3 & A4 & A5 & A6 & A7). cbn [cf_bytes cf_queued cf_stream] in *.
        exists (f :: kept), queued, (fb ++ nb), qs, st. rewrite <- app_assoc in E, A3. split; [exact E|].
        split; [apply bytes_of_cons; assumption|]. split; [exact A2|]. split; [exact A3|].
        split; [rewrite Eq1; discriminate|].
        split. { intros g [[<-|Hg]|Hg]; [split; [left; reflexivity|exact Ef]
                                        |destruct (A5 g (or_introl Hg)); split; [right; assumption|assumption]
                                        |destruct (A5 g (or_intror Hg)); split; [right; assumption|assumption]]. }
        split; [intro Hx; destruct (A6 Hx) as (g & ? & ?); exists g; split; [right; assumption|assumption]|].
        intros g [<-|Hg] H1 H2; [rewrite Ef; left; left; reflexivity|]. specialize (A7 g Hg H1 H2).
        destruct (is_stream g); [exact A7|]. destruct A7 as [?|?]; [left; right; assumption|right; assumption].
Qed.

Lemma copy_packet : forall c pt force room fs l, conn_ok c -> carries_frames pt -> payload fs l ->
  exists kept queued b qs stream,
    copy_before_retransmit c pt false force room l = COk (mk_cf b qs stream) /\
    bytes_of kept b /\ Forall2 sent_as queued qs /\ blen b <= room /\
    (force = true -> kept = []) /\
    (forall f, In f kept \/ In f queued -> In f fs /\ is_stream f = false) /\
    (stream = true -> exists f, In f fs /\ is_stream f = true) /\
    (forall f, In f fs -> loss_handled f -> needed c pt f ->
      if is_stream f then stream = true else In f kept \/ In f queued).
Proof.
  intros c pt force room fs l Hc Hpt H. unfold copy_before_retransmit.
  apply (copy_payload c pt force room fs l Hc Hpt H (S (length l)) (mk_cf [] [] false)); [lia|]. cbn. lia.
Qed.

(** Preemptive repetition. *)

Lemma holds_app : forall f nb x, holds f nb -> holds f (nb ++ x).
Proof.
  intros f nb x (pre & b & post & -> & H). exists pre, b, (post ++ x). split; [repeat rewrite <- app_assoc; reflexivity|exact H].
Qed.

Lemma preempt_payload : forall c pt room fs l, conn_ok c -> carries_frames pt -> payload fs l ->
  forall fuel acc, (length l <= fuel)%nat -> blen (pr_bytes acc) <= room ->
  exists r x, preempt_loop fuel c pt room l acc = POk r /\ pr_bytes r = pr_bytes acc ++ x /\ blen (pr_bytes r) <= room /\
    (pr_repeated r = true -> pr_repeated acc = true /\
      forall f, In f fs -> loss_handled f -> needed c pt f -> holds f (pr_bytes r) /\
        (forall sid off fin d, f = SStream true sid off fin d ->
           blen (pr_bytes r) = room /\ exists pre b, pr_bytes r = pre ++ b /\ sent_as f b)).
Proof.
  intros c pt room fs l Hc Hpt H. induction H as [|f fs b l Hok Hs Hp IH Hl Hn]; intros fuel acc Hf Hr.
  { exists acc, []. rewrite app_nil_r. destruct fuel; cbn [preempt_loop]; (split; [reflexivity|]; split; [reflexivity|];
    split; [exact Hr|]; intro Hx; split; [exact Hx|intros f []]). }
  destruct (payload_step f fs b l Hok Hs Hp Hl Hn) as (Hne & Hb & Hsk).
  destruct b as [|x b]; [congruence|]. set (fb := x :: b) in *.
  assert (Hfl : exists fuel', fuel = S fuel' /\ (length l <= fuel')%nat).
  { rewrite app_length in Hf. unfold fb in Hf. cbn [length] in Hf. destruct fuel; [lia|]. exists fuel. split; [reflexivity|lia]. }
  destruct Hfl as (fuel' & -> & Hf'). change (fb ++ l) with (x :: b ++ l) at 1. cbn [preempt_loop].
  change (x :: b ++ l) with (fb ++ l). rewrite Hsk. rewrite firstn_frame.
  rewrite cond_eq by assumption. cbv zeta.
  destruct (head_stream f fb x b Hok Hs eq_refl) as [Hst Hst2]. rewrite Hst.
  assert (Hneed : loss_handled f -> needed c pt f -> (if pure_of f then true else no_need c pt f) = false).
  { intros H1 H2. destruct (needed_checked c pt f Hc Hpt Hok H1 H2) as [H3 H4]. rewrite H3. exact H4. }
  destruct (if pure_of f then true else no_need c pt f) eqn:En.
  - match goal with |- context [preempt_loop fuel' c pt room l ?a] => destruct (IH fuel' a Hf' Hr) as (r & y & E & A1 & A2 & A3) end.
    cbn [pr_bytes pr_repeated] in *. exists r, y. split; [exact E|]. split; [exact A1|]. split; [exact A2|].
    intro Hx. destruct (A3 Hx) as [A4 A5]. split; [exact A4|]. intros g [<-|Hg] H1 H2; [specialize (Hneed H1 H2); discriminate|].
    apply A5; assumption.
  - set (padded := if is_stream f && (N.land x 2 =? 0) && (blen (pr_bytes acc) + blen fb <? room)
                   then pr_bytes acc ++ repeat 0 (N.to_nat (room - blen (pr_bytes acc) - blen fb)) else pr_bytes acc).
    assert (Hpad : exists z, padded = pr_bytes acc ++ z /\ blen padded <= room /\
       (forall sid off fin d, f = SStream true sid off fin d -> blen padded + blen fb <= room -> blen padded + blen fb = room)).
    { unfold padded. destruct (is_stream f && (N.land x 2 =? 0) && (blen (pr_bytes acc) + blen fb <? room)) eqn:Ep.
      - eexists. split; [reflexivity|]. apply andb_prop in Ep. destruct Ep as [_ Ep]. apply N.ltb_lt in Ep.
        assert (Eb : blen (pr_bytes acc ++ repeat 0 (N.to_nat (room - blen (pr_bytes acc) - blen fb))) = room - blen fb).
        { rewrite blen_app. unfold blen at 2. rewrite repeat_length. lia. }
        rewrite Eb. split; [lia|]. intros. lia.
      - exists []. rewrite app_nil_r. split; [reflexivity|]. split; [exact Hr|]. intros sid off fin d Ef Hle.
        rewrite Ef in Ep, Hst2. cbn [is_stream] in Ep, Hst2. rewrite Hst2 in Ep by reflexivity. cbn [andb] in Ep. lia. }
    destruct Hpad as (z & Hz & Hpl & Hpf). clearbody padded.
    destruct (blen padded + blen fb <=? room) eqn:Ele.
    + assert (Hr2 : blen (padded ++ fb) <= room) by (rewrite blen_app; lia).
      match goal with |- context [preempt_loop fuel' c pt room l ?a] => destruct (IH fuel' a Hf' Hr2) as (r & y & E & A1 & A2 & A3) end.
      cbn [pr_bytes pr_repeated] in *. exists r, (z ++ fb ++ y). split; [exact E|].
      split. { rewrite A1, Hz. repeat rewrite <- app_assoc. reflexivity. }
      split; [exact A2|]. intro Hx. destruct (A3 Hx) as [A4 A5]. split; [exact A4|].
      intros g [<-|Hg] H1 H2; [|apply A5; assumption]. split.
      * rewrite A1. exists padded, fb, y. split; [rewrite <- app_assoc; reflexivity|exact Hs].
      * intros sid off fin d Ef. pose proof (Hl _ _ _ _ Ef) as ->. inversion Hp; subst l.
        assert (Ey : y = []).
        { destruct fuel'; cbn [preempt_loop] in E; injection E as <-; cbn [pr_bytes] in A1;
            rewrite <- (app_nil_r (padded ++ fb)) in A1 at 1; apply app_inv_head in A1; congruence. }
        subst y. rewrite A1, app_nil_r. split; [|exists padded, fb; split; [reflexivity|exact Hs]].
        rewrite blen_app. eapply Hpf; [exact Ef|lia].
    + match goal with |- context [preempt_loop fuel' c pt room l ?a] => destruct (IH fuel' a Hf' Hpl) as (r & y & E & A1 & A2 & A3) end.
      cbn [pr_bytes pr_repeated] in *. exists r, (z ++ y). split; [exact E|].
      split. { rewrite A1, Hz. repeat rewrite <- app_assoc. reflexivity. }
      split; [exact A2|]. intro Hx. destruct (A3 Hx) as [A4 _]. discriminate.
Qed.

Lemma preemptive_packet : forall c pt room fs l, conn_ok c -> carries_frames pt -> payload fs l ->
  exists nb marked, preemptive_retransmit c pt room l = Some (nb, marked) /\ blen nb <= room /\
    (marked = true -> forall f, In f fs -> loss_handled f -> needed c pt f -> holds f nb /\
      (forall sid off fin d, f = SStream true sid off fin d -> blen nb = room /\ exists pre b, nb = pre ++ b /\ sent_as f b)).
Proof.
  intros c pt room fs l Hc Hpt H. unfold preemptive_retransmit.
  destruct (preempt_payload c pt room fs l Hc Hpt H (S (length l)) (mk_pre [] true false false)) as (r & x & E & A1 & A2 & A3);
    [lia|cbn; lia|].
  rewrite E. destruct (pr_data r); [destruct (pr_needed r)|].
  - exists (pr_bytes r), (pr_repeated r). split; [reflexivity|]. split; [exact A2|]. intro Hm. apply A3, Hm.
  - exists [], false. split; [reflexivity|]. split; [cbn; lia|discriminate].
  - exists [], false. split; [reflexivity|]. split; [cbn; lia|discriminate].
Qed.
