(** Lemmas about the times of acknowledgements: executions that are computed. *)
From Verif Require Import Base Tac Varint_model Varint_spec Varint_proofs
  Sack_model Sack_spec Sack_proofs Ack_model Ack_spec Ack_proofs Ack2_proofs Delay_model Delay_spec
  Delay_proofs Delay2_proofs Delay3_proofs Delay4_proofs Delay5_proofs.

(** ** Reading a frame *)
Fixpoint vals (n : nat) (b : list N) : list N :=
  match n, b with
  | S n', x :: _ =>
    let k := 2 ^ (x / 64) in
    let p := firstn (N.to_nat k) b in
    be_value p mod 2 ^ (8 * k - 2) :: vals n' (skipn (N.to_nat k) b)
  | _, _ => []
  end.

Fixpoint pairs (l : list N) : list (N * N) :=
  match l with a :: b :: l' => (a, b) :: pairs l' | _ => [] end.

Definition read (bytes : list N) : option (list (N * N)) :=
  match vals (length bytes) bytes with
  | ty :: largest :: delay :: _ :: first :: rest =>
    let blocks := pairs rest in
    let vs := 2 :: largest :: delay :: N.of_nat (length blocks) :: first :: block_numbers blocks in
    if forallb (fun v => v <? two62) vs then
      if list_eq_dec N.eq_dec (flat_map varint_bytes vs) bytes then rfc_ranges largest first blocks else None
    else None
  | _ => None
  end.

Lemma varint_bytes_is : forall v, v < two62 -> is_varint v (varint_bytes v).
Proof.
  intros v Hv. assert (E : frames_varint_encode v 8 = Some (varint_bytes v)).
  { rewrite frames_varint_encode_eq. assert (encode_varint_length v <= 8).
    { unfold encode_varint_length. repeat match goal with |- context [if ?c then _ else _] => destruct c end; lia. }
    apply N.leb_le in H. rewrite H. reflexivity. }
  apply encode_is_varint in E; [apply E|exact Hv].
Qed.

Lemma flat_varints : forall vs, forallb (fun v => v <? two62) vs = true -> varints vs (flat_map varint_bytes vs).
Proof.
  induction vs as [|v vs IH]; intros H; [constructor|]. cbn [forallb flat_map] in *.
  apply andb_true_iff in H. destruct H as [H1 H2]. constructor; [|apply IH; exact H2].
  apply varint_bytes_is. apply N.ltb_lt. exact H1.
Qed.

Lemma read_names : forall bytes rs, read bytes = Some rs -> forall q, names bytes q <-> in_ranges rs q.
Proof.
  intros bytes rs H q. unfold read in H.
  destruct (vals (length bytes) bytes) as [|ty [|largest [|delay [|n [|first rest]]]]]; try discriminate.
  cbv zeta in H. destruct (forallb _ _) eqn:E1; [|discriminate].
  destruct (list_eq_dec _ _ _) as [E2|]; [|discriminate].
  apply flat_varints in E1. rewrite E2 in E1.
  eapply names_iff; [|left; split; reflexivity|exact H].
  unfold ack_frame. cbn [app]. rewrite app_nil_r. exact E1.
Qed.

Lemma in_rangesb_iff : forall rs q, in_rangesb rs q = true <-> in_ranges rs q.
Proof.
  intros rs q. unfold in_rangesb, in_ranges. rewrite existsb_exists. split.
  - intros ((a & b) & Hin & H). apply andb_true_iff in H. cbn [fst snd] in H. exists a, b. split; [exact Hin|lia].
  - intros (a & b & Hin & H). exists (a, b). split; [exact Hin|]. cbn [fst snd]. apply andb_true_iff. split; apply N.leb_le; lia.
Qed.

Definition unnamedb (h : list obs) (q : N) : bool :=
  forallb (fun o => match o with
    | OFrame b _ _ _ => match read b with Some rs => negb (in_rangesb rs q) | None => false end
    | _ => true end) h.

Lemma unnamed_ok : forall h q, unnamedb h q = true -> ~ named h q.
Proof.
  intros h q H (b & m & n & t & Hin & Hn). unfold unnamedb in H. rewrite forallb_forall in H.
  specialize (H _ Hin). cbn beta iota in H. destruct (read b) as [rs|] eqn:E; [|discriminate].
  apply (read_names _ _ E) in Hn. apply in_rangesb_iff in Hn. rewrite Hn in H. discriminate.
Qed.

Definition pframe_eq_dec (a b : pframe) : {a = b} + {a <> b}.
Proof. repeat decide equality. Defined.

Definition obs_eq_dec (a b : obs) : {a = b} + {a <> b}.
Proof. repeat decide equality. Defined.

Definition waitb (h : list obs) (q : N) (fs : list pframe) (t : N) : bool :=
  (if in_dec obs_eq_dec (ORecv q fs t) h then true else false) && existsb elicits fs && unnamedb h q.

Lemma waitb_ok : forall h q fs t, waitb h q fs t = true -> waiting h q t.
Proof.
  intros h q fs t H. unfold waitb in H. apply andb_true_iff in H. destruct H as [H Hu]. apply andb_true_iff in H.
  destruct H as [Hi He]. destruct (in_dec _ _ _) as [Hin|]; [|discriminate]. split.
  - exists fs. split; assumption.
  - apply unnamed_ok. exact Hu.
Qed.

Definition calmb (h : list obs) : bool :=
  forallb (fun o => match o with OFrame _ m n _ => negb m && (n <=? 33)%nat | _ => true end) h.

Lemma calmb_ok : forall h, calmb h = true -> calm h.
Proof.
  intros h H b m n t Hin. unfold calmb in H. rewrite forallb_forall in H. specialize (H _ Hin). cbn beta iota in H.
  apply andb_true_iff in H. destruct H as [A B]. apply negb_true_iff in A. apply Nat.leb_le in B. auto.
Qed.

(** ** Running *)
Inductive ev :=
| EP (pn : N) (fs : list pframe) (t : N)
| EL (c : chance) (t : N)
| ET (v : pathv).

Definition frame_okb (f : pframe) : bool :=
  match f with FFrequency a b c d => (a <? 2 ^ 62) && (b <? 2 ^ 62) && (c <? 2 ^ 62) && (d <? 2 ^ 62) | _ => true end.

Definition recentb (h : list obs) (now : N) : bool := forallb (fun o => otime o <=? now) h.

Definition exec (hs : list obs * dly) (e : ev) : option (list obs * dly) :=
  let '(h, s) := hs in
  match e with
  | EP pn fs t =>
    if (pn <? 2 ^ 62) && forallb frame_okb fs && (t <? 2 ^ 62) && recentb h t then
      match receive s pn fs t with Some (s2, true) => Some (h ++ [ORecv pn fs t], s2) | _ => None end
    else None
  | EL c t =>
    if (t <? 2 ^ 62) && recentb h t then
      let '(s2, bytes, m, _) := poll s c None t max64 in
      match bytes with
      | [] => Some (h, s2)
      | _ => Some (h ++ [OFrame bytes m (length (sl_items (d_sl s))) t], s2)
      end
    else None
  | ET v => if Bool.eqb (v_neg v) (d_neg s) then match tune s v with Some s2 => Some (h, s2) | None => None end else None
  end.

Fixpoint execs (hs : list obs * dly) (es : list ev) : option (list obs * dly) :=
  match es with
  | [] => Some hs
  | e :: es' => match exec hs e with Some hs2 => execs hs2 es' | None => None end
  end.

Lemma recentb_ok : forall h t, recentb h t = true -> recent h t.
Proof. intros h t H o Hin. unfold recentb in H. rewrite forallb_forall in H. apply N.leb_le. apply H. exact Hin. Qed.

Lemma no_ecn : ecn_ok None.
Proof. intros a b c H. discriminate. Qed.

Lemma exec_reach : forall s0 h s e h2 s2, reach s0 h s -> exec (h, s) e = Some (h2, s2) -> reach s0 h2 s2.
Proof.
  intros s0 h s e h2 s2 R H. destruct e as [pn fs t|c t|v]; cbn [exec] in H.
  - destruct ((pn <? 2 ^ 62) && forallb frame_okb fs && (t <? 2 ^ 62) && recentb h t) eqn:E; [|discriminate].
    apply andb_true_iff in E. destruct E as [E E4]. apply andb_true_iff in E. destruct E as [E E3].
    apply andb_true_iff in E. destruct E as [E1 E2].
    destruct (receive s pn fs t) as [[s3 [|]]|] eqn:Er; [|discriminate|discriminate]. inversion H; subst; clear H.
    eapply reach_packet; try eassumption.
    + apply N.ltb_lt. exact E1.
    + apply Forall_forall. intros f Hf. rewrite forallb_forall in E2. specialize (E2 f Hf).
      destruct f; cbn [frame_ok frame_okb] in *; try exact Logic.I.
      rewrite !andb_true_iff, !N.ltb_lt in E2. tauto.
    + apply N.ltb_lt. exact E3.
    + apply recentb_ok. exact E4.
  - destruct ((t <? 2 ^ 62) && recentb h t) eqn:E; [|discriminate]. apply andb_true_iff in E. destruct E as [E1 E2].
    apply N.ltb_lt in E1. apply recentb_ok in E2.
    destruct (poll s c None t max64) as [[[s3 bytes] m] w] eqn:Ep. destruct bytes as [|b0 b]; inversion H; subst; clear H.
    + eapply reach_quiet; [exact R|exact no_ecn|exact E1|exact E2|exact Ep].
    + eapply reach_frame; [exact R|exact no_ecn|exact E1|exact E2|exact Ep|discriminate].
  - destruct (Bool.eqb _ _) eqn:E; [|discriminate]. apply Bool.eqb_prop in E.
    destruct (tune s v) as [s3|] eqn:Et; [|discriminate]. inversion H; subst. eapply reach_tune; eassumption.
Qed.

Lemma execs_reach : forall es s0 h s h2 s2, reach s0 h s -> execs (h, s) es = Some (h2, s2) -> reach s0 h2 s2.
Proof.
  induction es as [|e es IH]; intros s0 h s h2 s2 R H; cbn [execs] in H.
  - inversion H; subst. exact R.
  - destruct (exec (h, s) e) as [[h3 s3]|] eqn:E; [|discriminate]. eapply IH; [|exact H]. eapply exec_reach; eassumption.
Qed.

Lemma run_reach : forall es s0 h s, execs ([], s0) es = Some (h, s) -> reach s0 h s.
Proof. intros es s0 h s H. eapply execs_reach; [apply reach_start|exact H]. Qed.

(** ** The executions *)
Definition plain (nb : N) : dly := dly_init nb false 1000 3 25000.
Definition freq (nb : N) : dly := dly_init nb true 1000 3 25000.

Lemma plain_start : forall nb, start nb false (plain nb).
Proof. intro nb. exists 1000, 3, 25000. reflexivity. Qed.

Lemma freq_start : forall nb, start nb true (freq nb).
Proof. intro nb. exists 1000, 3, 25000. reflexivity. Qed.

(** a witness is checked by computation and then unpacked *)
Definition silent (s : dly) (now : N) : bool :=
  match poll s (CNew 1200) None now max64 with (_, [], _, _) => true | _ => false end.

Lemma silent_ok : forall s now, silent s now = true -> exists s2 m w, poll s (CNew 1200) None now max64 = (s2, [], m, w).
Proof.
  intros s now H. unfold silent in H. destruct (poll s (CNew 1200) None now max64) as [[[s2 b] m] w].
  destruct b; [|discriminate]. exists s2, m, w. reflexivity.
Qed.

Definition run_silent (s0 : dly) (es : list ev) (q : N) (fs : list pframe) (t now : N) : bool :=
  match execs ([], s0) es with
  | Some (h, s) => waitb h q fs t && silent s now
  | None => false
  end.

Lemma run_silent_ok : forall s0 es q fs t now, run_silent s0 es q fs t now = true ->
  exists h s s2 m w, execs ([], s0) es = Some (h, s) /\ reach s0 h s /\ waiting h q t /\ In (ORecv q fs t) h /\
    poll s (CNew 1200) None now max64 = (s2, [], m, w).
Proof.
  intros s0 es q fs t now H. unfold run_silent in H. destruct (execs ([], s0) es) as [[h s]|] eqn:E; [|discriminate].
  apply andb_true_iff in H. destruct H as [H1 H2]. apply silent_ok in H2. destruct H2 as (s2 & m & w & H2).
  exists h, s, s2, m, w. split; [reflexivity|]. split; [eapply run_reach; exact E|].
  split; [eapply waitb_ok; exact H1|]. split; [|exact H2].
  unfold waitb in H1. destruct (in_dec _ _ _) as [Hin|]; [exact Hin|discriminate].
Qed.

Lemma immediate_last : exists nb s0 h s pn fs t s2 m w,
  start nb true s0 /\ reach s0 h s /\ waiting h pn t /\ In (ORecv pn fs t) h /\ In FImmediate fs /\
  poll s (CNew 1200) None t max64 = (s2, [], m, w).
Proof.
  destruct (run_silent_ok (freq 0) [EP 0 [FElicit; FImmediate] 5000] 0 [FElicit; FImmediate] 5000 5000)
    as (h & s & s2 & m & w & _ & R & W & Hin & P); [vm_compute; reflexivity|].
  exists 0, (freq 0), h, s, 0, [FElicit; FImmediate], 5000, s2, m, w.
  split; [apply freq_start|]. refine (conj R (conj W (conj Hin (conj _ P)))). right. left. reflexivity.
Qed.

Lemma immediate_pending : exists nb s0 h s pn t s2 m w,
  start nb true s0 /\ reach s0 h s /\ waiting h pn t /\ In (ORecv pn [FImmediate; FElicit] t) h /\
  poll s (CNew 1200) None t max64 = (s2, [], m, w).
Proof.
  destruct (run_silent_ok (freq 0) [EP 0 [FElicit] 5000; EP 1 [FImmediate; FElicit] 5000] 1 [FImmediate; FElicit] 5000 5000)
    as (h & s & s2 & m & w & _ & R & W & Hin & P); [vm_compute; reflexivity|].
  exists 0, (freq 0), h, s, 1, 5000, s2, m, w.
  split; [apply freq_start|]. exact (conj R (conj W (conj Hin P))).
Qed.

Lemma first_two : exists nb s0 h s t s2 m w,
  start nb false s0 /\ reach s0 h s /\ waiting h 0 t /\ waiting h 1 t /\
  (exists h0, h = h0 ++ [ORecv 0 [FElicit] t]) /\
  poll s (CNew 1200) None t max64 = (s2, [], m, w).
Proof.
  assert (C : match execs ([], plain 0) [EP 1 [FElicit] 5000; EP 0 [FElicit] 5000] with
    | Some (h, s) => waitb h 0 [FElicit] 5000 && waitb h 1 [FElicit] 5000 && silent s 5000
    | None => false end = true) by (vm_compute; reflexivity).
  destruct (execs _ _) as [[h s]|] eqn:E; [|discriminate].
  apply andb_true_iff in C. destruct C as [C C3]. apply andb_true_iff in C. destruct C as [C1 C2].
  apply silent_ok in C3. destruct C3 as (s2 & m & w & C3).
  exists 0, (plain 0), h, s, 5000, s2, m, w. split; [apply plain_start|]. split; [eapply run_reach; exact E|].
  split; [eapply waitb_ok; exact C1|]. split; [eapply waitb_ok; exact C2|]. split; [|exact C3].
  exists [ORecv 1 [FElicit] 5000]. vm_compute in E. inversion E. reflexivity.
Qed.

(** forty packets with holes between them *)
Definition holes : list ev := map (fun k => EP (2 * N.of_nat k) [FElicit] 5000) (seq 0 40) ++ [EL (CNew 1200) 5000].

Lemma forgotten : exists nb s0 h s t,
  start nb false s0 /\ reach s0 h s /\ waiting h 70 t /\
  forall room ecn now wake, poll s (CNew room) ecn now wake = (s, [], false, wake).
Proof.
  assert (C : match execs ([], plain 0) holes with
    | Some (h, s) => waitb h 70 [FElicit] 5000 && negb (d_needed s) && negb (u64 (d_high s + 8) <=? sack_list_last (d_sl s))
    | None => false end = true) by (vm_compute; reflexivity).
  destruct (execs _ _) as [[h s]|] eqn:E; [|discriminate].
  apply andb_true_iff in C. destruct C as [C C3]. apply andb_true_iff in C. destruct C as [C1 C2].
  apply negb_true_iff in C2. apply negb_true_iff in C3.
  exists 0, (plain 0), h, s, 5000. split; [apply plain_start|]. split; [eapply run_reach; exact E|].
  split; [eapply waitb_ok; exact C1|].
  intros room ecn now wake. cbn [poll]. unfold is_ack_needed. rewrite C2, C3. reflexivity.
Qed.

Lemma ack_of_acks : exists nb s0 h s now s2 bytes m w,
  start nb false s0 /\ reach s0 h s /\
  (forall q fs t, In (ORecv q fs t) h -> existsb elicits fs = false) /\
  poll s (CNew 1200) None now max64 = (s2, bytes, m, w) /\ bytes <> [].
Proof.
  assert (C : match execs ([], plain 0) (map (fun k => EP (N.of_nat k) [FQuiet] 5000) (seq 0 9)) with
    | Some (h, s) => forallb (fun o => match o with ORecv _ fs _ => negb (existsb elicits fs) | _ => true end) h && negb (silent s 5000)
    | None => false end = true) by (vm_compute; reflexivity).
  destruct (execs _ _) as [[h s]|] eqn:E; [|discriminate]. apply andb_true_iff in C. destruct C as [C1 C2].
  destruct (poll s (CNew 1200) None 5000 max64) as [[[s2 b] m] w] eqn:P.
  exists 0, (plain 0), h, s, 5000, s2, b, m, w. split; [apply plain_start|]. split; [eapply run_reach; exact E|].
  split; [|split; [exact P|]].
  - intros q fs t Hin. rewrite forallb_forall in C1. specialize (C1 _ Hin). cbn beta iota in C1.
    apply negb_true_iff in C1. exact C1.
  - intro X. subst b. unfold silent in C2. rewrite P in C2. discriminate.
Qed.

(** round trip of 100 ms, 5 ms announced *)
Definition far : pathv := mk_pathv false 100000 1252 100000 100000 true false 1000000 1000000.

Lemma announced : exists s0 h s pn t s2 m w,
  s0 = dly_init 200 false 1000 3 5000 /\ reach s0 h s /\ waiting h pn t /\
  poll s (CNew 1200) None (t + 9999) max64 = (s2, [], m, w) /\ w = t + 10000.
Proof.
  assert (C : match execs ([], dly_init 200 false 1000 3 5000) [ET far; EP 0 [FElicit] 5000] with
    | Some (h, s) => waitb h 0 [FElicit] 5000 &&
        match poll s (CNew 1200) None 14999 max64 with (_, [], _, w) => w =? 15000 | _ => false end
    | None => false end = true) by (vm_compute; reflexivity).
  destruct (execs _ _) as [[h s]|] eqn:E; [|discriminate]. apply andb_true_iff in C. destruct C as [C1 C2].
  destruct (poll s (CNew 1200) None 14999 max64) as [[[s2 b] m] w] eqn:P. destruct b; [|discriminate].
  exists (dly_init 200 false 1000 3 5000), h, s, 0, 5000, s2, m, w. split; [reflexivity|].
  split; [eapply run_reach; exact E|]. split; [eapply waitb_ok; exact C1|]. split; [exact P|]. apply N.eqb_eq. exact C2.
Qed.
