(** The parser of data streams, seen byte by byte. *)
From Verif Require Import Base Tac Mem Mem_proofs Varint_spec Varint_model Varint_proofs Qpack_model H3_model H3_spec.

(** ** Numbers *)

Lemma skip_len : forall b, b < 256 -> H3_model.varint_skip b = varint_len b.
Proof.
  intros b B. exact (decode_varint_length_eq b B).
Qed.

Lemma skip_cases : forall b, b < 256 -> H3_model.varint_skip b = 1 \/ H3_model.varint_skip b = 2 \/
  H3_model.varint_skip b = 4 \/ H3_model.varint_skip b = 8.
Proof. intros b B. rewrite skip_len by exact B. apply varint_len_cases. Qed.

Lemma tail_loop : forall n l v, varint_tail n l v = match be_loop n v l with Some (w, _) => Ret w | None => Undef end.
Proof.
  induction n as [| n IH]; intros l v; cbn [varint_tail be_loop]; [reflexivity |].
  destruct l as [| b l]; [reflexivity | apply IH].
Qed.

Lemma decode_number : forall p r v, is_varint v p -> bytes_ok r -> H3_model.varint_decode (p ++ r) (blen p) = Ret v.
Proof.
  intros p r v V O. pose proof (is_varint_decode v p r V O) as H.
  pose proof V as (c & C1 & C2 & C3 & C4 & Ok).
  destruct p as [| b p].
  { exfalso. rewrite blen_nil in C2. pose proof (N.pow_nonzero 2 c). lia. }
  assert (B : b < 256) by (inversion Ok; assumption).
  unfold frames_varint_decode, frames_varint_decode_o in H. cbn [app] in H.
  unfold H3_model.varint_decode. cbn [app]. rewrite skip_len by exact B.
  destruct (varint_len b <=? blen (b :: p ++ r)) eqn:T; [| discriminate].
  rewrite tail_loop. replace (N.to_nat (varint_len b) - 1)%nat with (N.to_nat (varint_len b - 1)) by lia.
  destruct (be_loop (N.to_nat (varint_len b - 1)) (N.land b 63) (p ++ r)) as [[w r'] |] eqn:E; [| discriminate].
  injection H as -> ->.
  replace (blen (b :: p) <? varint_len b) with false; [reflexivity |].
  destruct (be_loop_some (N.to_nat (varint_len b - 1)) (N.land b 63) (p ++ r)) as (w & E2).
  { rewrite blen_cons, blen_app in T. unfold blen in T. rewrite app_length. lia. }
  rewrite E in E2. apply some_pair_inj in E2. destruct E2 as [_ E2].
  apply (f_equal (@length N)) in E2. rewrite skipn_length, app_length in E2.
  rewrite blen_cons, blen_app in T. unfold blen in *. cbn [length]. pose proof (varint_len_cases b). lia.
Qed.

Lemma varint_first : forall v p, is_varint v p -> exists b q, p = b :: q /\ b < 256 /\ blen p = varint_len b.
Proof.
  intros v p V. pose proof (is_varint_decode v p [] V ltac:(constructor)) as H. rewrite app_nil_r in H.
  pose proof V as (c & C1 & C2 & C3 & C4 & Ok).
  destruct p as [| b p].
  { exfalso. rewrite blen_nil in C2. pose proof (N.pow_nonzero 2 c). lia. }
  exists b, p. split; [reflexivity |]. inversion Ok; subst. split; [assumption |].
  unfold frames_varint_decode, frames_varint_decode_o in H.
  destruct (varint_len b <=? blen (b :: p)) eqn:T; [| discriminate].
  destruct (be_loop_some (N.to_nat (varint_len b - 1)) (N.land b 63) p) as (w & E2).
  { rewrite blen_cons in T. unfold blen in T. lia. }
  rewrite E2 in H. apply some_pair_inj in H. destruct H as [_ H]. apply (f_equal (@length N)) in H. rewrite skipn_length in H. cbn [length] in H.
  rewrite blen_cons in *. unfold blen in *. pose proof (varint_len_cases b). lia.
Qed.

(** A string of bytes of the length that its first byte tells is a number. *)
Lemma number_of : forall b q, bytes_ok (b :: q) -> blen (b :: q) = varint_len b -> exists v, is_varint v (b :: q).
Proof.
  intros b q O L. unfold blen in L.
  assert (H : exists v r, frames_varint_decode (b :: q) = Some (v, r) /\ r = []).
  { unfold frames_varint_decode, frames_varint_decode_o.
    replace (varint_len b <=? blen (b :: q)) with true by (unfold blen; lia).
    destruct (be_loop_some (N.to_nat (varint_len b - 1)) (N.land b 63) q) as (w & E2); [cbn [length] in L; lia |].
    rewrite E2. eexists _, _. split; [reflexivity |]. apply skipn_all2. cbn [length] in L. lia. }
  destruct H as (v & r & H & ->). apply varint_decode_iff in H; [| exact O].
  destruct H as (p & E & V). rewrite app_nil_r in E. subst p. exists v. exact V.
Qed.

Lemma varint_bound : forall v p, is_varint v p -> v < two62.
Proof.
  intros v p (c & C1 & C2 & C3 & C4 & Ok).
  assert (K : c = 0 \/ c = 1 \/ c = 2 \/ c = 3) by lia.
  destruct K as [-> | [-> | [-> | ->]]];
    match type of C3 with _ < 2 ^ ?e => let x := eval vm_compute in (2 ^ e) in change (2 ^ e) with x in C3 end;
    unfold two62; lia.
Qed.

(** ** The beginning of a frame *)

Definition head (p : list N) : option (N * N) :=
  match frames_varint_decode p with
  | Some (ty, r) => match frames_varint_decode r with Some (n, _) => Some (ty, n) | None => None end
  | None => None
  end.

Lemma decode_short : forall l, bytes_ok l -> (frames_varint_decode l = None <->
  match l with [] => True | b :: _ => blen l < varint_len b end).
Proof.
  intros l O. unfold frames_varint_decode. pose proof (frames_varint_decode_o_not_UB l) as U.
  unfold frames_varint_decode_o in *. destruct l as [| b l]; [tauto |].
  destruct (varint_len b <=? blen (b :: l)) eqn:T.
  - destruct (be_loop _ _ _) as [x |]; [| congruence]. split; [discriminate | lia].
  - split; [lia | reflexivity].
Qed.

Lemma head_of : forall ty n a b r, is_varint ty a -> is_varint n b -> bytes_ok r -> head (a ++ b ++ r) = Some (ty, n).
Proof.
  intros ty n a b r A B O. unfold head.
  assert (Ob : bytes_ok b) by (destruct B as (? & _ & _ & _ & _ & X); exact X).
  rewrite (is_varint_decode ty a (b ++ r) A) by (apply Forall_app; split; assumption).
  rewrite (is_varint_decode n b r B O). reflexivity.
Qed.

Lemma head_inv : forall p ty n, bytes_ok p -> head p = Some (ty, n) -> exists a b r, p = a ++ b ++ r /\ is_varint ty a /\ is_varint n b.
Proof.
  intros p ty n O H. unfold head in H.
  destruct (frames_varint_decode p) as [[t r] |] eqn:E; [| discriminate].
  apply varint_decode_iff in E; [| exact O]. destruct E as (a & -> & A).
  apply Forall_app in O. destruct O as [_ O].
  destruct (frames_varint_decode r) as [[m r'] |] eqn:E; [| discriminate].
  apply varint_decode_iff in E; [| exact O]. destruct E as (b & -> & B). injection H as -> ->.
  exists a, b, r'. repeat split; assumption.
Qed.

(** One more byte completes a beginning without excess. *)
Lemma head_exact : forall p c ty n, bytes_ok (p ++ [c]) -> head p = None -> head (p ++ [c]) = Some (ty, n) ->
  exists a b, p ++ [c] = a ++ b /\ is_varint ty a /\ is_varint n b.
Proof.
  intros p c ty n O N H. destruct (head_inv _ _ _ O H) as (a & b & r & E & A & B).
  destruct r as [| x r] using rev_ind; [exists a, b; rewrite app_nil_r in E; repeat split; assumption |].
  exfalso. rewrite !app_assoc in E. apply app_inj_tail in E. destruct E as [E ->].
  rewrite E in N. rewrite <- app_assoc in N. rewrite (head_of ty n a b r A B) in N; [discriminate |].
  rewrite E in O. apply Forall_app in O. destruct O as [O _]. apply Forall_app in O. tauto.
Qed.

Lemma head_prefix : forall p q, bytes_ok (p ++ q) -> head (p ++ q) = None -> head p = None.
Proof.
  intros p q O H. destruct (head p) as [[ty n] |] eqn:E; [| reflexivity].
  assert (Op : bytes_ok p) by (apply Forall_app in O; tauto).
  destruct (head_inv _ _ _ Op E) as (a & b & r & -> & A & B).
  rewrite <- !app_assoc in H. rewrite (head_of ty n a b (r ++ q) A B) in H; [discriminate |].
  apply Forall_app in O. destruct O as [O1 O2]. apply Forall_app in O1. destruct O1 as [_ O1].
  apply Forall_app in O1. destruct O1 as [_ O1]. apply Forall_app. split; assumption.
Qed.

(** ** A machine that takes one byte at a time *)

Inductive pos :=
| PH (p : list N)
| PB (ty n : N) (x : list N)
| PW (id : N) (x : list N).

Inductive ares :=
| ARun (v : view) (q : pos)
| AFail (c : N) (d : list N)
| AUndef.

Definition finish (v : view) (ty : N) (x : list N) : ares :=
  match take v (ty, x) with
  | Good v' => ARun v' (PH [])
  | Bad c => AFail c (v_data v ++ if ty =? 0 then x else [])
  | Wild => AUndef
  end.

Definition settle (v : view) (q : pos) : ares :=
  match q with
  | PB ty n x => if n =? 0 then finish v ty x else ARun v q
  | _ => ARun v q
  end.

Definition begin (v : view) (ty n : N) : ares :=
  match refused v ty n with
  | Some c => AFail c (v_data v)
  | None => if ty =? 65 then ARun v (PW n []) else ARun v (PB ty n [])
  end.

Definition astep (b : N) (v : view) (q : pos) : ares :=
  match settle v q with
  | ARun v (PH p) =>
    match head (p ++ [b]) with
    | Some (ty, n) => begin v ty n
    | None => ARun v (PH (p ++ [b]))
    end
  | ARun v (PB ty n x) =>
    if n <=? blen (x ++ [b]) then finish v ty (x ++ [b]) else ARun v (PB ty n (x ++ [b]))
  | ARun v (PW id x) => ARun v (PW id (x ++ [b]))
  | r => r
  end.

Fixpoint arun (l : list N) (v : view) (q : pos) : ares :=
  match l with
  | [] => ARun v q
  | b :: r => match astep b v q with ARun v' q' => arun r v' q' | o => o end
  end.

Definition data_of (v : view) (q : pos) : list N :=
  v_data v ++ match q with PB ty _ x => if ty =? 0 then x else [] | PW _ x => x | PH _ => [] end.

Lemma arun_app : forall x y v q, arun (x ++ y) v q = match arun x v q with ARun v' q' => arun y v' q' | o => o end.
Proof.
  induction x as [| b x IH]; intros y v q; [reflexivity |]. cbn [app arun].
  destruct (astep b v q) as [v' q' | |]; [apply IH | reflexivity | reflexivity].
Qed.

(** Bytes of a beginning. *)
Lemma arun_head : forall x p v, bytes_ok (p ++ x) -> head p = None ->
  match head (p ++ x) with
  | None => arun x v (PH p) = ARun v (PH (p ++ x))
  | Some (ty, n) => exists a b r, p ++ x = a ++ b ++ r /\ is_varint ty a /\ is_varint n b /\
      forall y, r = [] -> arun (x ++ y) v (PH p) = match begin v ty n with ARun v' q' => arun y v' q' | o => o end
  end.
Proof.
  induction x as [| c x IH]; intros p v O N.
  { rewrite app_nil_r. rewrite N. reflexivity. }
  replace (p ++ c :: x) with ((p ++ [c]) ++ x) in * by (rewrite <- app_assoc; reflexivity).
  destruct (head (p ++ [c])) as [[ty n] |] eqn:E.
  - assert (O1 : bytes_ok (p ++ [c])) by (apply Forall_app in O; tauto).
    destruct (head_exact p c ty n O1 N E) as (a & b & E2 & A & B).
    rewrite E2. rewrite <- app_assoc. rewrite (head_of ty n a b x A B) by (apply Forall_app in O; tauto).
    exists a, b, x. split; [reflexivity |]. split; [exact A |]. split; [exact B |].
    intros y ->. cbn [app arun]. unfold astep. cbn [settle]. rewrite E. reflexivity.
  - specialize (IH (p ++ [c]) v O E). destruct (head ((p ++ [c]) ++ x)) as [[ty n] |].
    + destruct IH as (a & b & r & E2 & A & B & K). exists a, b, r. split; [exact E2 |]. split; [exact A |]. split; [exact B |].
      intros y Er. cbn [app arun]. unfold astep at 1. cbn [settle]. rewrite E. exact (K y Er).
    + cbn [arun]. unfold astep at 1. cbn [settle]. rewrite E. exact IH.
Qed.

(** Bytes of the content of a frame. *)
Lemma arun_body : forall x v ty n z, 0 < n -> blen z + blen x <= n -> blen z < n -> x <> [] ->
  arun x v (PB ty n z) = if n <=? blen (z ++ x) then finish v ty (z ++ x) else ARun v (PB ty n (z ++ x)).
Proof.
  induction x as [| c x IH]; intros v ty n z P L L2 NE; [congruence |].
  cbn [arun]. unfold astep. cbn [settle]. replace (n =? 0) with false by lia.
  rewrite blen_cons in L. rewrite blen_app. change (blen [c]) with 1.
  replace (z ++ c :: x) with ((z ++ [c]) ++ x) by (rewrite <- app_assoc; reflexivity).
  destruct (n <=? blen z + 1) eqn:T.
  - assert (x = []) by (destruct x; [reflexivity |]; rewrite blen_cons in L; lia). subst x. rewrite app_nil_r.
    rewrite blen_app. change (blen [c]) with 1. rewrite T.
    destruct (finish v ty (z ++ [c])) eqn:F; reflexivity.
  - destruct x as [| d x].
    + rewrite app_nil_r. rewrite blen_app. change (blen [c]) with 1. rewrite T. reflexivity.
    + apply IH; [exact P | rewrite blen_app; change (blen [c]) with 1; lia | rewrite blen_app; change (blen [c]) with 1; lia | discriminate].
Qed.

Lemma arun_web : forall x v id z, arun x v (PW id z) = ARun v (PW id (z ++ x)).
Proof.
  induction x as [| c x IH]; intros v id z; cbn [arun]; [rewrite app_nil_r; reflexivity |].
  unfold astep. cbn [settle]. rewrite IH, <- app_assoc. reflexivity.
Qed.

Lemma arun_settle : forall l v q, l <> [] -> arun l v q = match settle v q with ARun v' q' => arun l v' q' | o => o end.
Proof.
  intros l v q NE. destruct l as [| b l]; [congruence |]. cbn [arun]. unfold astep.
  destruct (settle v q) as [v' q' | |] eqn:E; [| reflexivity | reflexivity].
  assert (E2 : settle v' q' = ARun v' q').
  { destruct q as [p | ty n x | id x]; cbn [settle] in E.
    - injection E as <- <-. reflexivity.
    - destruct (n =? 0) eqn:Z; [| injection E as <- <-; cbn [settle]; rewrite Z; reflexivity].
      unfold finish in E. destruct (take v (ty, x)); [| discriminate | discriminate]. injection E as <- <-. reflexivity.
    - injection E as <- <-. reflexivity. }
  rewrite E2. reflexivity.
Qed.

(** ** The state of the code *)

Definition zeros (n : N) : list N := repeat 0 (N.to_nat n).

Definition rel_view (s : dstate) (v : view) : Prop :=
  d_hfound s = is_some (v_header v) /\ d_tfound s = is_some (v_trailer v) /\ d_dfound s = v_any v /\
  (forall p, v_header v = Some p -> d_header s = p) /\ (forall p, v_trailer v = Some p -> d_trailer s = p) /\
  (v_header v = None -> v_trailer v = None).

Definition rel (s : dstate) (v : view) (q : pos) : Prop :=
  blen (d_hdr s) = 16 /\ bytes_ok (d_hdr s) /\
  match q with
  | PH p => rel_view s v /\ d_parsed s = false /\ d_web s = false /\ d_frame s = None /\
      (exists r, d_hdr s = p ++ r) /\ d_hread s = blen p /\ head p = None /\ d_read s = d_length s
  | PB ty n x => rel_view s v /\ d_parsed s = true /\ d_web s = false /\ d_type s = ty /\ d_length s = n /\
      d_read s = blen x /\ refused v ty n = None /\ ty <> 65 /\ (blen x < n \/ (n = 0 /\ x = [])) /\ n < two62 /\
      bytes_ok x /\
      (if ty =? 1 then (d_frame s = None /\ x = []) \/ d_frame s = Some (x ++ zeros (n - blen x)) else d_frame s = None)
  | PW id x => d_parsed s = true /\ d_web s = true /\ d_control s = id /\ d_read s = d_length s /\
      v_header v = None /\ v_trailer v = None /\ d_tfound s = false
  end.

Lemma rel0 : rel dstate0 view0 (PH []).
Proof.
  split; [reflexivity |]. split; [vm_compute; repeat constructor |].
  split; [split; [reflexivity |]; split; [reflexivity |]; split; [reflexivity |]; split; [discriminate |]; split; [discriminate | reflexivity] |].
  do 3 (split; [reflexivity |]). split; [eexists; reflexivity |]. repeat split; reflexivity.
Qed.
