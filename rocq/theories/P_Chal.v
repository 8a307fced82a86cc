(** Property C64: a new address receives at most three challenges, with delays, and then fails. *)
From Coq Require Import Permutation.
From Verif Require Import Base Chal_model Chal_spec Chal_proofs Chalb_proofs.

(** After any history of a path, nothing undefined has happened, and each tuple has received, since its
    challenges were set, at most three of them, in order: the second at least 250 ms after the first,
    the third at least two timers later, the failure at least four timers after the third. *)
Theorem C64_spaced : forall l p, ch_start p -> Forall op_ok l ->
  exists evs p', crun p l = Some (evs, p') /\ forall id, spaced (since id evs).
Proof. exact spaced_thm. Qed.
Print Assumptions C64_spaced.

Definition C64_p : cpath := mk_cp false 0 3000 100000 0 [].
Definition C64_l : list cop :=
  [OAdd 0 [1; 2; 3]; OAnswer 0; OAdd 5 [4; 5; 6]; OAsk 1 77; OPrep 10 100 1; OAdd 20 [7; 8; 9]; OPrep 30 5 2; OPrep 40 9 2;
   OPrep 250009 100 1; OPrep 250010 100 1; OPrep 450010 100 1; OPrep 850010 100 1; OPurge 900000; ORenew 950000 [10; 11; 12];
   OPrep 950000 100 0].

Example C64_l_ok : Forall op_ok C64_l.
Proof. unfold C64_l. repeat (constructor; [simpl; try exact I; repeat split; reflexivity|]). constructor. Qed.

Example C64_spaced_ex : ch_start C64_p /\ Forall op_ok C64_l /\
  option_map (fun r => (since 1 (fst r), since 2 (fst r), since 0 (fst r), map ct_id (cp_tuples (snd r)))) (crun C64_p C64_l) =
  Some ([(Some 0, 10, 100000); (Some 1, 250010, 100000); (Some 2, 450010, 100000); (None, 850010, 100000)],
        [(Some 0, 40, 100000)], [(Some 0, 950000, 100000)], [0; 2; 1]).
Proof. split; [split; reflexivity|]. split; [exact C64_l_ok|]. vm_compute. reflexivity. Qed.

(** The preparation of challenges keeps the tuples, and the order of the others; a tuple is moved only
    when it fails, and it is then the last one. *)
Theorem C64_order : forall l p evs p1 now room wake id e pad w p2,
  ch_start p -> Forall op_ok l -> crun p l = Some (evs, p1) ->
  prepare now room wake id p1 = Some (e, pad, w, p2) ->
  Permutation (map ct_id (cp_tuples p2)) (map ct_id (cp_tuples p1)) /\
  filter (fun t => negb (ct_id t =? id)) (cp_tuples p2) = filter (fun t => negb (ct_id t =? id)) (cp_tuples p1) /\
  (forall t r, In (EFail id t r) e -> exists l0 x, cp_tuples p2 = l0 ++ [x] /\ ct_id x = id /\ ct_fail x = true) /\
  ((forall t r, ~ In (EFail id t r) e) -> map ct_id (cp_tuples p2) = map ct_id (cp_tuples p1)).
Proof. exact order_thm. Qed.
Print Assumptions C64_order.

Example C64_order_ex : exists evs p1 e pad w p2, crun C64_p (firstn 11 C64_l) = Some (evs, p1) /\
  prepare 850010 100 max64 1 p1 = Some (e, pad, w, p2) /\ e = [EFail 1 850010 100000] /\
  map ct_id (cp_tuples p1) = [0; 1; 2] /\ map ct_id (cp_tuples p2) = [0; 2; 1].
Proof.
  eexists _, _, _, _, _, _. split; [vm_compute; reflexivity|]. split; [vm_compute; reflexivity|].
  split; [reflexivity|]. split; reflexivity.
Qed.

(** The removal of old tuples keeps the first one, and removes exactly those of the others that failed
    and whose time of demotion has passed. *)
Theorem C64_purge : forall now wake p t r, cp_tuples p = t :: r ->
  cp_tuples (fst (purge now wake p)) = t :: filter (fun t => negb (ct_fail t && (ct_demote t <? now))) r.
Proof. exact purge_thm. Qed.
Print Assumptions C64_purge.

Example C64_purge_ex : option_map (fun r => (map ct_id (cp_tuples (snd r)), map ct_id (cp_tuples (fst (purge 1650010 max64 (snd r)))),
  map ct_id (cp_tuples (fst (purge 1650011 max64 (snd r)))))) (crun C64_p C64_l) = Some ([0; 2; 1], [0; 2; 1], [0; 2]).
Proof. vm_compute. reflexivity. Qed.

(** Padding to a full size packet is asked exactly with a challenge or a response, by a client or when
    the peer has sent enough for it. *)
Theorem C64_pad : forall now room wake id p e pad w p', prepare now room wake id p = Some (e, pad, w, p') ->
  cp_sent p < two62 ->
  (pad = true <-> (exists x, In x e /\ match x with EChal _ _ _ _ _ | EResp _ _ => True | _ => False end) /\
                  (cp_client p = true \/ cp_sent p + 1200 <= cp_recv p)).
Proof. exact pad_thm. Qed.
Print Assumptions C64_pad.

Example C64_pad_ex : forall recv, recv = 1199 \/ recv = 1200 ->
  option_map (fun r => snd (fst (fst r))) (prepare 7 100 max64 0 (add_tuple 5 [1; 2; 3] (mk_cp false 0 recv 100000 0 []))) =
  Some (1200 <=? recv).
Proof. intros recv [H|H]; subst; vm_compute; reflexivity. Qed.

(** Each response was asked for by the peer on the same tuple with the same value, and there are no
    more responses than challenges of the peer. *)
Theorem C64_response : forall l p evs p', cp_tuples p = [] -> crun p l = Some (evs, p') ->
  (forall id, (responses id evs <= asks id l)%nat) /\ (forall id v, In (EResp id v) evs -> In (OAsk id v) l).
Proof. exact response_thm. Qed.
Print Assumptions C64_response.

Example C64_response_ex : option_map (fun r => (responses 1 (fst r), filter is_resp (fst r))) (crun C64_p C64_l) = Some (1%nat, [EResp 1 77]).
Proof. vm_compute. reflexivity. Qed.

(** What is sent fits in the room; a challenge is the next one of a tuple that is neither verified nor
    failed, when it is due; a pending response is sent when there is room for the two frames. *)
Theorem C64_sends : forall l p evs p1 now room wake id e pad w p2,
  ch_start p -> Forall op_ok l -> crun p l = Some (evs, p1) ->
  prepare now room wake id p1 = Some (e, pad, w, p2) ->
  frame_bytes e <= room /\
  (forall i k v t r, In (EChal i k v t r) e -> i = id /\ t = now /\ r = cp_rto p1 /\
     exists x, In x (cp_tuples p1) /\ ct_id x = id /\ ct_ver x = false /\ ct_fail x = false /\ ct_count x = k /\
       nth_error (ct_chal x) (N.to_nat k) = Some v /\ due (cp_rto p1) x now <= now) /\
  (forall x v, In x (cp_tuples p1) -> ct_id x = id -> ct_resp x = Some v -> 18 <= room -> In (EResp id v) e).
Proof. exact sends_thm. Qed.
Print Assumptions C64_sends.

Example C64_sends_ex : exists evs p1 e pad w p2, crun C64_p (firstn 4 C64_l) = Some (evs, p1) /\
  prepare 10 18 max64 1 p1 = Some (e, pad, w, p2) /\ e = [EChal 1 0 4 10 100000; EResp 1 77] /\ frame_bytes e = 18.
Proof.
  eexists _, _, _, _, _, _. split; [vm_compute; reflexivity|]. split; [vm_compute; reflexivity|].
  split; reflexivity.
Qed.

(** When no tuple is selected, no response is pending, no challenge is due, and the endpoint wakes up
    no later than the next one. *)
Theorem C64_wake : forall l p evs p1 now wake w d, ch_start p -> Forall op_ok l -> crun p l = Some (evs, p1) ->
  check now wake p1 = (None, w, d) ->
  w <= wake /\ forall t, In t (cp_tuples p1) -> ct_fail t = false ->
    ct_resp t = None /\ (waits t -> now < due (cp_rto p1) t now /\ w <= due (cp_rto p1) t now).
Proof. exact wake_thm. Qed.
Print Assumptions C64_wake.

(** A tuple is selected only when it has a response to send, or a challenge that is due. *)
Theorem C64_select : forall l p evs p1 now wake id w d, ch_start p -> Forall op_ok l -> crun p l = Some (evs, p1) ->
  check now wake p1 = (Some id, w, d) ->
  exists t, In t (cp_tuples p1) /\ ct_id t = id /\ ct_fail t = false /\
    (ct_resp t <> None \/ (waits t /\ due (cp_rto p1) t now <= now)).
Proof. exact select_thm. Qed.
Print Assumptions C64_select.

(** After the preparation of a challenge, the endpoint wakes up no later than the next one. *)
Theorem C64_again : forall l p evs p1 now room wake id e pad w p2, ch_start p -> Forall op_ok l -> crun p l = Some (evs, p1) ->
  now < two62 -> prepare now room wake id p1 = Some (e, pad, w, p2) ->
  w <= wake /\ forall t, In t (cp_tuples p2) -> ct_id t = id -> ct_ver t = false -> ct_fail t = false ->
    w <= due (cp_rto p1) t now.
Proof. exact again_thm. Qed.
Print Assumptions C64_again.

Example C64_wake_ex : exists evs p1, crun C64_p (firstn 8 C64_l) = Some (evs, p1) /\
  check 50 max64 p1 = (None, 250010, false) /\ check 250010 max64 p1 = (Some 1, max64, false) /\
  option_map (fun r => snd (fst r)) (prepare 250010 100 max64 1 p1) = Some 450010.
Proof. eexists _, _. split; [vm_compute; reflexivity|]. split; [reflexivity|]. split; vm_compute; reflexivity. Qed.

(** Each preparation for a selected tuple, with room for the two frames, leaves strictly less to do: a
    tuple is selected at most five times if it is not changed in between. *)
Theorem C64_progress : forall l p evs p1 now wake id w d room wake2 e pad w2 p2,
  ch_start p -> Forall op_ok l -> crun p l = Some (evs, p1) ->
  check now wake p1 = (Some id, w, d) -> 18 <= room ->
  prepare now room wake2 id p1 = Some (e, pad, w2, p2) -> (todo p2 < todo p1)%nat.
Proof. exact progress_thm. Qed.
Print Assumptions C64_progress.

Theorem C64_bound : forall p, (todo p <= 5 * length (cp_tuples p))%nat.
Proof. exact bound_thm. Qed.
Print Assumptions C64_bound.

Example C64_progress_ex : exists evs p1, crun C64_p (firstn 8 C64_l) = Some (evs, p1) /\ todo p1 = 6%nat /\
  check 250010 max64 p1 = (Some 1, max64, false) /\
  option_map (fun r => todo (snd r)) (prepare 250010 100 max64 1 p1) = Some 5%nat.
Proof. eexists _, _. split; [vm_compute; reflexivity|]. split; [reflexivity|]. split; vm_compute; reflexivity. Qed.

(** FINDING: the delays do not grow: the third challenge may follow the second more closely than the
    second followed the first. *)
Theorem C64_backoff_refuted : exists p l evs p' t1 t2 t3 r1 r2 r3, ch_start p /\ Forall op_ok l /\ crun p l = Some (evs, p') /\
  since 0 evs = [(Some 0, t1, r1); (Some 1, t2, r2); (Some 2, t3, r3)] /\ t3 - t2 < t2 - t1.
Proof. exact backoff_refuted. Qed.
Print Assumptions C64_backoff_refuted.

(** FINDING: a tuple that is verified by a late answer is still marked as failed (with multipath, its
    path is then abandoned: picoquic/paths.c 519-520). *)
Theorem C64_verified_refuted : exists p l evs p' t, ch_start p /\ Forall op_ok l /\ crun p l = Some (evs, p') /\
  cp_tuples p' = [t] /\ ct_ver t = true /\ ct_fail t = true.
Proof. exact verified_refuted. Qed.
Print Assumptions C64_verified_refuted.

(** FINDING: new challenges that are set for such a tuple are never sent, whatever the time, and no wake
    time is set for them. *)
Theorem C64_renew_refuted : exists p l evs p' t, ch_start p /\ Forall op_ok l /\ crun p l = Some (evs, p') /\
  cp_tuples p' = [t] /\ ct_req t = true /\ ct_ver t = false /\ ct_count t = 0 /\
  forall now room wake, prepare now room wake (ct_id t) p' = Some ([], false, wake, p') /\
    fst (check now wake p') = (None, wake).
Proof. exact renew_refuted. Qed.
Print Assumptions C64_renew_refuted.

(** FINDING: no wake time is set for the removal of a failed tuple: it stays until something else wakes
    the endpoint. *)
Theorem C64_demote_refuted : exists p l evs p' t0 t, ch_start p /\ Forall op_ok l /\ crun p l = Some (evs, p') /\
  cp_tuples p' = [t0; t] /\ ct_fail t = true /\
  forall now wake, check now wake p' = (None, wake, ct_demote t <? now).
Proof. exact demote_refuted. Qed.
Print Assumptions C64_demote_refuted.
