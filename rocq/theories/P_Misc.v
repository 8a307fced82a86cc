(** Property C68: the list of miscellaneous frames, its links, and the frames sent in a packet. *)
From Verif Require Import Base Misc_model Misc_spec Misc_proofs.

(** A frame that is queued comes last, whatever address malloc gives. *)
Theorem C68_queue : forall m l a it, holds m l -> a <> 0%nat -> ml_heap m a = None ->
  exists m', queue a it m = Some (m', true) /\ holds m' (l ++ [(a, it)]).
Proof. exact queue_holds. Qed.
Print Assumptions C68_queue.
Example C68_queue_ex : holds (ex_list its) (combine [1; 2; 3; 4]%nat its) /\ ml_heap (ex_list its) 9%nat = None.
Proof. split; [exact its_holds|reflexivity]. Qed.

(** A frame that is deleted, wherever it is, is released, and the others stay linked in order; nothing
    else is allocated. *)
Theorem C68_delete : forall m l1 x it l2, holds m (l1 ++ (x, it) :: l2) ->
  exists m', delete x m = Some m' /\ holds m' (l1 ++ l2) /\ ml_heap m' x = None /\
    (forall y, ml_heap m y = None -> ml_heap m' y = None).
Proof. exact delete_holds. Qed.
Print Assumptions C68_delete.
Example C68_delete_ex : holds (ex_list its) ([(1%nat, mk_item [1; 2] 0 false)] ++ (2%nat, mk_item [3] 2 true) :: [(3%nat, mk_item [4; 5; 6] 0 true); (4%nat, mk_item [7] 0 true)]).
Proof. exact its_holds. Qed.

(** In a packet of any room, the frames of the context are sent whole, in order and once, as many as
    fit without passing one over; the others, and the frames of the other contexts, stay in the list in
    order; the packet is a pure acknowledgement only if all of them are; and more_data is set if and
    only if one is left, unless a frame of no bytes was met. *)
Theorem C68_format : forall fuel room pc m l more pure, holds m l -> (length l < fuel)%nat ->
  exists bs m' more' pure' l' s, format_misc fuel room pc m more pure = Some (bs, m', more', pure') /\ holds m' l' /\
    sent pc room (map snd l) s /\ bs = concat (map it_bytes s) /\ blen bs <= room /\
    filter (fun i => it_pc i =? pc) (map snd l) = s ++ filter (fun i => it_pc i =? pc) (map snd l') /\
    filter (fun i => negb (it_pc i =? pc)) (map snd l') = filter (fun i => negb (it_pc i =? pc)) (map snd l) /\
    pure' = pure && forallb it_pure s /\ (more = true -> more' = true) /\
    (filter (fun i => it_pc i =? pc) (map snd l') = [] -> more' = more) /\
    (filter (fun i => it_pc i =? pc) (map snd l') <> [] -> Forall (fun i => it_bytes i <> []) s -> more' = true) /\
    (forall y, ml_heap m y = None -> ml_heap m' y = None).
Proof. exact format_thm. Qed.
Print Assumptions C68_format.
Example C68_format_ex : holds (ex_list its) (combine [1; 2; 3; 4]%nat its) /\
  option_map (fun r => (fst (fst (fst r)), ml_first (snd (fst (fst r))), ml_last (snd (fst (fst r))), snd (fst r), snd r)) (format_misc 5 5 0 (ex_list its) false true) =
  Some ([1; 2; 4; 5; 6], 2%nat, 4%nat, true, false).
Proof. split; [exact its_holds|vm_compute; reflexivity]. Qed.

(** Once the handshake is over, the frames of the application, and only these, stay, in order. *)
Theorem C68_purge : forall fuel m l, holds m l -> (length l < fuel)%nat ->
  exists m', purge fuel m = Some m' /\ holds m' (filter (fun e => it_pc (snd e) =? 0) l) /\
    (forall y, ml_heap m y = None -> ml_heap m' y = None).
Proof. exact purge_thm. Qed.
Print Assumptions C68_purge.
Example C68_purge_ex : holds (ex_list its) (combine [1; 2; 3; 4]%nat its) /\
  option_map (fun m => (ml_heap m 2%nat, ml_heap m 3%nat)) (purge 5 (ex_list its)) = Some (None, Some (mk_node 4 1 (mk_item [4; 5; 6] 0 true))).
Proof. split; [exact its_holds|vm_compute; reflexivity]. Qed.

(** After any history of frames queued, packets prepared and purges, the list is linked, and queuing,
    preparing or purging once more uses no released memory and ends. *)
Theorem C68_history : forall ops m', run nothing ops m' -> exists l, holds m' l /\
  (forall a it, ml_heap m' a = None -> exists m2 ok, queue a it m' = Some (m2, ok)) /\
  (forall room pc, exists fuel r, format_misc fuel room pc m' false true = Some r) /\ (exists fuel r, purge fuel m' = Some r).
Proof. exact history_thm. Qed.
Print Assumptions C68_history.
Example C68_history_ex : exists m', run nothing [OQueue 7 (mk_item [1; 2] 0 false); OQueue 3 (mk_item [5] 2 true); OSend 10 0; OQueue 4 (mk_item [5] 1 true); OQueue 7 (mk_item [9] 0 true); OPurge] m' /\
  ml_first m' = 7%nat /\ ml_last m' = 7%nat.
Proof.
  eexists. split; [|split].
  - eapply run_queue; [reflexivity|reflexivity|]. eapply run_queue; [reflexivity|reflexivity|].
    eapply run_send with (fuel := 3%nat); [reflexivity|]. eapply run_queue; [reflexivity|reflexivity|]. eapply run_queue; [reflexivity|reflexivity|].
    eapply run_purge with (fuel := 5%nat); [reflexivity|]. constructor.
  - reflexivity.
  - reflexivity.
Qed.

(** FINDING: a frame of any length is accepted in the list; one that is longer than a packet is never
    sent, and keeps those behind it from being sent. *)
Theorem C68_stuck_refuted : exists m l, holds m l /\ In (mk_item [1] 0 true) (map snd l) /\
  forall room, room <= 1500 -> format_misc 5 room 0 m false true = Some ([], m, true, true).
Proof. exact w_stuck2. Qed.
Print Assumptions C68_stuck_refuted.

(** FINDING: a frame of no bytes ends the packet, and more_data is not set though another frame is
    left. *)
Theorem C68_empty_refuted : exists m l m' l', holds m l /\ format_misc 5 1200 0 m false true = Some ([], m', false, true) /\ holds m' l' /\
  map snd l' = [mk_item [1] 0 true].
Proof. exact w_empty2. Qed.
Print Assumptions C68_empty_refuted.
