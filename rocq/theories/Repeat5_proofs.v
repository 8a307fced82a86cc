(** Concrete runs of the repetition of lost STREAM frames. *)
From Verif Require Import Base Tac Varint_model Sack_model Sack_spec Stream_model Frames_model Send_model Send_spec
  Repeat_model Repeat_spec Repeat_proofs Repeat2_proofs Repeat3_proofs Repeat4_proofs.

(** Two lost packets: one with a PING, 100 bytes of stream 0 and a MAX_DATA frame;
    one with the FIN of stream 4, at offset 1000. *)
Definition ex_data : list N := repeat 7 99 ++ [8].
Definition ex_packet1 : list N := [1; 10; 0; 64; 100] ++ ex_data ++ [16; 5].
Definition ex_packet2 : list N := [15; 4; 67; 232; 0].
Definition ex_streams : list rstream := [mk_rs 0 false (sack_list_init 0) 9; mk_rs 4 false (sack_list_init 0) 9].
Definition ex_queue : list lost := [mk_lost ex_packet1 1 1 9; mk_lost ex_packet2 0 0 9].

Lemma ex_queued :
  match queue_lost ex_streams ex_packet1 0 [] with
  | Some q => queue_lost ex_streams ex_packet2 1 q
  | None => None
  end = Some ex_queue.
Proof. vm_compute. reflexivity. Qed.

Lemma ex_waits : queue_waits ex_queue [[(0, 0, false, ex_data)]; [(4, 1000, true, [])]].
Proof.
  constructor; [| constructor; [| constructor]].
  - split; [repeat (constructor; [reflexivity |]); constructor |]. split; [discriminate |]. split.
    + assert (W := w_stream ex_packet1 1 1 9 10 ([0; 64; 100] ++ ex_data ++ [16; 5]) 0 0 false ex_data [16; 5] [] 0
        eq_refl eq_refl eq_refl).
      apply W; [| reflexivity | left; reflexivity]. apply (ps_other 16 [5] [] []); [reflexivity | reflexivity | constructor].
    + constructor; [reflexivity | constructor].
  - split; [repeat (constructor; [reflexivity |]); constructor |]. split; [discriminate |]. split.
    + assert (W := w_stream ex_packet2 0 0 9 15 [4; 67; 232; 0] 4 1000 true [] [] [] 0
        eq_refl eq_refl eq_refl).
      apply W; [constructor | reflexivity | left; reflexivity].
    + constructor; [reflexivity | constructor].
Qed.

Lemma fin_lost : exists streams q fss room b its,
  prio_ok streams /\ queue_waits q fss /\ pending_end fss 4 1000 /\ ~ not_needed streams 4 1000 1000 true /\
  copy_frames streams q room 0 = Some (b, its, [], true) /\ ~ log_end its 4 1000.
Proof.
  exists ex_streams, ex_queue, [[(0, 0, false, ex_data)]; [(4, 1000, true, [])]], 107.
  destruct (copy_frames ex_streams ex_queue 107 0) as [[[[b its] q] ok] |] eqn:E; vm_compute in E; [| discriminate].
  injection E as <- <- <- <-. eexists _, _. split; [repeat (constructor; [discriminate |]); constructor |].
  split; [exact ex_waits |]. split.
  { exists (4, 1000, true, []). split; [right; left; reflexivity |]. repeat split. }
  split.
  { intros [H | (s & Hin & Hid & [Hr | H])].
    - apply (H (mk_rs 4 false (sack_list_init 0) 9)); [right; left; reflexivity | reflexivity].
    - destruct Hin as [<- | [<- | []]]; discriminate.
    - destruct Hin as [<- | [<- | []]]; [discriminate |].
      destruct (H 1000) as (a & b & [] & _); [lia | right; auto]. }
  split; [reflexivity |].
  intros (off & d & Hin & _). cbn [In] in Hin. destruct Hin as [Hin | []]. discriminate.
Qed.
