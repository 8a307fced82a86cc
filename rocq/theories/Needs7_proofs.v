(** Counterexamples about lost and acknowledged frames, and a connection for examples. *)
From Verif Require Import Base Tac Varint_model Varint_spec Varint_proofs Sack_model Sack_spec Ack_model Ack_spec Ack_proofs Frames_model
  Frames_spec Frames5_proofs Header_model Send_model Stream_model Needs_model Needs_spec
  Needs_proofs Needs2_proofs Needs3_proofs Needs4_proofs Needs5_proofs Needs6_proofs.

Definition no_sack : sack_list := sack_list_init 0.

(** A client: stream 8 was reset (not acknowledged yet); of stream 16, 100 bytes and the
    FIN are sent and 50 bytes acknowledged; the path 1 answers the challenge 77; one local
    id of path 1 is not acknowledged. *)
Definition ex_conn : nconn :=
  mk_nc true
    [mk_ns 8 false false true true false false false false false false 1000 1000 1000 false 100 false no_sack;
     mk_ns 16 true true false false false false false false false false 5000 1000 1000 false 100 false
       (sack_add no_sack 0 50 false)]
    70000 60000 80000 false (fun _ => 400) (fun _ => 1) (fun _ => 400) (fun _ => false) false false
    (fun _ => no_sack) [(0, 0, true); (1, 4, false)] [(0, 7); (1, 3)] 5 [mk_np 1 2 false true false 77 true false]
    8 2 6 3.

Lemma sack_ok_no : sack_ok no_sack.
Proof. split; [reflexivity|]. split; [exact I|]. intros a b []. Qed.

Lemma ex_conn_ok : conn_ok ex_conn.
Proof.
  constructor.
  - cbn. repeat constructor; cbn; intuition discriminate.
  - intros s [<-|[<-|[]]]; (split; [|split; [|reflexivity]]).
    + exact sack_ok_no.
    + intro H; discriminate.
    + apply sack_add_spec; [exact sack_ok_no|reflexivity|right; vm_compute; discriminate].
    + intro H; discriminate.
  - intro e. exact sack_ok_no.
  - cbn. repeat constructor; cbn; intuition discriminate.
  - cbn. repeat constructor; cbn; intuition discriminate.
Qed.

Ltac sent := exists 1200; vm_compute; reflexivity.

Lemma single : forall f b, sframe_ok f -> sent_as f b -> payload [f] b.
Proof.
  intros f b Hok Hs. rewrite <- (app_nil_r b). apply pl_cons; [exact Hok|exact Hs|constructor|reflexivity|discriminate].
Qed.

Lemma reset_lost : exists c f b, conn_ok c /\ payload [f] b /\ f = SCtl (WReset 8 0 100) /\ needed c Pt1rtt f /\
  copy_before_retransmit c Pt1rtt false false 1200 b = COk (mk_cf [] [] false).
Proof.
  exists ex_conn, (SCtl (WReset 8 0 100)), (frame_bytes (WReset 8 0 100)).
  split; [exact ex_conn_ok|]. split. { apply single; [repeat split; vm_compute; discriminate|sent]. }
  split; [reflexivity|]. split; [|vm_compute; reflexivity].
  exists (KReset 8). split; [reflexivity|]. eexists. split; [left; reflexivity|]. repeat split.
Qed.

Lemma max_path_id_lost : exists c f b, conn_ok c /\ payload [f] b /\ f = SCtl (WMaxPathId 8) /\ needed c Pt1rtt f /\
  copy_before_retransmit c Pt1rtt false false 1200 b = COk (mk_cf [] [] false).
Proof.
  exists ex_conn, (SCtl (WMaxPathId 8)), (frame_bytes (WMaxPathId 8)).
  split; [exact ex_conn_ok|]. split. { apply single; [repeat split; vm_compute; discriminate|sent]. }
  split; [reflexivity|]. split; [|vm_compute; reflexivity].
  exists (KMaxPathId 8). split; [reflexivity|]. split; reflexivity.
Qed.

Lemma paths_blocked_lost : exists c f b, conn_ok c /\ payload [f] b /\ f = SCtl (WPathsBlocked 6) /\ needed c Pt1rtt f /\
  copy_before_retransmit c Pt1rtt false false 1200 b = COk (mk_cf [] [] false).
Proof.
  exists ex_conn, (SCtl (WPathsBlocked 6)), (frame_bytes (WPathsBlocked 6)).
  split; [exact ex_conn_ok|]. split. { apply single; [repeat split; vm_compute; discriminate|sent]. }
  split; [reflexivity|]. split; [|vm_compute; reflexivity].
  exists (KPathsBlocked 6). split; [reflexivity|]. split; reflexivity.
Qed.

Lemma ack_frequency_lost : exists c f b, conn_ok c /\ payload [f] b /\ f = SCtl (WAckFrequency 5 2 1000 1) /\ needed c Pt1rtt f /\
  copy_before_retransmit c Pt1rtt false false 1200 b = COk (mk_cf [] [] false).
Proof.
  exists ex_conn, (SCtl (WAckFrequency 5 2 1000 1)), (frame_bytes (WAckFrequency 5 2 1000 1)).
  split; [exact ex_conn_ok|]. split. { apply single; [repeat split; vm_compute; discriminate|sent]. }
  split; [reflexivity|]. split; [|vm_compute; reflexivity].
  exists (KAckFrequency 5). split; reflexivity.
Qed.

Lemma path_response_lost : exists c f b, conn_ok c /\ payload [f] b /\ f = SCtl (WPathResponse 77) /\ needed c Pt1rtt f /\
  copy_before_retransmit c Pt1rtt false false 1200 b = COk (mk_cf [] [] false).
Proof.
  exists ex_conn, (SCtl (WPathResponse 77)), (frame_bytes (WPathResponse 77)).
  split; [exact ex_conn_ok|]. split. { apply single; [repeat split; vm_compute; discriminate|sent]. }
  split; [reflexivity|]. split; [|vm_compute; reflexivity].
  exists (KResponse 77). split; [reflexivity|]. eexists. split; [left; reflexivity|]. split; [reflexivity|left; reflexivity].
Qed.

(** The acknowledgement of MAX_PATH_ID followed by MAX_DATA acknowledges bytes of a stream. *)
Definition two_frames : list sframe := [SCtl (WMaxPathId 8); SCtl (WMaxData 60000)].
Definition two_bytes : list N := frame_bytes (WMaxPathId 8) ++ frame_bytes (WMaxData 60000).

Definition fresh_stream : nconn :=
  mk_nc true [mk_ns 16 true true false false false false false false false false 5000 1000 1000 false 100 false no_sack]
    70000 60000 80000 false (fun _ => 400) (fun _ => 1) (fun _ => 400) (fun _ => false) false false
    (fun _ => no_sack) [(0, 0, true); (1, 4, false)] [(0, 7); (1, 3)] 5 [mk_np 1 2 false true false 77 true false]
    8 2 6 3.

Lemma fresh_ok : conn_ok fresh_stream.
Proof.
  constructor.
  - cbn. repeat constructor; cbn; intuition discriminate.
  - intros s [<-|[]]; (split; [|split; [|reflexivity]]).
    + exact sack_ok_no.
    + intro H; discriminate.
  - intro e. exact sack_ok_no.
  - cbn. repeat constructor; cbn; intuition discriminate.
  - cbn. repeat constructor; cbn; intuition discriminate.
Qed.

Lemma two_payload : payload two_frames two_bytes.
Proof.
  unfold two_frames, two_bytes. apply pl_cons; [repeat split; vm_compute; discriminate|sent| |discriminate|discriminate].
  apply single; [repeat split; vm_compute; discriminate|sent].
Qed.

Lemma ack_max_path_id_wrong : exists c fs l sid pos c' all, conn_ok c /\ payload fs l /\ outstanding c (KByte sid pos) /\
  (forall f, In f fs -> ~ gives Pt1rtt f (KByte sid pos)) /\
  process_ack_of_frames c Pt1rtt (Some 0) l = AOk c' all /\ ~ outstanding c' (KByte sid pos).
Proof.
  exists fresh_stream, two_frames, two_bytes, 16, 0.
  destruct (process_ack_of_frames fresh_stream Pt1rtt (Some 0) two_bytes) as [c' all| |] eqn:E; [|vm_compute in E; discriminate..].
  exists c', all. split; [exact fresh_ok|]. split; [exact two_payload|].
  split. { eexists. split; [left; reflexivity|]. split; [reflexivity|]. split; [reflexivity|]. split; [left; reflexivity|].
           intros (a & b & [] & _). }
  split. { intros f [<-|[<-|[]]] H; exact H. }
  split; [reflexivity|].
  vm_compute in E. injection E as <- <-. intros (s & [<-|[]] & _ & _ & _ & H). apply H. vm_compute.
  eexists _, _. split; [left; reflexivity|]. split; vm_compute; discriminate.
Qed.

(** The acknowledgement of PATH_RETIRE_CONNECTION_ID is ignored. *)
Lemma ack_path_retire_wrong : exists c f l c' all, conn_ok c /\ payload [f] l /\ f = SCtl (WRetireCid (Some 1) 3) /\
  outstanding c (KRetireCid 1 3) /\
  process_ack_of_frames c Pt1rtt (Some 0) l = AOk c' all /\ outstanding c' (KRetireCid 1 3).
Proof.
  exists ex_conn, (SCtl (WRetireCid (Some 1) 3)), (frame_bytes (WRetireCid (Some 1) 3)).
  destruct (process_ack_of_frames ex_conn Pt1rtt (Some 0) (frame_bytes (WRetireCid (Some 1) 3))) as [c' all| |] eqn:E; [|vm_compute in E; discriminate..].
  exists c', all. split; [exact ex_conn_ok|]. split. { apply single; [repeat split; vm_compute; discriminate|sent]. }
  split; [reflexivity|]. split; [right; left; reflexivity|].
  vm_compute in E. injection E as <- <-. split; [reflexivity|]. right; left; reflexivity.
Qed.

(** The acknowledgement of OBSERVED_ADDRESS writes through the path of the packet, that may
    be NULL. *)
Lemma ack_observed_wrong : exists c f l, conn_ok c /\ payload [f] l /\ f = SCtl (WObservedAddress false 0 [10;0;0;1] 4433) /\
  process_ack_of_frames c Pt1rtt None l = AUndef.
Proof.
  exists ex_conn, (SCtl (WObservedAddress false 0 [10;0;0;1] 4433)), (frame_bytes (WObservedAddress false 0 [10;0;0;1] 4433)).
  split; [exact ex_conn_ok|].
  split. { apply single; [repeat split; first [reflexivity | vm_compute; discriminate | repeat constructor]|sent]. }
  split; [reflexivity|]. vm_compute. reflexivity.
Qed.

(** The acknowledgement of an empty CRYPTO frame at offset 0 acknowledges the whole stream. *)
Lemma ack_empty_crypto_wrong : exists c w room l c', conn_ok c /\ w = WCrypto 0 [] /\ wframe_ok w /\ write_frame w room = Some l /\
  outstanding c (KCrypto 2 700) /\
  process_ack_of_frames c PtHandshake (Some 0) l = AOk c' true /\ ~ outstanding c' (KCrypto 2 700).
Proof.
  exists ex_conn, (WCrypto 0 []), 1200, (frame_bytes (WCrypto 0 [])).
  destruct (process_ack_of_frames ex_conn PtHandshake (Some 0) (frame_bytes (WCrypto 0 []))) as [c' all| |] eqn:E; [|vm_compute in E; discriminate..].
  exists c'. split; [exact ex_conn_ok|]. split; [reflexivity|].
  split. { repeat split; first [vm_compute; discriminate | constructor]. }
  split; [vm_compute; reflexivity|]. split. { intros (a & b & [] & _). }
  vm_compute in E. injection E as <- <-. split; [reflexivity|]. intro H. apply H. vm_compute.
  eexists _, _. split; [left; reflexivity|]. split; vm_compute; discriminate.
Qed.
