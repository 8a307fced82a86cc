(** Witnesses for transport parameters: an example of a connection, and blocks that the code
    reads otherwise than it should. *)
From Verif Require Import Base Tac Varint_model Varint_spec Varint_proofs Header_model Header_spec Lb_spec Stream_model Tparam_model Tparam_spec Tparam_proofs Tparam2_proofs
  Tparam6_proofs Tparam7_proofs Tparam8_proofs.

(** A client and a server of version 1 and their parameters. *)
Definition ex_params (f : tpf) : N :=
  match f with
  | FDataBidiLocal => 2097152 | FDataBidiRemote => 65635 | FDataUni => 65535 | FMaxData => 1048576 | FStreamsBidi => 512
  | FStreamsUni => 512 | FIdle => 120000 | FPacketSize => 1440 | FAckDelay => 10000 | FCidLimit => 8 | FExponent => 3
  | FMinAckDelay => 1000 | FGrease => 1 | FLossBit => 1 | FMultipath => 1 | FMaxPathId => 2 | FAddress => 3 | _ => 0
  end.
Definition ex_secret (c : list N) : list N := [1; 2; 3; 4; 5; 6; 7; 8; 9; 10; 11; 12; 13; 14; 15; 16].
Definition ex_client : tcfg := mk_cfg true [1; 2; 3; 4] [9; 8; 7; 6; 5] [50; 51; 52; 53; 54; 55; 56; 57] [] 0x6b3343cf true false false false ex_secret.
Definition ex_server : tcfg := mk_cfg false [9; 8; 7; 6; 5] [1; 2; 3; 4] [50; 51; 52; 53; 54; 55; 56; 57] [] 0 false false false false ex_secret.
Definition ex_tp : tpar := mk_tp ex_params None.
Definition ex_none : tpar := mk_tp (fun _ => 0) None.
Definition ex_neg : tneg := mk_neg 0 0 false 0 0 0 false false false false false false.
Definition ex_cst : tst := mk_st ex_tp ex_none 0 true true false [] None 0 0 0 0 false false.
Definition ex_address : pref := mk_pref [10; 0; 0; 1] 4433 (repeat 32 16) 4433 [7; 7; 7; 7] (repeat 99 16).
Definition ex_sst : tst := mk_st (mk_tp ex_params (Some ex_address)) ex_none 0 true true false [] None 0 0 0 0 false false.

Lemma ex_num : forall f, ex_params f < 2 ^ 62.
Proof. intro f. destruct f; reflexivity. Qed.

Lemma ex_pref_is : is_pref ex_address (pref_bytes ex_address) /\ bytes_ok (pref_bytes ex_address).
Proof. split; [repeat split; try reflexivity; vm_compute; discriminate|]. repeat constructor. Qed.

Lemma ex_client_sendable : sendable ex_client ex_cst.
Proof.
  apply mk_sendable.
  - exact ex_num.
  - split; vm_compute; discriminate.
  - vm_compute; discriminate.
  - split; vm_compute; discriminate.
  - vm_compute; discriminate.
  - split; reflexivity.
  - right. vm_compute; discriminate.
  - repeat split; vm_compute; discriminate.
  - repeat split; vm_compute; discriminate.
  - intros a Ha. discriminate Ha.
  - intros c [-> |[-> | ->]]; (split; [vm_compute; discriminate|repeat constructor]).
  - intros c. split; [reflexivity|repeat constructor].
  - reflexivity.
  - right. split; [cbn [In supported ex_client g_desired]; tauto|]. right. split; [reflexivity|left; reflexivity].
  - reflexivity.
Qed.

Lemma ex_server_sendable : sendable ex_server ex_sst.
Proof.
  apply mk_sendable.
  - exact ex_num.
  - split; vm_compute; discriminate.
  - vm_compute; discriminate.
  - split; vm_compute; discriminate.
  - vm_compute; discriminate.
  - split; reflexivity.
  - right. vm_compute; discriminate.
  - repeat split; vm_compute; discriminate.
  - repeat split; vm_compute; discriminate.
  - intros a Ha. injection Ha as <-. split; [reflexivity|]. split; [reflexivity|]. exists (pref_bytes ex_address). exact ex_pref_is.
  - intros c [-> |[-> | ->]]; (split; [vm_compute; discriminate|repeat constructor]).
  - intros c. split; [reflexivity|repeat constructor].
  - reflexivity.
  - left. reflexivity.
  - reflexivity.
Qed.

Lemma ex_peer_server : peer ex_client ex_cst ex_server ex_sst.
Proof. constructor; try reflexivity; discriminate. Qed.
Lemma ex_peer_client : peer ex_server ex_sst ex_client ex_cst.
Proof. constructor; try reflexivity; try discriminate. intros _. repeat split. Qed.

(** The required parameter of a client, and a block with one more. *)
Definition hello (t : N) (v : list N) : list N := [15; 4; 1; 2; 3; 4] ++ varint_bytes t ++ varint_bytes (blen v) ++ v.

Lemma hello_params : forall t v, t < 2 ^ 62 -> blen v < 2 ^ 62 -> params (hello t v) [(15, [1; 2; 3; 4]); (t, v)].
Proof.
  intros t v Ht Hv. apply (ps_cons 15 [1; 2; 3; 4] [15] [4] (varint_bytes t ++ varint_bytes (blen v) ++ v)).
  - change [15] with (varint_bytes 15). apply varint_bytes_is_varint. reflexivity.
  - change [4] with (varint_bytes 4). apply varint_bytes_is_varint. reflexivity.
  - rewrite <- (app_nil_r v) at 2. apply ps_cons; [| |constructor]; apply varint_bytes_is_varint; assumption.
Qed.

Lemma varint_value : forall n, n < 2 ^ 62 -> is_varint n (varint_bytes n).
Proof. intros n H. apply varint_bytes_is_varint. exact H. Qed.

Theorem w_duplicate : exists g s bytes ps, index_ok (s_vi s) /\ s_error s = None /\ params bytes ps /\
  (exists t a b, In t known_types /\ In (t, a) ps /\ In (t, b) ps /\ a <> b) /\ exists s' n, receive 1 g s ex_neg bytes = TDone s' n true /\ s_error s' = None.
Proof.
  exists ex_server, ex_sst, ([15; 4; 1; 2; 3; 4] ++ (varint_bytes 0x1057 ++ [1] ++ [0]) ++ (varint_bytes 0x1057 ++ [1] ++ [1])), [(15, [1; 2; 3; 4]); (0x1057, [0]); (0x1057, [1])].
  split; [reflexivity|]. split; [reflexivity|]. split.
  - assert (V : forall t v, t < 2 ^ 62 -> v < 64 -> params (varint_bytes t ++ [1] ++ [v]) [(t, [v])]).
    { intros t v Ht Hv. apply (ps_cons t [v] (varint_bytes t) [1] []); [apply varint_value; exact Ht| |constructor]. change [1] with (varint_bytes 1). apply varint_value. reflexivity. }
    apply (params_app [15; 4; 1; 2; 3; 4] [(15, [1; 2; 3; 4])] _ [(0x1057, [0]); (0x1057, [1])]).
    + apply (ps_cons 15 [1; 2; 3; 4] [15] [4] []); [change [15] with (varint_bytes 15)|change [4] with (varint_bytes 4)|constructor]; apply varint_value; reflexivity.
    + apply (params_app _ [(0x1057, [0])] _ [(0x1057, [1])]); apply V; reflexivity.
  - split; [|eexists; eexists; split; [vm_compute; reflexivity|reflexivity]]. exists 0x1057, [0], [1]. split; [cbn; tauto|]. split; [cbn; tauto|]. split; [cbn; tauto|discriminate].
Qed.

Lemma misread_hello : forall t n f x, t < 2 ^ 62 -> n < 2 ^ 62 ->
  (exists s' k, receive 1 ex_server ex_sst ex_neg (hello t (varint_bytes n)) = TDone s' k true /\ s_error s' = None /\ tp_n (s_remote s') f = x) -> misread t n f x.
Proof.
  intros t n f x Ht Hn H. exists ex_server, ex_sst, ex_neg, (hello t (varint_bytes n)), (varint_bytes n). split; [reflexivity|]. split; [reflexivity|]. split.
  - apply hello_params; [exact Ht|]. change (2 ^ 62) with 4611686018427387904. pose proof (varint_len8 n). lia.
  - split; [apply varint_value; exact Hn|exact H].
Qed.

Ltac witness := apply misread_hello; [reflexivity|reflexivity|]; eexists; eexists; split; [vm_compute; reflexivity|split; vm_compute; reflexivity].

Theorem w_exponent : misread 10 21 FExponent 21 /\ misread 10 259 FExponent 3.
Proof. split; witness. Qed.
Theorem w_ack_delay : misread 11 16384 FAckDelay 16384000 /\ misread 11 4294968 FAckDelay 704.
Proof. split; witness. Qed.
Theorem w_cid_limit : misread 14 1 FCidLimit 1 /\ misread 14 4294967297 FCidLimit 1.
Proof. split; witness. Qed.
Theorem w_streams : misread 8 1152921504606846977 FStreamsBidi 1152921504606846977.
Proof. witness. Qed.
Theorem w_datagram : misread 32 4294967296 FDatagram 0.
Proof. witness. Qed.

Theorem w_streams_zero : exists g s bytes v, g_client g = false /\ index_ok (s_vi s) /\ s_error s = None /\ params bytes [(15, [1; 2; 3; 4]); (8, v)] /\ is_varint 0 v /\
  exists s' k, receive 1 g s ex_neg bytes = TDone s' k true /\ s_error s' = None /\ s_bidir s' = 2 ^ 64 - 3.
Proof.
  exists ex_server, ex_sst, (hello 8 (varint_bytes 0)), (varint_bytes 0). split; [reflexivity|]. split; [reflexivity|]. split; [reflexivity|]. split.
  - apply hello_params; reflexivity.
  - split; [apply varint_value; reflexivity|]. eexists; eexists; split; [vm_compute; reflexivity|split; vm_compute; reflexivity].
Qed.

Theorem w_preferred_empty : exists g s bytes ps, g_client g = true /\ index_ok (s_vi s) /\ s_error s = None /\ params bytes ps /\ In (13, []) ps /\
  exists s' k, receive 1 g s ex_neg bytes = TDone s' k true /\ s_error s' = None.
Proof.
  exists ex_client, ex_cst, ([15; 5; 9; 8; 7; 6; 5] ++ [0; 8; 50; 51; 52; 53; 54; 55; 56; 57] ++ [13; 0]), [(15, [9; 8; 7; 6; 5]); (0, [50; 51; 52; 53; 54; 55; 56; 57]); (13, [])].
  split; [reflexivity|]. split; [reflexivity|]. split; [reflexivity|]. split.
  - apply (ps_cons 15 [9; 8; 7; 6; 5] [15] [5] ([0; 8; 50; 51; 52; 53; 54; 55; 56; 57] ++ [13; 0])); [apply (varint_value 15)|apply (varint_value 5)|]; try reflexivity.
    apply (ps_cons 0 [50; 51; 52; 53; 54; 55; 56; 57] [0] [8] [13; 0]); [apply (varint_value 0)|apply (varint_value 8)|]; try reflexivity.
    apply (ps_cons 13 [] [13] [0] []); [apply (varint_value 13)|apply (varint_value 0)|constructor]; reflexivity.
  - split; [cbn; tauto|]. eexists; eexists; split; [vm_compute; reflexivity|reflexivity].
Qed.

(** The port of the IPv6 address. *)
Definition ex_address2 : pref := mk_pref [10; 0; 0; 1] 4433 (repeat 32 16) 443 [7; 7; 7; 7] (repeat 99 16).
Definition ex_sst2 : tst := mk_st (mk_tp ex_params (Some ex_address2)) ex_none 0 true true false [] None 0 0 0 0 false false.

Theorem w_port : exists ga sa gb sb bytes a, peer ga sa gb sb /\ tp_pref (s_local sa) = Some a /\ (exists v, is_pref a v) /\ prepare ga sa 2048 = Some bytes /\
  exists s' k b, receive 1 gb sb ex_neg bytes = TDone s' k true /\ s_error s' = None /\ tp_pref (s_remote s') = Some b /\ pa_port6 a = 443 /\ pa_port6 b = 4433.
Proof.
  destruct (prepare ex_server ex_sst2 2048) as [bytes|] eqn:E; [|vm_compute in E; discriminate].
  exists ex_server, ex_sst2, ex_client, ex_cst, bytes, ex_address2. split; [constructor; try reflexivity; try discriminate; intros _; repeat split|]. split; [reflexivity|].
  split. { exists (pa_ip4 ex_address2 ++ be_bytes 2 4433 ++ pa_ip6 ex_address2 ++ be_bytes 2 443 ++ [4] ++ pa_cid ex_address2 ++ pa_token ex_address2). repeat split; try reflexivity; vm_compute; discriminate. }
  split; [exact E|]. vm_compute in E. apply some_inj in E. subst bytes. eexists; eexists; eexists. split; [vm_compute; reflexivity|]. split; [reflexivity|]. split; [vm_compute; reflexivity|]. split; reflexivity.
Qed.

(** A limit of 0 connection ids is not sent. *)
Definition ex_zero : tst := mk_st (mk_tp (fun f => match f with FCidLimit => 0 | _ => ex_params f end) None) ex_none 0 true true false [] None 0 0 0 0 false false.

Lemma ex_zero_sendable : sendable ex_client ex_zero.
Proof.
  apply mk_sendable.
  - intro f. destruct f; reflexivity.
  - split; vm_compute; discriminate.
  - vm_compute; discriminate.
  - split; vm_compute; discriminate.
  - vm_compute; discriminate.
  - split; reflexivity.
  - left. reflexivity.
  - repeat split; vm_compute; discriminate.
  - repeat split; vm_compute; discriminate.
  - intros a Ha. discriminate Ha.
  - intros c [-> |[-> | ->]]; (split; [vm_compute; discriminate|repeat constructor]).
  - intros c. split; [reflexivity|repeat constructor].
  - reflexivity.
  - right. split; [cbn [In supported ex_client g_desired]; tauto|]. right. split; [reflexivity|left; reflexivity].
  - reflexivity.
Qed.

Theorem w_limit_zero : exists ga sa gb sb bytes, sendable ga sa /\ tp_n (s_local sa) FCidLimit = 0 /\ prepare ga sa 2048 = Some bytes /\ g_client gb = negb (g_client ga) /\
  exists s' k, receive 1 gb sb ex_neg bytes = TDone s' k true /\ s_error s' = None /\ tp_n (s_remote s') FCidLimit = 2.
Proof.
  destruct (prepare ex_client ex_zero 2048) as [bytes|] eqn:E; [|vm_compute in E; discriminate].
  exists ex_client, ex_zero, ex_server, ex_sst, bytes. split.
  - exact ex_zero_sendable.
  - split; [reflexivity|]. split; [exact E|]. split; [reflexivity|]. vm_compute in E. apply some_inj in E. subst bytes.
    eexists; eexists. split; [vm_compute; reflexivity|]. split; reflexivity.
Qed.

(** A client of draft 29 that prefers version 2: the server never ends the search. *)
Definition ex_sst29 : tst := mk_st (mk_tp ex_params None) ex_none 7 true true false [] None 0 0 0 0 false false.
Definition ex_loop : list N := hello 17 (flat_map be32 [0xff00001d; 0x6b3343cf]).

Lemma upgrade_never : forall fuel l i old, nth i l 0 <> 0 -> nth i l 0 <> old -> upgrade_loop fuel l i old = UFuel.
Proof.
  intros fuel l i old H1 H2. induction fuel as [|fuel IH]; [reflexivity|]. cbn [upgrade_loop]. apply N.eqb_neq in H1, H2. rewrite H1, H2. exact IH.
Qed.

Lemma process_never : forall fuel, process_version_upgrade fuel 7 1 = UFuel.
Proof. intro fuel. apply (upgrade_never fuel [1; 0] 0 0xff00001d); discriminate. Qed.

Theorem w_hang : exists g s bytes vs v, g_client g = false /\ version_of (s_vi s) = 0xff00001d /\ s_error s = None /\ params bytes [(15, [1; 2; 3; 4]); (17, v)] /\ versions vs v /\
  forall fuel, receive fuel g s ex_neg bytes = THang.
Proof.
  exists ex_server, ex_sst29, ex_loop, [0xff00001d; 0x6b3343cf], (flat_map be32 [0xff00001d; 0x6b3343cf]).
  split; [reflexivity|]. split; [reflexivity|]. split; [reflexivity|]. split; [apply hello_params; reflexivity|]. split; [split; [reflexivity|repeat constructor]|].
  intro fuel. transitivity (match process_version_upgrade fuel 7 1 with UFuel => THang | _ => receive fuel ex_server ex_sst29 ex_neg ex_loop end); [|rewrite process_never; reflexivity].
  cbv -[process_version_upgrade]. rewrite process_never. reflexivity.
Qed.

(** A client of version 1 that prefers draft 29: the other parameters are not read, and there
    is no error. *)
Definition ex_silent : list N := varint_bytes 17 ++ varint_bytes 8 ++ flat_map be32 [1; 0xff00001d] ++ [3; 1; 1].

Theorem w_silent : exists (g : tcfg) (s : tst) (bytes vs v : list N) (n : N) (w : list N), g_client g = false /\ version_of (s_vi s) = 1 /\ s_error s = None /\ params bytes [(17, v); (3, w)] /\ versions vs v /\ is_varint n w /\ n < 1200 /\ exists s' k, receive 1 g s ex_neg bytes = TDone s' k false /\ s_error s' = None.
Proof.
  exists ex_server, ex_sst, ex_silent, [1; 0xff00001d], (flat_map be32 [1; 0xff00001d]), 1, [1].
  split; [reflexivity|]. split; [reflexivity|]. split; [reflexivity|]. split.
  - apply (ps_cons 17 (flat_map be32 [1; 0xff00001d]) (varint_bytes 17) (varint_bytes 8) [3; 1; 1]); [apply varint_value|apply varint_value|]; try reflexivity.
    apply (ps_cons 3 [1] [3] [1] []); [apply (varint_value 3)|apply (varint_value 1)|constructor]; reflexivity.
  - split; [split; [reflexivity|repeat constructor]|]. split; [apply (varint_value 1); reflexivity|]. split; [reflexivity|].
    eexists; eexists; split; [vm_compute; reflexivity|reflexivity].
Qed.

(** The exchange of parameters of the example. *)
Definition after (x : tres) : tst := match x with TDone s _ _ => s | THang => ex_cst end.
Definition ex_b1 : list N := match prepare ex_client ex_cst 2048 with Some b => b | None => [] end.
Definition ex_sst1 : tst := after (receive 1 ex_server ex_sst ex_neg ex_b1).
Definition ex_cst1 : tst := mk_st ex_tp ex_none 1 true true false [] None 0 0 0 0 false false.
Definition ex_b2 : list N := match prepare ex_server ex_sst1 2048 with Some b => b | None => [] end.

Lemma ex_sst1_sendable : sendable ex_server ex_sst1.
Proof.
  apply mk_sendable.
  - intro f. destruct f; vm_compute; reflexivity.
  - split; vm_compute; discriminate.
  - vm_compute; discriminate.
  - split; vm_compute; discriminate.
  - vm_compute; discriminate.
  - split; vm_compute; reflexivity.
  - right. vm_compute; discriminate.
  - repeat split; vm_compute; first [discriminate|reflexivity].
  - repeat split; vm_compute; discriminate.
  - intros a Ha. assert (tp_pref (s_local ex_sst1) = Some ex_address) as E by (vm_compute; reflexivity). rewrite E in Ha. injection Ha as <-.
    split; [reflexivity|]. split; [reflexivity|]. exists (pref_bytes ex_address). exact ex_pref_is.
  - intros c [-> |[-> | ->]]; (split; [vm_compute; discriminate|repeat constructor]).
  - intros c. split; [reflexivity|repeat constructor].
  - vm_compute; reflexivity.
  - left. reflexivity.
  - reflexivity.
Qed.

Lemma ex_exchange :
  g_client ex_client = true /\ sendable ex_client ex_cst /\ peer ex_client ex_cst ex_server ex_sst /\ prepare ex_client ex_cst 2048 = Some ex_b1 /\
  sendable ex_server ex_sst1 /\ peer ex_server ex_sst1 ex_client ex_cst1 /\ s_local ex_cst1 = s_local ex_cst /\ prepare ex_server ex_sst1 2048 = Some ex_b2 /\
  (exists ns, receive 1 ex_server ex_sst ex_neg ex_b1 = TDone ex_sst1 ns true /\ n_multi ns = true /\ n_mp_remote ns = 2 /\ n_idle ns = 120000000 /\ version_of (s_vi ex_sst1) = 0x6b3343cf) /\
  exists s nc, receive 1 ex_client ex_cst1 ex_neg ex_b2 = TDone s nc true.
Proof.
  split; [reflexivity|]. split; [exact ex_client_sendable|]. split; [exact ex_peer_server|]. split; [vm_compute; reflexivity|]. split; [exact ex_sst1_sendable|].
  split; [constructor; try (vm_compute; reflexivity); vm_compute; intros; try discriminate; repeat split|]. split; [reflexivity|]. split; [vm_compute; reflexivity|]. split.
  - eexists. split; [vm_compute; reflexivity|]. vm_compute. repeat split.
  - eexists. eexists. vm_compute. reflexivity.
Qed.
