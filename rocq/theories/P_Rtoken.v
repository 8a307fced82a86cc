(** C43: an address validation token is accepted exactly when it was made for the address,
    has not expired, was not used and fits the packet that carries it; it is accepted at
    most once. *)
From Verif Require Import Base Varint_model Varint_spec Mem Header_model Rtoken_model Rtoken_spec Rtoken_proofs Rtoken2_proofs.

(** The verdict on every token that the server made, in every state of the table of used
    tokens: the original connection id comes back, and acceptance is characterised. *)
Theorem C43_exact : forall ae reg addr now rcid' ipn token time odcid rcid pn, aead_ok ae -> bytes_ok token ->
  issued ae addr time odcid rcid pn token ->
  exists v, verify_retry_token ae reg addr now rcid' ipn token true = Some v /\
    v_new v = Some (match odcid with [] => true | _ => false end) /\ v_odcid v = odcid /\
    (v_ok v = true <->
     now <= expiry time odcid /\ ~ In (expiry time odcid, last8 token) reg /\
     (odcid <> [] -> rcid' = rcid /\ (pn < ipn \/ ipn = 4294967295))).
Proof. exact verify_issued. Qed.
Print Assumptions C43_exact.

Definition ex_addr : list N := [10; 0; 0; 1].
Definition ex_tok : list N :=
  match prepare_retry_token toy_aead ex_addr 1000 [1;2;3;4;5;6;7;8] [9;9;9;9] 2 [200;1;2;3;4;5;6;7] 256 with
  | Some (Some t) => t | _ => [] end.
Lemma ex_issued : aead_ok toy_aead /\ bytes_ok ex_tok /\ issued toy_aead ex_addr 1000 [1;2;3;4;5;6;7;8] [9;9;9;9] 2 ex_tok.
Proof.
  split; [exact toy_aead_ok|]. split.
  - unfold bytes_ok. apply Forall_forall. intros x Hx. unfold is_byte.
    assert (A : forallb (fun b => b <? 256) ex_tok = true) by (vm_compute; reflexivity).
    rewrite forallb_forall in A. apply N.ltb_lt, A, Hx.
  - split; [|vm_compute; repeat split; discriminate].
    exists [200;1;2;3;4;5;6;7]. split; [reflexivity|]. split; [repeat constructor|vm_compute; reflexivity].
Qed.
Example C43_exact_ex : nth 0 ex_tok 0 = 72 /\
  verify_retry_token toy_aead [] ex_addr 5000 [9;9;9;9] 3 ex_tok true =
    Some (mk_verdict true (Some false) [1;2;3;4;5;6;7;8] [(4001000, last8 ex_tok)]) /\
  (exists v, verify_retry_token toy_aead [] ex_addr 5000 [9;9;9;9] 2 ex_tok true = Some v /\ v_ok v = false) /\
  (exists v, verify_retry_token toy_aead [] ex_addr 4001001 [9;9;9;9] 3 ex_tok true = Some v /\ v_ok v = false).
Proof. split; [vm_compute; reflexivity|]. split; [vm_compute; reflexivity|]. split; eexists; (split; [vm_compute; reflexivity|reflexivity]). Qed.

(** In every history of presentations with a clock that does not go back, from any state
    of the table, a token made for one address is accepted at most once. *)
Theorem C43_once : forall ae addr time odcid rcid pn token, aead_ok ae -> bytes_ok token ->
  issued ae addr time odcid rcid pn token -> bound_to ae addr token ->
  forall l reg now reg' log, clock_ok now l -> presents ae reg l = Some (reg', log) ->
  times_accepted token log <= 1.
Proof. exact accepted_once. Qed.
Print Assumptions C43_once.

Lemma ex_bound : bound_to toy_aead ex_addr ex_tok.
Proof.
  intros a Ha. set (n := be_value (firstn 8 ex_tok)). set (c := skipn 8 ex_tok).
  cbn [toy_aead ae_dec]. set (p := map (N.lxor 90) (firstn (length c - 16) c)).
  assert (T : skipn (length c - 16) c = toy_seal n ex_addr p) by (vm_compute; reflexivity).
  destruct (blen c <? 16); [reflexivity|]. cbv zeta. rewrite T.
  destruct (list_eq_dec N.eq_dec (toy_seal n ex_addr p) (toy_seal n a p)) as [E|_]; [|reflexivity].
  exfalso. apply Ha. apply (f_equal (skipn 2)) in E. clearbody n p. clear T c. unfold ex_addr in *.
  destruct a as [|a0 [|a1 [|a2 [|a3 [|a4 r]]]]]; cbn [toy_seal skipn] in E; try discriminate E.
  apply (f_equal (firstn 5)) in E. cbn [firstn app] in E. injection E as <- <- <- <-. reflexivity.
Qed.
Example C43_once_ex : bound_to toy_aead ex_addr ex_tok /\ clock_ok 0 [mk_present ex_addr 10 [9;9;9;9] 3 ex_tok; mk_present ex_addr 20 [9;9;9;9] 4 ex_tok] /\
  match presents toy_aead [] [mk_present ex_addr 10 [9;9;9;9] 3 ex_tok; mk_present ex_addr 20 [9;9;9;9] 4 ex_tok] with
  | Some (reg, log) => map snd log = [true; false] /\ times_accepted ex_tok log = 1
  | None => False
  end.
Proof. split; [exact ex_bound|]. split; [cbn; lia|]. vm_compute. split; reflexivity. Qed.

(** Whatever the token: it is accepted only if its text decrypts with the address of the
    sender as authenticated data. *)
Theorem C43_authentic : forall ae reg addr now rcid ipn token reuse v, bytes_ok token ->
  verify_retry_token ae reg addr now rcid ipn token reuse = Some v -> v_ok v = true ->
  8 <= blen token /\ blen token <= 128 /\
  exists text, ae_dec ae (be_value (firstn 8 token)) addr (skipn 8 token) = Some text.
Proof. exact verify_foreign. Qed.
Print Assumptions C43_authentic.

Example C43_authentic_ex :
  (exists v, verify_retry_token toy_aead [] [10; 0; 0; 2] 5000 [9;9;9;9] 3 ex_tok true = Some v /\ v_ok v = false).
Proof. eexists. split; [vm_compute; reflexivity|reflexivity]. Qed.

(** The table of used tokens does not grow for ever: whenever a token is accepted, what
    has expired was removed. *)
Theorem C43_table : forall ae l reg log addr now rcid' ipn token time odcid rcid pn v,
  aead_ok ae -> bytes_ok token -> issued ae addr time odcid rcid pn token ->
  presents ae [] l = Some (reg, log) ->
  verify_retry_token ae reg addr now rcid' ipn token true = Some v -> v_ok v = true ->
  forall x, In x (v_reg v) -> now <= fst x.
Proof. exact table_current. Qed.
Print Assumptions C43_table.

Definition ex_new : list N :=
  match prepare_retry_token toy_aead ex_addr 5000000 [] [] 0 [1;1;2;3;4;5;6;7] 256 with
  | Some (Some t) => t | _ => [] end.
Example C43_table_ex :
  match presents toy_aead [] [mk_present ex_addr 10 [9;9;9;9] 3 ex_tok] with
  | Some (reg, _) => reg = [(4001000, last8 ex_tok)] /\
    match verify_retry_token toy_aead reg ex_addr 6000000 [] 0 ex_new true with
    | Some v => v_ok v = true /\ v_new v = Some true /\ v_reg v = [(86405000000, last8 ex_new)]
    | None => False
    end
  | None => False
  end.
Proof. vm_compute. repeat split. Qed.

(** Finding: a text that decrypts but cannot be decoded is accepted, each time
    (tls_api.c 2882-2886 does not set the return code). *)
Theorem C43_malformed_refuted : exists ae addr token, aead_ok ae /\
  forall reg now rcid ipn, verify_retry_token ae reg addr now rcid ipn token true = Some (mk_verdict true (Some false) [] reg).
Proof.
  exists toy_aead, ex_addr, ([0;0;0;0;0;0;0;1] ++ ae_enc toy_aead 1 ex_addr [5; 5]). split; [exact toy_aead_ok|].
  intros reg now rcid ipn. vm_compute. reflexivity.
Qed.
Print Assumptions C43_malformed_refuted.
