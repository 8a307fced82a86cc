(** Property C34: handshake bytes reach TLS in order and unaltered.

    A history is any sequence of CRYPTO frames at any epoch and of calls of the TLS
    processing; the TLS stack is arbitrary. *)
From Verif Require Import Base Reasm_model Reasm_spec Crypto_model Crypto_spec Crypto_proofs.

(** At any time, the bytes passed to TLS at an epoch are a prefix of the peer's bytes
    of that epoch, all received, each once. *)
Theorem C34_always_prefix : forall T (P : tls T) t0 (D : N -> list N) ops c e,
  (forall e, Forall (carries (D e)) (crypto_frames e ops)) -> crun P (ccnx0 t0) ops = Some c ->
  exists n, handed e (cr_out c) = firstn (N.to_nat n) (D e) /\ n <= blen (D e) /\
    forall i, i < n -> covered (crypto_frames e ops) i.
Proof. exact crypto_prefix. Qed.
Print Assumptions C34_always_prefix.

(** A TLS stack that goes from epoch 0 to epoch 2 when it has seen a byte 9. *)
Definition ex_tls : tls N :=
  mk_tls N (fun t => t) (fun t e d => (if existsb (N.eqb 9) d then N.max t 2 else t, TlsContinue)).
(** Frames out of order and overlapping at two epochs. *)
Definition ex_cops : list cop :=
  [CoFrame 0 2 [3; 4]; CoProcess; CoFrame 2 0 [11; 12]; CoFrame 0 1 [2; 3; 4; 9]; CoFrame 2 1 [12; 13];
   CoProcess; CoFrame 0 0 [1; 2; 3]].

Example C34_always_prefix_ex :
  (forall e, Forall (carries (if e =? 0 then [1; 2; 3; 4; 9] else [11; 12; 13])) (crypto_frames e ex_cops)) /\
  match crun ex_tls (ccnx0 0) ex_cops with Some c => handed 0 (cr_out c) = [] | None => False end.
Proof.
  split; [|vm_compute; reflexivity]. intros e. unfold ex_cops, crypto_frames. cbn [flat_map].
  destruct (N.eqb_spec e 0) as [->|H0].
  - cbn [N.eqb app]. repeat constructor; try discriminate.
    + exists [1; 2], [9]. split; reflexivity.
    + exists [1], []. split; reflexivity.
    + exists [], [4; 9]. split; reflexivity.
  - destruct (N.eqb_spec 0 e); [congruence|]. destruct (N.eqb_spec 2 e); cbn [app]; repeat constructor; try discriminate.
    + exists [], [13]. split; reflexivity.
    + exists [11], []. split; reflexivity.
Qed.

(** After a call of the processing that raises no error, TLS has received exactly the
    longest contiguous prefix of the epoch it was reading before the call, and of the
    one it reads after. *)
Theorem C34_exact : forall T (P : tls T) t0 (D : N -> list N) ops c c' e,
  forward P -> (forall t e d, snd (tls_handle P t e d) <> TlsStop) ->
  (forall e, Forall (carries (D e)) (crypto_frames e ops)) ->
  crun P (ccnx0 t0) ops = Some c -> crun P c [CoProcess] = Some c' -> cr_err c' = None -> e < 4 ->
  tls_read_epoch P (cr_tls c) = e \/ tls_read_epoch P (cr_tls c') = e ->
  exists n, longest_covered (crypto_frames e ops) n /\ handed e (cr_out c') = firstn (N.to_nat n) (D e).
Proof. exact crypto_exact. Qed.
Print Assumptions C34_exact.

(** With the same history: both epochs are complete after the call. *)
Example C34_exact_ex :
  forward ex_tls /\ (forall t e d, snd (tls_handle ex_tls t e d) <> TlsStop) /\
  match crun ex_tls (ccnx0 0) ex_cops with
  | Some c => match crun ex_tls c [CoProcess] with
              | Some c' => cr_err c' = None /\ tls_read_epoch ex_tls (cr_tls c) = 0 /\ tls_read_epoch ex_tls (cr_tls c') = 2 /\
                           handed 0 (cr_out c') = [1; 2; 3; 4; 9] /\ handed 2 (cr_out c') = [11; 12; 13]
              | None => False end
  | None => False end.
Proof.
  split; [|split].
  - intros t e d. cbn [ex_tls tls_handle tls_read_epoch fst]. destruct (existsb _ d); lia.
  - intros t e d. discriminate.
  - vm_compute. repeat split.
Qed.

(** Whatever the frames contain (even contradictory data) and whatever TLS answers, no
    access is out of bounds, and the bytes kept at an epoch are at most the allowed gap
    or the largest frame. *)
Theorem C34_bounded : forall T (P : tls T) t0 M ops, crypto_gap <= M ->
  (forall e off d, In (CoFrame e off d) ops -> blen d <= M) ->
  exists c, crun P (ccnx0 t0) ops = Some c /\ forall e, buffered c e <= M.
Proof. exact @crypto_bounded. Qed.
Print Assumptions C34_bounded.

Example C34_bounded_ex :
  match crun ex_tls (ccnx0 0) [CoFrame 3 5 [1; 2]; CoFrame 3 4 [7; 7; 7; 7; 7]; CoFrame 3 16384 [1]; CoProcess] with
  | Some c => buffered c 3 = 5 /\ cr_err c = Some 13
  | None => False end.
Proof. vm_compute. split; reflexivity. Qed.
