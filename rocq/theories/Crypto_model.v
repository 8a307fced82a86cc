(** Model of the CRYPTO streams of a connection (definitions only).

    The TLS stack is a parameter: a state, the epoch it reads and its reaction to
    handshake bytes.  Sending of its answers and the resulting changes of the
    connection state are not modelled.  Memory allocation always succeeds. *)
From Verif Require Import Base Reasm_model.

(** Reaction of ptls_handle_message as seen by the loop of picoquic/tls_api.c
    2458-2530: continue (return code 0 or "in progress", or "stateless retry" with an
    answer queued, 2476-2485), stop ("stateless retry" without answer), or failure. *)
Inductive tls_ret := TlsContinue | TlsStop | TlsFail.

(** The TLS stack: ptls_get_read_epoch (picoquic/tls_api.c 2440) and ptls_handle_message
    (2475). *)
Record tls (T : Type) := mk_tls {
  tls_read_epoch : T -> N;
  tls_handle : T -> N -> list N -> T * tls_ret }.
Arguments tls_read_epoch {T}.
Arguments tls_handle {T}.

(** One CRYPTO stream, tls_stream[epoch] (picoquic/picoquic_internal.h 803-849):
    consumed_offset and stream_data_tree. *)
Definition cstream : Type := N * list chunk.

(** The four streams, the TLS state, the calls of ptls_handle_message so far (epoch
    and bytes) and the last connection error. *)
Record ccnx (T : Type) := mk_ccnx {
  cr_streams : N -> cstream; cr_tls : T; cr_out : list (N * list N); cr_err : option N }.
Arguments mk_ccnx {T}.
Arguments cr_streams {T}.
Arguments cr_tls {T}.
Arguments cr_out {T}.
Arguments cr_err {T}.

(** Assignment to tls_stream[e]. *)
Definition cset (s : N -> cstream) (e : N) (v : cstream) : N -> cstream :=
  fun x => if x =? e then v else s x.

(** picoquic/picoquic.h 149, PICOQUIC_MAX_CRYPTO_BUFFER_GAP. *)
Definition crypto_gap : N := 16384.

(** picoquic/frames.c 2284-2316, picoquic_decode_crypto_hs_frame after the parsing of
    the frame: offset and data.  [None]: out-of-bounds access. *)
Definition decode_crypto {T} (c : ccnx T) (epoch off : N) (d : list N) : option (ccnx T) :=
  let '(consumed, tree) := cr_streams c epoch in
  if (consumed <? off) && (consumed + crypto_gap <? off + blen d) then
    Some (mk_ccnx (cr_streams c) (cr_tls c) (cr_out c) (Some 0xD))
  else
    match queue_network_input tree consumed off d with
    | None => None
    | Some (t, _) => Some (mk_ccnx (cset (cr_streams c) epoch (consumed, t)) (cr_tls c) (cr_out c) (cr_err c))
    end.

(** picoquic/tls_api.c 2458-2530: the loop that passes the data of one epoch to TLS; the
    second component is the consumed_offset.  [None]: [epoch_data] underflows (2462). *)
Fixpoint push {T} (P : tls T) (epoch : N) (tree : list chunk) (consumed : N) (t : T)
  : option (list chunk * N * T * list (N * list N) * tls_ret) :=
  match tree with
  | [] => Some ([], consumed, t, [], TlsContinue)
  | c :: rest =>
    if c_off c <=? consumed then
      let start := consumed - c_off c in
      if start <=? blen (c_data c) then
        let d := skipn (N.to_nat start) (c_data c) in
        let '(t1, ret) := tls_handle P t epoch d in
        match ret with
        | TlsContinue =>
          match push P epoch rest (consumed + blen d) t1 with
          | None => None
          | Some (tree2, consumed2, t2, out, r) => Some (tree2, consumed2, t2, (epoch, d) :: out, r)
          end
        | _ => Some (rest, consumed + blen d, t1, [(epoch, d)], ret)
        end
      else None
    else Some (tree, consumed, t, [], TlsContinue)
  end.

(** picoquic/tls_api.c 2425-2626, picoquic_tls_stream_process: the loop over the
    epochs, from [epoch] on.  A failure of TLS is recorded as the internal error
    (2611-2622; the code may be the TLS alert instead) and the loop goes on. *)
Fixpoint tls_process {T} (P : tls T) (n : nat) (epoch : N) (c : ccnx T) : option (ccnx T) :=
  match n with
  | O => Some c
  | S n' =>
    let '(consumed, tree) := cr_streams c epoch in
    let next := tls_read_epoch P (cr_tls c) in
    if next <? epoch then Some c
    else if epoch <? next then
      match tree with
      | x :: _ =>
        if consumed <? c_off x then Some (mk_ccnx (cr_streams c) (cr_tls c) (cr_out c) (Some 0xA))
        else tls_process P n' (epoch + 1) c
      | [] => tls_process P n' (epoch + 1) c
      end
    else
      match push P epoch tree consumed (cr_tls c) with
      | None => None
      | Some (tree2, consumed2, t2, out, r) =>
        tls_process P n' (epoch + 1)
          (mk_ccnx (cset (cr_streams c) epoch (consumed2, tree2)) t2 (cr_out c ++ out)
             (match r with TlsFail => Some 1 | _ => cr_err c end))
      end
  end.

(** Events: a CRYPTO frame received at an epoch, and the call of
    picoquic_tls_stream_process that follows the decoding of the frames of a packet
    (picoquic/packet.c 1438, 1662, 1716, 1764, 1843, 1982). *)
Inductive cop := CoFrame (epoch off : N) (d : list N) | CoProcess.

(** One event. *)
Definition cstep {T} (P : tls T) (c : ccnx T) (o : cop) : option (ccnx T) :=
  match o with
  | CoFrame e off d => decode_crypto c e off d
  | CoProcess => tls_process P 4 0 c
  end.

(** A history. *)
Fixpoint crun {T} (P : tls T) (c : ccnx T) (ops : list cop) : option (ccnx T) :=
  match ops with
  | [] => Some c
  | o :: t => match cstep P c o with None => None | Some c' => crun P c' t end
  end.

(** picoquic/quicctx.c 4051-4068: the streams of a new connection. *)
Definition ccnx0 {T} (t : T) : ccnx T := mk_ccnx (fun _ => (0, [])) t [] None.
