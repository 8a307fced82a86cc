(** Specification of what a server does with datagrams of unknown connections, from RFC
    9000 sections 5.2.2, 6, 8.1, 10.3, 14.1 and 17.2. *)
From Verif Require Import Base Varint_model Varint_spec Mem Header_model Header_spec Protect_model Protect_spec
  Rtoken_model Rtoken_spec Segment_model.

(** Number of connections created. *)
Definition is_create (a : action) : bool := match a with ACreate _ _ _ => true | _ => false end.
Definition created (acts : list action) : N := N.of_nat (length (filter is_create acts)).

(** The ids under which connections were created. *)
Definition created_ids (acts : list action) : list (list N) :=
  flat_map (fun a => match a with ACreate d _ _ => [d] | _ => [] end) acts.

(** RFC 9000 section 17.2.2: [seg] starts with an Initial packet of header [head] (up to the
    packet number), followed by [plen] bytes. *)
Definition initial_at (seg : list N) (vi vn : N) (dcid scid token head : list N) (plen : N) : Prop :=
  exists v2 q low rest after,
    version_entry vi = Some (vn, v2) /\ low < 16 /\
    head = long_start v2 PtInitial q low vn dcid scid ++ rest /\ long_rest PtInitial token plen rest /\
    seg = head ++ after /\ plen <= blen after.

(** The packet is authentic under the Initial keys of its version and destination id: its
    bytes are the protection of a header and of a ciphertext that decrypts under them. *)
Definition authentic (cy : crypto) (seg head : list N) (plen pn : N) : Prop :=
  exists hdr cipher text, cy_dec cy pn hdr cipher = Some text /\
    protect_packet_header cy (hdr ++ cipher) (blen head) 15 = Some (firstn (N.to_nat (blen head + plen)) seg).

(** Address validation of a creation: [v] tells whether the address is validated, [half] is
    the number of half open connections before. *)
Definition validation (cf : sconf) (pe : peer) (now half : N) (dcid token : list N) (pn : N) (v : bool) (od : list N) : Prop :=
  if v then
    exists reg w, verify_retry_token (sf_ticket cf) reg (pe_ip pe) now dcid (u32 pn) token true = Some w /\
      v_ok w = true /\ od = v_odcid w
  else
    od = [] /\ sf_force_token cf = false /\ half < sf_max_half_open cf /\ addr_refused cf pe = false /\
    (token = [] \/ exists reg w, verify_retry_token (sf_ticket cf) reg (pe_ip pe) now dcid (u32 pn) token true = Some w /\
      v_ok w = false /\ v_new w = Some true).

(** The bytes of a stateless packet, if the action is one. *)
Definition reply_of (a : action) : option (list N) :=
  match a with ACreate _ _ _ => None | AVersion b | ARetry b | ABusy b | AReset b => Some b end.
Definition is_reply (a : action) : Prop := match a with AVersion _ | ARetry _ | ABusy _ => True | _ => False end.
Definition is_busy (a : action) : bool := match a with ABusy _ => true | _ => false end.
Definition bytes_out (acts : list action) : N :=
  fold_right (fun a n => match reply_of a with Some b => blen b + n | None => n end) 0 acts.

(** What is required of the environment of a server: its functions return outputs of the
    right sizes, and the draws of a reserved version give two different values. *)
Record env_ok (cf : sconf) (lk : lookup) (rns : nat -> rnd) : Prop := {
  eo_read : forall vi d, ciphers_ok (fst (sf_keys cf vi d));
  eo_write : forall vi d, ciphers_ok (snd (sf_keys cf vi d));
  eo_ticket : aead_ok (sf_ticket cf);
  eo_tag : forall vi p, blen (sf_retry_tag cf vi p) = 16;
  eo_secret : forall d, blen (sf_secret cf d) = 16;
  eo_cid : forall i, blen (rn_cid (rns i)) = lk_cid_len lk;
  eo_cid_len : lk_cid_len lk <= 20;
  eo_nonce : forall i, blen (rn_nonce (rns i)) = 8 /\ bytes_ok (rn_nonce (rns i));
  eo_draws : forall i vn, exists d, In d (rn_vns (rns i)) /\ N.lor (N.land d 4042322160) 168430090 <> vn
}.

(** A history: datagrams with their times, senders, random values and the behaviour of the
    known connections; each is handled in the state left by the one before, possibly after
    connections came or went (an arbitrary change of the tables and counters). *)
Record arrival := mk_arrival {
  ar_known : phdr -> bool; ar_rns : nat -> rnd; ar_peer : peer; ar_now : N; ar_bytes : list N;
  ar_lk : lookup; ar_conns : N; ar_half : N; ar_reg : registry
}.
Fixpoint history (cf : sconf) (next_reset : N) (l : list arrival) : option (list (N * action)) :=
  match l with
  | [] => Some []
  | a :: r =>
    match incoming_packet cf (ar_known a) (mk_sstate (ar_lk a) (ar_conns a) (ar_half a) (ar_reg a) next_reset)
            (ar_rns a) (ar_peer a) (ar_now a) (ar_bytes a) with
    | None => None
    | Some (st, acts) =>
      match history cf (st_next_reset st) r with
      | None => None
      | Some log => Some (map (pair (ar_now a)) acts ++ log)
      end
    end
  end.

(** The times of the resets, in order. *)
Definition reset_times (log : list (N * action)) : list N :=
  flat_map (fun x => match snd x with AReset _ => [fst x] | _ => [] end) log.

(** Successive times are at least [d] apart. *)
Fixpoint spaced (d : N) (l : list N) : Prop :=
  match l with
  | a :: ((b :: _) as r) => a + d <= b /\ spaced d r
  | _ => True
  end.

(** No forged token: whatever part of the datagram decrypts under the ticket key has the
    beginning of the texts that the server seals: a time, an id, and something after it. *)
Definition sealed_text (text : list N) : Prop :=
  exists t d r, text = t ++ blen d :: d ++ r /\ blen t = 8 /\ r <> [].
Definition tokens_ok (cf : sconf) (pe : peer) (bytes : list N) : Prop :=
  forall a c b n text, bytes = a ++ c ++ b -> ae_dec (sf_ticket cf) n (pe_ip pe) c = Some text -> sealed_text text.

(** The server can take another connection. *)
Definition server_ready (cf : sconf) (st : sstate) : Prop :=
  sf_client_only cf = false /\ sf_busy cf = false /\ st_conns st < sf_max_conns cf.

(** It wants the address to be validated first. *)
Definition wants_token (cf : sconf) (st : sstate) (pe : peer) : bool :=
  sf_force_token cf || (sf_max_half_open cf <=? st_half st) || addr_refused cf pe.

(** Replies other than the refusals by a busy server. *)
Definition not_busy (a : action) : bool := negb (is_busy a).
