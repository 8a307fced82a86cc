(** C24: the store only hands out tokens that were accepted for the same server (and
    address if one is given), that have not expired and that were not used already.
    C25: a serialized token is read back exactly; arbitrary bytes are read safely. *)
From Verif Require Import Base Mem Token_model Token_spec Token_proofs Token2_proofs.

(** Every history of calls is defined: no read outside of a record, no endless loop. *)
Theorem C24_defined : forall evs, forallb sane_tev evs = true -> exists s log, trun ts0 evs = Some (s, log).
Proof. exact history_defined. Qed.
Print Assumptions C24_defined.

(** In every history, a token handed out was accepted earlier for the same server name,
    less than a day before, and for the same address when one is given. *)
Theorem C24_valid : forall evs s log l1 now sni ip mark tok l2, forallb sane_tev evs = true ->
  trun ts0 evs = Some (s, log) ->
  log = l1 ++ (EvGet now sni ip mark, TGot tok) :: l2 ->
  exists ip', accepted l1 now sni ip' tok /\ (ip <> [] -> ip' = ip).
Proof. exact got_valid. Qed.
Print Assumptions C24_valid.

(** No token is handed out for use more often than it was accepted, in every history
    where the file is not loaded when a token was used after it was saved. *)
Theorem C24_once_partial : forall evs s log sni tok, forallb sane_tev evs = true -> fresh_loads false evs = true ->
  trun ts0 evs = Some (s, log) -> times_used sni tok log <= times_stored sni tok log.
Proof. exact used_once. Qed.
Print Assumptions C24_once_partial.

(** Without that condition a token is used twice. *)
Theorem C24_reload_refuted : exists evs s log sni tok, forallb sane_tev evs = true /\
  trun ts0 evs = Some (s, log) /\ times_stored sni tok log = 1 /\ times_used sni tok log = 2.
Proof.
  exists [EvStore 5 [1] [] [7; 8]; EvSave 6; EvGet 7 [1] [] true; EvLoad 8; EvGet 9 [1] [] true].
  eexists. eexists. exists [1], [7; 8]. split; [reflexivity |]. split; [vm_compute; reflexivity |]. split; reflexivity.
Qed.
Print Assumptions C24_reload_refuted.

(** In a list of non-empty tokens (all reachable lists, below), the answer is exact: no
    token only if none can be used, else one that can be used, the one that expires last
    if no address is given, and it alone is marked. *)
Theorem C24_exact : forall now sni ip mark l l' r, (forall t, In t l -> tk_tok t <> []) ->
  get_token now sni ip mark l = (l', r) ->
  match r with
  | None => l' = l /\ forall t, In t l -> ~ usable now sni ip t
  | Some tok => exists l1 t l2, l = l1 ++ t :: l2 /\ l' = l1 ++ set_used t mark :: l2 /\ tk_tok t = tok /\
      usable now sni ip t /\ (ip = [] -> forall u, In u l -> usable now sni ip u -> tk_valid u <= tk_valid t)
  end.
Proof. exact get_exact. Qed.
Print Assumptions C24_exact.
Theorem C24_reachable : forall evs s log, forallb sane_tev evs = true -> trun ts0 evs = Some (s, log) ->
  forall t, In t (ts_list s) -> tk_tok t <> [].
Proof. exact reachable_tokens. Qed.
Print Assumptions C24_reachable.

(** A token accepted for an address is found until it is a day old, replaced or used,
    whatever else is stored, requested and saved. *)
Theorem C24_available : forall now sni ip tok s s1 evs s2 log now' mark, now < 9223372036854775808 ->
  ip <> [] -> tstep s (EvStore now sni ip tok) = Some (s1, TStored) ->
  forallb (leaves sni ip) evs = true -> trun s1 evs = Some (s2, log) -> now' < now + one_day ->
  exists s3, tstep s2 (EvGet now' sni ip mark) = Some (s3, TGot tok).
Proof. exact stored_available. Qed.
Print Assumptions C24_available.

Example C24_ex :
  let evs := [EvStore 5 [97] [10; 1] [7; 8]; EvStore 6 [97] [10; 2] [9]; EvStore 7 [98] [10; 1] [6]; EvGet 8 [97] [10; 1] true;
              EvSave 9; EvFresh; EvLoad 10; EvGet 11 [97] [10; 1] true; EvGet 12 [97] [] false; EvGet 13 [97] [] true;
              EvGet (7 + one_day) [98] [] true] in
  forallb sane_tev evs = true /\ fresh_loads false evs = true /\
  match trun ts0 evs with
  | Some (s, log) =>
    map snd log = [TStored; TStored; TStored; TGot [7; 8]; TNothing; TNothing; TNothing; TNothing; TGot [9]; TGot [9]; TNothing] /\
    length (ts_list s) = 2%nat /\ times_used [97] [9] log = 1
  | None => False
  end /\
  forallb (leaves [97] [10; 1]) [EvStore 6 [97] [10; 2] [9]; EvGet 8 [98] [] true; EvGet 9 [97] [] false; EvSave 10] = true.
Proof. vm_compute. repeat split. Qed.

(** ** C25 *)
(** A serialized token fits in the buffer and is read back exactly, to the last byte,
    unless all its strings are empty. *)
Theorem C25_round_trip : forall t b max, sane_token t -> 14 < record_size t -> serialize t max = Some b ->
  blen b = record_size t /\ blen b <= max /\ deserialize b = Some (Some (set_used t false, blen b)).
Proof. exact token_round_trip. Qed.
Print Assumptions C25_round_trip.

(** A token with empty strings loses its expiration time. *)
Theorem C25_empty_refuted : exists t b, sane_token t /\ serialize t 2048 = Some b /\
  deserialize b = Some (Some (mk_token 0 [] [] [] false, blen b)) /\ tk_valid t <> 0.
Proof.
  exists (mk_token 77 [] [] [] false). eexists. split; [| split; [vm_compute; reflexivity | split; [vm_compute; reflexivity | discriminate]]].
  unfold sane_token. cbn. repeat match goal with |- _ /\ _ => split end; try apply Forall_nil; reflexivity.
Qed.
Print Assumptions C25_empty_refuted.

(** Arbitrary bytes are read safely; the token fits its types and accounts for the bytes
    consumed. *)
Theorem C25_safe : forall m, bytes_ok m -> exists r, deserialize m = Some r /\
  forall t c, r = Some (t, c) -> c <= blen m /\ sane_token t /\ tk_used t = false /\ record_size t = c.
Proof. exact deserialize_safe. Qed.
Print Assumptions C25_safe.

(** Wrong bytes are accepted: here the length of the address is announced as 256 and the
    record is read as one without address. *)
Theorem C25_malformed_refuted : exists m t, bytes_ok m /\ deserialize m = Some (Some (t, blen m)) /\
  serialize t 2048 <> Some m /\ nth 11 m 0 = 1 /\ nth 12 m 0 = 0 /\ tk_ip t = [].
Proof.
  exists [0;0;0;0;0;0;0;9; 0;1; 97; 1;0; 0;0], (mk_token 9 [97] [] [] false).
  split; [repeat constructor |]. split; [vm_compute; reflexivity |]. split; [vm_compute; discriminate |]. repeat split.
Qed.
Print Assumptions C25_malformed_refuted.

(** Any file is loaded without reading outside of a record or looping. *)
Theorem C25_load_safe : forall now file l, bytes_ok file -> exists l' ok, load_tokens now file l = LdDone l' ok.
Proof. exact load_tokens_safe. Qed.
Print Assumptions C25_load_safe.

(** A saved list is loaded exactly, without the tokens that were used or that expired in
    between, if the records have at most 2016 bytes. *)
Theorem C25_file : forall now now' l, Forall sane_token l -> (forall t, In t l -> 14 < record_size t <= 2016) ->
  let file := fst (save_tokens now l) in
  snd (save_tokens now l) = true /\
  load_loop (S (length file)) now' file [] =
    LdDone (filter (fun t => ((now <? tk_valid t) && negb (tk_used t)) && negb (tk_valid t <? now')) l) true.
Proof. exact save_load. Qed.
Print Assumptions C25_file.

(** A record of 2017 to 2048 bytes is saved and can not be loaded; what follows it in
    the file is lost. *)
Theorem C25_file_refuted : exists l, Forall sane_token l /\ snd (save_tokens 5 l) = true /\ length l = 2%nat /\
  load_loop (S (length (fst (save_tokens 5 l)))) 5 (fst (save_tokens 5 l)) [] = LdDone [] false.
Proof.
  exists [mk_token 9 [97] [] (repeat 7 2002) false; mk_token 9 [98] [] [7] false].
  split; [| split; [vm_compute; reflexivity | split; [reflexivity | vm_compute; reflexivity]]].
  assert (B : bytes_ok (repeat 7 2002)) by (apply Forall_forall; intros x Hx; apply repeat_spec in Hx; subst; reflexivity).
  constructor; [| constructor; [| constructor]]; unfold sane_token; cbn [tk_valid tk_sni tk_ip tk_tok];
    repeat match goal with |- _ /\ _ => split end; try exact B; try (vm_compute; reflexivity); repeat constructor.
Qed.
Print Assumptions C25_file_refuted.

Example C25_ex :
  let t := mk_token 1234567 [97; 98] [10; 0; 0; 1] [1; 2; 3] true in
  14 < record_size t /\
  match serialize t 2048 with
  | Some b => blen b = 23 /\ deserialize b = Some (Some (mk_token 1234567 [97; 98] [10; 0; 0; 1] [1; 2; 3] false, 23))
  | None => False
  end /\
  deserialize [0; 1; 2] = Some None /\
  load_tokens 5 [3; 0; 0; 0; 1] [] = LdDone [] false /\
  snd (save_tokens 5 [t; set_used t false]) = true /\ blen (fst (save_tokens 5 [t; set_used t false])) = 27.
Proof. vm_compute. repeat split. Qed.
