(** Specification vocabulary for transport parameters: RFC 9000 section 18, RFC 9221,
    RFC 9287, RFC 9368 and the extensions that the library negotiates. *)
From Verif Require Import Base Varint_spec Header_spec Lb_spec Tparam_model.

(** ** Blocks of parameters *)

(** A block is a sequence of parameters: type, length, value. *)
Inductive params : list N -> list (N * list N) -> Prop :=
| ps_nil : params [] []
| ps_cons : forall t v bt bl rest ps, is_varint t bt -> is_varint (blen v) bl -> params rest ps ->
    params (bt ++ bl ++ v ++ rest) ((t, v) :: ps).

(** Parameters that are a number without other restriction in the extensions. *)
Definition plain_types : list N :=
  [1; 4; 5; 6; 7; 8; 9; 10; 14; 32; 0x0f739bbc1b666d0d].

(** The types with a meaning. *)
Definition known_types : list N :=
  plain_types ++ [0; 2; 3; 11; 12; 13; 15; 16; 17; 0x1057; 0x2ab2; 0x7158; 0xebd9; 0xff04de1b; 0x9f81a176].

(** The ranges of RFC 9000 section 18.2 that the library does not check. *)
Definition rfc_range (t n : N) : Prop :=
  (t = 8 \/ t = 9 -> n <= 2 ^ 60) /\ (t = 10 -> n <= 20) /\ (t = 14 -> 2 <= n).

(** A preferred address (RFC 9000 section 18.2, figure 22). *)
Definition is_pref (a : pref) (v : list N) : Prop :=
  v = pa_ip4 a ++ be_bytes 2 (pa_port4 a) ++ pa_ip6 a ++ be_bytes 2 (pa_port6 a) ++ [blen (pa_cid a)] ++ pa_cid a ++ pa_token a /\
  blen (pa_ip4 a) = 4 /\ blen (pa_ip6 a) = 16 /\ blen (pa_token a) = 16 /\ 1 <= blen (pa_cid a) <= 20 /\
  pa_port4 a < 65536 /\ pa_port6 a < 65536.

(** A list of versions. *)
Definition versions (vs : list N) (v : list N) : Prop := v = flat_map be32 vs /\ Forall (fun x => x < 2 ^ 32) vs.

(** The versions that the library supports, in its order of preference. *)
Definition supported : list N :=
  [1; 0x6b3343cf; 0x709a50c4; 0xff000022; 0xff000021; 0xff000020; 0xff00001f; 0xff00001d; 0xff00001e; 0xff00001c;
   0xff00001b; 0x50435131; 0x50435130].

(** The version a server chooses: the first one of the client's list that it supports, or
    the current one. *)
Definition chosen (cur : N) (vs : list N) (x : N) : Prop :=
  (exists a b, vs = a ++ x :: b /\ In x supported /\ forall y, In y a -> ~ In y supported) \/
  ((forall y, In y vs -> ~ In y supported) /\ x = cur).

(** The version information of a client on a connection of version [cur]: the current
    version, then its list, from which [x] is chosen.  If not [strict], the end of the list
    after the chosen version can be anything. *)
Definition version_list (strict : bool) (cur : N) (v : list N) (x : N) : Prop :=
  exists vs w tail, v = w ++ tail /\ versions (cur :: vs) w /\ chosen cur vs x /\
    (tail = [] \/ (strict = false /\ exists y, In y vs /\ In y supported)).

(** Upgrades that exist: from version 1 to version 2 or its draft. *)
Definition can_upgrade (cur x : N) : Prop := x = cur \/ (cur = 1 /\ (x = 0x6b3343cf \/ x = 0x709a50c4)).

(** Valid parameters.  [strict]: with all the ranges of the RFC; otherwise also what the library
    accepts in addition (numbers out of range, an empty preferred address).  [cur] is the version of the
    connection, [hcid] the connection id of the sender. *)
Inductive good_param (strict from_server : bool) (cur : N) (hcid : list N) : N -> list N -> Prop :=
| gp_plain : forall t v n, In t plain_types -> is_varint n v -> (strict = true -> rfc_range t n) ->
    good_param strict from_server cur hcid t v
| gp_packet_size : forall v n, is_varint n v -> 1200 <= n <= 65527 -> good_param strict from_server cur hcid 3 v
| gp_ack_delay : forall v n, is_varint n v ->
    (if strict then n < 2 ^ 14 else ((n mod 2 ^ 32) * 1000) mod 2 ^ 32 <= 2 ^ 14 * 1000) ->
    good_param strict from_server cur hcid 11 v
| gp_reset_token : forall v, from_server = true -> blen v = 16 -> good_param strict from_server cur hcid 2 v
| gp_flag : forall t, t = 12 \/ t = 0x2ab2 -> good_param strict from_server cur hcid t []
| gp_preferred : forall v a, is_pref a v -> good_param strict from_server cur hcid 13 v
| gp_preferred_empty : strict = false -> good_param strict from_server cur hcid 13 []
| gp_cid : forall t v, t = 0 \/ t = 16 -> blen v <= 20 -> good_param strict from_server cur hcid t v
| gp_hcid : blen hcid <= 20 -> good_param strict from_server cur hcid 15 hcid
| gp_loss_bit : forall v n, is_varint n v -> n <= 1 -> good_param strict from_server cur hcid 0x1057 v
| gp_min_ack_delay : forall v n, is_varint n v -> 1 <= n < 2 ^ 24 -> good_param strict from_server cur hcid 0xff04de1b v
| gp_time_stamp : forall v n, is_varint n v -> 1 <= n <= 3 -> good_param strict from_server cur hcid 0x7158 v
| gp_bdp : forall v n, is_varint n v -> n <= 1 -> good_param strict from_server cur hcid 0xebd9 v
| gp_address : forall v n, is_varint n v -> n <= 2 -> good_param strict from_server cur hcid 0x9f81a176 v
| gp_version_server : forall v vs, from_server = true -> versions (cur :: vs) v ->
    good_param strict from_server cur hcid 17 v
| gp_version_client : forall v x, from_server = false -> version_list strict cur v x -> can_upgrade cur x ->
    good_param strict from_server cur hcid 17 v
| gp_unknown : forall t v, ~ In t known_types -> good_param strict from_server cur hcid t v.

(** ** Values *)

(** The type of the parameter that sets a field. *)
Definition field_type (f : tpf) : N :=
  match f with
  | FIdle => 1 | FPacketSize => 3 | FMaxData => 4 | FDataBidiLocal => 5 | FDataBidiRemote => 6 | FDataUni => 7
  | FStreamsBidi => 8 | FStreamsUni => 9 | FExponent => 10 | FAckDelay => 11 | FNoMigration => 12 | FCidLimit => 14
  | FDatagram => 32 | FLossBit => 0x1057 | FGrease => 0x2ab2 | FTimeStamp => 0x7158 | FBdp => 0xebd9
  | FMinAckDelay => 0xff04de1b | FMultipath | FMaxPathId => 0x0f739bbc1b666d0d | FAddress => 0x9f81a176
  end.

(** What the value of a parameter means for the field: a number, milliseconds for a time in
    microseconds, the presence for flags, a mode counted from 1. *)
Definition means (f : tpf) (v : list N) (x : N) : Prop :=
  match f with
  | FNoMigration | FGrease | FMultipath => x = 1
  | FAckDelay => exists n, is_varint n v /\ x = n * 1000
  | FLossBit | FAddress => exists n, is_varint n v /\ x = n + 1
  | _ => is_varint x v
  end.

(** The value when the parameter is absent; [own] is the length of the connection ids of the
    receiver. *)
Definition absent (own : N) (f : tpf) : N :=
  match f with FExponent => 3 | FAckDelay => 25000 | FCidLimit => if own =? 0 then 0 else 2 | _ => 0 end.

(** The value of a field according to a block. *)
Definition says (own : N) (ps : list (N * list N)) (f : tpf) (x : N) : Prop :=
  (exists v, In (field_type f, v) ps /\ means f v x) \/ (~ In (field_type f) (map fst ps) /\ x = absent own f).

(** The fields of 8 and 32 bits. *)
Definition narrow (f : tpf) (x : N) : Prop :=
  match f with FExponent => x < 2 ^ 8 | FCidLimit | FDatagram | FAckDelay => x < 2 ^ 32 | _ => True end.

(** Parameters that the sender must give: its own connection id (since draft 28), and for a
    server the id the client sent to first, and the id of the Retry packet if there was one.
    A client must not send the ones of servers. *)
Definition required (g : tcfg) (ver : N) (ps : list (N * list N)) : Prop :=
  let has t := In t (map fst ps) in
  if g_client g then
    (ver = 0xff00001b -> ~ has 15 -> g_original g <> [] -> In (0, g_original g) ps) /\
    (ver <> 0xff00001b -> has 15) /\
    (has 15 -> if list_eq_dec N.eq_dec (g_original g) [] then In (0, g_initial g) ps /\ ~ has 16
               else In (0, g_original g) ps /\ In (16, g_initial g) ps)
  else ~ has 2 /\ ~ has 13 /\ ~ has 0 /\ ~ has 16 /\ (ver <> 0xff00001b -> has 15).

(** The version after the block. *)
Definition version_after (strict : bool) (g : tcfg) (cur : N) (ps : list (N * list N)) (ver : N) : Prop :=
  (exists v, In (17, v) ps /\ g_client g = false /\ version_list strict cur v ver) \/
  ((forall v, In (17, v) ps -> g_client g = true) /\ ver = cur).

(** No type below 64 occurs twice ([all]: no type at all). *)
Definition distinct (all : bool) (ps : list (N * list N)) : Prop :=
  NoDup (filter (fun t => all || (t <? 64)) (map fst ps)).

(** A valid block. *)
Definition block (strict : bool) (g : tcfg) (cur : N) (bytes : list N) (ps : list (N * list N)) (ver : N) : Prop :=
  params bytes ps /\ distinct strict ps /\
  Forall (fun p => good_param strict (g_client g) cur (g_remote_cid g) (fst p) (snd p)) ps /\
  version_after strict g cur ps ver /\ required g ver ps.

(** An index of the table of versions. *)
Definition index_ok (vi : N) : Prop := vi < 13.

(** A parameter of a client that makes the server choose a version to which there is no
    upgrade; a block with such a parameter. *)
Definition bad_version (g : tcfg) (cur : N) (t : N) (v : list N) : Prop :=
  t = 17 /\ g_client g = false /\ exists x, version_list false cur v x /\ ~ can_upgrade cur x.
Definition some_bad_version (g : tcfg) (bytes : list N) : Prop :=
  exists head rest pre t v i, bytes = head ++ rest /\ params head (pre ++ [(t, v)]) /\ index_ok i /\ bad_version g (version_of i) t v.

(** The idle timeout in microseconds agreed from two values in milliseconds, 0 for none; no
    timeout is the largest number. *)
Definition idle_of (l m : N) : N :=
  if (l =? 0) && (m =? 0) then 2 ^ 64 - 1 else 1000 * (if l =? 0 then m else if m =? 0 then l else N.min l m).

(** The largest id of the streams that an endpoint can open when the peer allows [n] of them. *)
Definition largest_id (client uni : bool) (n : N) : N := 4 * (n - 1) + (if uni then 2 else 0) + (if client then 0 else 1).

(** What a reception takes from a block. *)
Record taken (g : tcfg) (s : tst) (ps : list (N * list N)) (ver : N) (s' : tst) (n : tneg) : Prop := mk_taken {
  tk_fields : forall f x, says (blen (g_local_cid g)) ps f x -> narrow f x -> tp_n (s_remote s') f = x;
  tk_pref : forall a v, In (13, v) ps -> is_pref a v -> tp_pref (s_remote s') = Some a;
  tk_no_pref : ~ In 13 (map fst ps) -> tp_pref (s_remote s') = None;
  tk_reset : forall v, In (2, v) ps -> s_reset s' = v;
  tk_no_reset : ~ In 2 (map fst ps) -> s_reset s' = s_reset s;
  tk_version : version_of (s_vi s') = ver;
  tk_maxdata : forall own x, says own ps FMaxData x -> s_maxdata s' = x;
  tk_bidir : forall own x, says own ps FStreamsBidi x -> 1 <= x -> x <> 2 ^ 32 - 1 -> s_bidir s' = largest_id (g_client g) false x;
  tk_uni : forall own x, says own ps FStreamsUni x -> 1 <= x -> x <> 2 ^ 32 - 1 -> s_uni s' = largest_id (g_client g) true x;
  tk_idle : forall own x, says own ps FIdle x -> x < 2 ^ 54 -> tp_n (s_local s) FIdle < 2 ^ 54 ->
    n_idle n = idle_of (tp_n (s_local s) FIdle) x }.

(** ** Round trip *)

(** Parameters that can be sent: in the ranges of the RFC and of the extensions.  The code
    writes the port of the IPv4 address twice, so both ports must be the same. *)
Record sendable (g : tcfg) (s : tst) : Prop := mk_sendable {
  sd_num : forall f, tp_n (s_local s) f < 2 ^ 62;
  sd_streams : tp_n (s_local s) FStreamsBidi <= 2 ^ 60 /\ tp_n (s_local s) FStreamsUni <= 2 ^ 60;
  sd_exponent : tp_n (s_local s) FExponent <= 20;
  sd_packet : 1200 <= tp_n (s_local s) FPacketSize <= 65527;
  sd_delay : tp_n (s_local s) FAckDelay <= (2 ^ 14 - 1) * 1000;
  sd_wide : tp_n (s_local s) FDatagram < 2 ^ 32 /\ tp_n (s_local s) FCidLimit < 2 ^ 32;
  sd_cid_limit : tp_n (s_local s) FCidLimit = 0 \/ 2 <= tp_n (s_local s) FCidLimit;
  sd_modes : tp_n (s_local s) FLossBit <= 2 /\ tp_n (s_local s) FTimeStamp <= 3 /\ tp_n (s_local s) FMinAckDelay < 2 ^ 24 /\
    tp_n (s_local s) FBdp <= 1 /\ tp_n (s_local s) FAddress <= 3;
  sd_flags : tp_n (s_local s) FNoMigration <= 1 /\ tp_n (s_local s) FGrease <= 1 /\ tp_n (s_local s) FMultipath <= 1;
  sd_pref : forall a, tp_pref (s_local s) = Some a -> g_client g = false /\ pa_port6 a = pa_port4 a /\ exists v, is_pref a v /\ bytes_ok v;
  sd_cids : forall c, c = g_local_cid g \/ c = g_initial g \/ c = g_original g -> blen c <= 20 /\ bytes_ok c;
  sd_secret : forall c, blen (g_secret g c) = 16 /\ bytes_ok (g_secret g c);
  sd_index : index_ok (s_vi s);
  sd_desired : g_desired g = 0 \/ (In (g_desired g) supported /\ can_upgrade (version_of (s_vi s)) (g_desired g));
  sd_flight : g_large_flight g = false }.

(** The other endpoint of the connection, before it receives the parameters. *)
Record peer (ga : tcfg) (sa : tst) (gb : tcfg) (sb : tst) : Prop := mk_peer {
  pe_role : g_client gb = negb (g_client ga);
  pe_cid : g_remote_cid gb = g_local_cid ga;
  pe_version : s_vi sb = s_vi sa;
  pe_retry : g_client gb = true -> g_original gb = g_original ga /\ g_initial gb = g_initial ga /\ (g_original ga = [] -> s_hcid sa = true);
  pe_error : s_error sb = None;
  pe_limit : tp_n (s_local sa) FCidLimit = 0 -> g_local_cid gb = [] }.

(** The value that the peer of an endpoint must obtain: max_ack_delay is rounded up to
    milliseconds; a server that does not limit datagrams announces 1536 bytes if the client
    supports them; the largest path id is only sent with multipath. *)
Definition expected (g : tcfg) (s : tst) (f : tpf) : N :=
  match f with
  | FAckDelay => 1000 * ((tp_n (s_local s) FAckDelay + 999) / 1000)
  | FDatagram => if negb (g_client g) && (tp_n (s_local s) FDatagram =? 0) && (0 <? tp_n (s_remote s) FDatagram) then 1536
                 else tp_n (s_local s) FDatagram
  | FMaxPathId => if tp_n (s_local s) FMultipath =? 0 then 0 else tp_n (s_local s) FMaxPathId
  | _ => tp_n (s_local s) f
  end.

(** What two endpoints agree on: multipath and its numbers of paths, the idle timeout, and
    who sends loss bits, time stamps and bandwidth reports. *)
Record agreement (c s : tneg) : Prop := mk_agreement {
  ag_multi : n_multi c = n_multi s;
  ag_paths : n_multi c = true -> n_mp_local c = n_mp_remote s /\ n_mp_remote c = n_mp_local s;
  ag_idle : n_idle c = n_idle s;
  ag_loss_out : n_loss_out c = n_loss_in s;
  ag_loss_in : n_loss_in c = n_loss_out s;
  ag_bdp : n_bdp c = n_bdp s;
  ag_stamps_on : n_ts_on c = n_ts_sent s;
  ag_stamps_sent : n_ts_sent c = n_ts_on s }.

(** A client sends its connection id and the number [n] for the parameter [t]; the server
    accepts it and the field [f] gets the value [x]. *)
Definition misread (t n : N) (f : tpf) (x : N) : Prop :=
  exists g s neg bytes v, index_ok (s_vi s) /\ s_error s = None /\ params bytes [(15, [1; 2; 3; 4]); (t, v)] /\ is_varint n v /\
    exists s' k, receive 1 g s neg bytes = TDone s' k true /\ s_error s' = None /\ tp_n (s_remote s') f = x.
