(** Specification of version negotiation and Retry, from RFC 8999 section 6, RFC 9000
    sections 6, 17.2.1 and 17.2.5, and RFC 9001 section 5.8. *)
From Verif Require Import Base Varint_model Varint_spec Mem Header_model Header_spec Protect_model Protect_spec
  Rtoken_model Rtoken_spec Segment_model Segment_spec Cneg_model.

(** RFC 8999 section 6: a version negotiation packet. *)
Definition vn_packet (first : N) (dcid scid : list N) (versions : list N) : list N :=
  first :: be32 0 ++ (blen dcid :: dcid) ++ (blen scid :: scid) ++ flat_map be32 versions.

(** RFC 9000 section 15: the reserved versions 0x?a?a?a?a. *)
Definition reserved_version (v : N) : Prop := N.land v 252645135 = 168430090 /\ v < 4294967296.

(** The versions of the table. *)
Definition supported (v : N) : Prop := In v (map fst supported_versions).

(** RFC 9000 section 17.2.5 and RFC 9001 section 5.8: a Retry packet with its integrity
    tag, which covers the original destination id. *)
Definition retry_packet_of (tag : N -> list N -> list N) (vi vn : N) (v2 q : bool) (low : N) (dcid scid token odcid : list N) : list N :=
  let h := long_start v2 PtRetry q low vn dcid scid ++ token in
  h ++ tag vi (blen odcid :: odcid ++ h).

(** The client waits for an answer to its first packet, and nothing else was received. *)
Definition waiting (ct : cstate) : Prop := ct_phase ct = CInitSent \/ ct_phase ct = CInitResent.

(** The client finds its connection for a long header with its local id. *)
Definition finds (lk : lookup) (ct : cstate) : Prop :=
  blen (ct_local ct) <= 20 /\
  find_other lk (ct_local ct) <> None /\ find_long lk PtRetry (ct_local ct) <> None.

(** The fields that a Retry changes. *)
Definition retried (ct : cstate) (scid token : list N) : cstate :=
  mk_cstate (ct_phase ct) (ct_local ct) scid (ct_initial ct) (ct_proposed ct) (ct_vi ct) token.

(** The sender of the client [c] agrees with its state [ct]. *)
Record same_client (c : sctx) (ct : cstate) : Prop := {
  sm_client : sc_client c = true;
  sm_remote : sc_remote0 c = [];
  sm_local : sc_local0 c = ct_local ct;
  sm_initial : sc_initial_cid c = ct_initial ct;
  sm_token : sc_token c = ct_token ct;
  sm_version : sc_version_index c = ct_vi ct
}.
