(** Proofs about the writing of transport parameters. *)
From Verif Require Import Base Tac Varint_model Varint_spec Varint_proofs Header_model Header_spec Header_proofs
  Cneg_proofs Token_proofs Rtoken_model Lb_spec Lb_proofs Stream_model Tparam_model Tparam_spec Tparam_proofs Tparam2_proofs Tparam3_proofs Tparam4_proofs Tparam5_proofs.

(** What a writer writes when it does, with at least one byte to spare. *)
Definition emits (w : writer) (b : list N) : Prop :=
  (forall room x, w room = Some x -> x = b) /\ (forall room, blen b < room -> w room = Some b).

Lemma emits_seq : forall w1 w2 a b, emits w1 a -> emits w2 b -> emits (w1 >>> w2) (a ++ b).
Proof.
  intros w1 w2 a b [A1 A2] [B1 B2]. split.
  - intros room x H. unfold wseq in H. destruct (w1 room) as [y|] eqn:E1; [|discriminate]. apply A1 in E1. subst y.
    destruct (w2 (room - blen a)) as [z|] eqn:E2; [|discriminate]. apply B1 in E2. subst z. apply some_inj in H. auto.
  - intros room H. rewrite blen_app in H. unfold wseq. rewrite A2 by lia. rewrite B2 by lia. reflexivity.
Qed.

Lemma emits_nil : emits wnil [].
Proof. split; [intros room x H; apply some_inj in H; auto|reflexivity]. Qed.

Lemma emits_varint : forall n, emits (frames_varint_encode n) (varint_bytes n).
Proof.
  intro n. split; intros room; rewrite frames_varint_encode_eq, <- varint_bytes_length.
  - intros x H. destruct (_ <=? _); [apply some_inj in H; auto|discriminate].
  - intro H. destruct (N.leb_spec (blen (varint_bytes n)) room); [reflexivity|lia].
Qed.

Lemma emits_put : forall v, emits (put_bytes v) v.
Proof.
  intro v. unfold put_bytes. split; intros room.
  - intros x H. destruct (_ <=? _); [apply some_inj in H; auto|discriminate].
  - intro H. destruct (N.leb_spec (blen v) room); [reflexivity|lia].
Qed.

Lemma varint_len8 : forall n, blen (varint_bytes n) <= 8.
Proof. intro n. rewrite varint_bytes_length. unfold encode_varint_length. destruct (n <? 16384); [destruct (n <? 64)|destruct (n <? 1073741824)]; lia. Qed.

Lemma small_varint : forall n, n < 64 -> varint_bytes n = [n].
Proof. intros n H. unfold varint_bytes. destruct (N.ltb_spec n 16384); [|lia]. destruct (N.ltb_spec n 64); [|lia]. unfold u8. rewrite N.mod_small by lia. reflexivity. Qed.

Lemma emits_tp_varint : forall n, emits (tp_varint_encode n) (varint_bytes (blen (varint_bytes n)) ++ varint_bytes n).
Proof.
  intro n. pose proof (varint_len8 n) as L. rewrite small_varint by lia. cbn [app]. destruct (emits_varint n) as [A B]. unfold tp_varint_encode. split; intros room.
  - intros x H. destruct (room <? 1); [discriminate|]. destruct (frames_varint_encode n (room - 1)) as [b|] eqn:E; [|discriminate].
    apply A in E. subst b. apply some_inj in H. rewrite <- H. unfold u8. rewrite N.mod_small by lia. reflexivity.
  - intro H. rewrite blen_cons in H. destruct (N.ltb_spec room 1); [lia|]. rewrite B by lia. unfold u8. rewrite N.mod_small by lia. reflexivity.
Qed.

(** Parameters. *)
Lemma params_app : forall a ps b qs, params a ps -> params b qs -> params (a ++ b) (ps ++ qs).
Proof.
  intros a ps b qs P Q. induction P as [|t v bt bl rest ps Ht Hl P IH]; [exact Q|].
  cbn [app]. rewrite <- !app_assoc. apply ps_cons; assumption.
Qed.

Definition sends (w : writer) (ps : list (N * list N)) (n : N) : Prop :=
  exists b, emits w b /\ params b ps /\ bytes_ok b /\ blen b <= n.

Lemma sends_seq : forall w1 w2 p1 p2 n1 n2, sends w1 p1 n1 -> sends w2 p2 n2 -> sends (w1 >>> w2) (p1 ++ p2) (n1 + n2).
Proof.
  intros w1 w2 p1 p2 n1 n2 (a & A1 & A2 & A3 & A4) (b & B1 & B2 & B3 & B4). exists (a ++ b).
  split; [apply emits_seq; assumption|]. split; [apply params_app; assumption|]. split; [apply Forall_app; auto|]. rewrite blen_app. lia.
Qed.

Lemma sends_nil : forall n, sends wnil [] n.
Proof. intro n. exists []. split; [apply emits_nil|]. split; [constructor|]. split; [constructor|]. cbn. lia. Qed.

Lemma sends_if : forall (c : bool) w p n, (c = true -> sends w [p] n) -> sends (wif c w) (if c then [p] else []) n.
Proof. intros c w p n H. destruct c; [apply H; reflexivity|apply sends_nil]. Qed.

(** One parameter, from its bytes. *)
Lemma sends_one : forall w t v bt bl n, emits w (bt ++ bl ++ v) -> is_varint t bt -> is_varint (blen v) bl -> bytes_ok v ->
  blen bt + blen bl + blen v <= n -> sends w [(t, v)] n.
Proof.
  intros w t v bt bl n E Ht Hl Hv Hn. exists (bt ++ bl ++ v). split; [exact E|].
  split; [rewrite <- (app_nil_r v) at 1; apply ps_cons; [exact Ht|exact Hl|constructor]|].
  split; [|rewrite !blen_app; lia].
  apply Forall_app. split; [destruct Ht as (c & _ & _ & _ & _ & H); exact H|]. apply Forall_app. split; [destruct Hl as (c & _ & _ & _ & _ & H); exact H|exact Hv].
Qed.

Lemma sends_varint : forall t x, t < two62 -> x < two62 -> sends (tp_type_varint t x) [(t, varint_bytes x)] 17.
Proof.
  intros t x Ht Hx. apply (sends_one _ _ _ (varint_bytes t) (varint_bytes (blen (varint_bytes x)))).
  - apply emits_seq; [apply emits_varint|apply emits_tp_varint].
  - apply varint_bytes_is_varint. exact Ht.
  - apply varint_bytes_is_varint. pose proof (varint_len8 x). unfold two62. lia.
  - apply varint_bytes_ok.
  - pose proof (varint_len8 x). pose proof (varint_len8 t). rewrite (small_varint (blen (varint_bytes x))) by lia. change (blen [blen (varint_bytes x)]) with 1. lia.
Qed.

Lemma sends_flag : forall t, t < two62 -> sends (tp_type_flag t) [(t, [])] 9.
Proof.
  intros t Ht. apply (sends_one _ _ _ (varint_bytes t) (varint_bytes 0)).
  - apply emits_seq; [apply emits_varint|]. rewrite app_nil_r. apply emits_varint.
  - apply varint_bytes_is_varint. exact Ht.
  - apply varint_bytes_is_varint. reflexivity.
  - constructor.
  - pose proof (varint_len8 t). change (blen (varint_bytes 0)) with 1. change (blen (@nil N)) with 0. lia.
Qed.

Lemma sends_cid : forall t cid, t < 64 -> blen cid <= 20 -> bytes_ok cid -> sends (tp_cid t cid) [(t, cid)] 22.
Proof.
  intros t cid Ht Hc Hb. apply (sends_one _ _ _ (varint_bytes t) (varint_bytes (blen cid))).
  - apply emits_seq; [apply emits_varint|]. unfold frames_cid_encode, frames_length_data_encode. apply emits_seq; [apply emits_varint|apply emits_put].
  - apply varint_bytes_is_varint. unfold two62. lia.
  - apply varint_bytes_is_varint. unfold two62. lia.
  - exact Hb.
  - rewrite !small_varint by lia. change (blen [t]) with 1. change (blen [blen cid]) with 1. lia.
Qed.

Lemma sends_reset : forall secret, blen secret = 16 -> bytes_ok secret -> sends (tp_reset_encode secret) [(2, secret)] 18.
Proof.
  intros secret L Hb. apply (sends_one _ _ _ (varint_bytes 2) (varint_bytes 16)).
  - unfold tp_reset_encode.
    assert (R : emits (fun room => if 16 <? room then Some secret else None) secret).
    { split; intro room; [intros x H; destruct (_ <? _); [apply some_inj in H; auto|discriminate]|].
      intro H. destruct (N.ltb_spec 16 room); [reflexivity|lia]. }
    first [apply emits_seq; [apply emits_varint|apply emits_seq; [apply emits_varint|exact R]]
          |rewrite app_assoc; apply emits_seq; [apply emits_seq; apply emits_varint|exact R]].
  - apply varint_bytes_is_varint. reflexivity.
  - rewrite L. apply varint_bytes_is_varint. reflexivity.
  - exact Hb.
  - rewrite L. change (blen (varint_bytes 2)) with 1. change (blen (varint_bytes 16)) with 1. lia.
Qed.

Definition pref_bytes (a : pref) : list N :=
  pa_ip4 a ++ be_bytes 2 (pa_port4 a) ++ pa_ip6 a ++ be_bytes 2 (pa_port6 a) ++ [blen (pa_cid a)] ++ pa_cid a ++ pa_token a.

Lemma sends_pref : forall a v, is_pref a v -> pa_port6 a = pa_port4 a -> bytes_ok v -> sends (tp_pref_encode a) [(13, v)] 63.
Proof.
  intros a v (E & L4 & L6 & Lt & Lc & P4 & P6) EP Hb.
  assert (Hlen : blen v = 25 + blen (pa_cid a) + 16).
  { rewrite E, !blen_app, L4, L6, Lt. unfold blen at 1 2 3. rewrite !be_bytes_length. cbn [length]. lia. }
  apply (sends_one _ _ _ (varint_bytes 13) (varint_bytes (blen v))).
  - unfold tp_pref_encode, ty_preferred. rewrite <- Hlen.
    assert (R : emits (fun room => if room <? blen v then None else Some (pa_ip4 a ++ format_16 (pa_port4 a) ++ pa_ip6 a ++ format_16 (pa_port4 a) ++ [u8 (blen (pa_cid a))] ++
              format_cid (room - 25) (pa_cid a) ++ pa_token a)) v).
    { assert (F : forall room, blen v <= room -> pa_ip4 a ++ format_16 (pa_port4 a) ++ pa_ip6 a ++ format_16 (pa_port4 a) ++ [u8 (blen (pa_cid a))] ++
              format_cid (room - 25) (pa_cid a) ++ pa_token a = v).
      { intros room Hr. rewrite !format_16_be. unfold format_cid. destruct (N.ltb_spec (room - 25) (blen (pa_cid a))); [lia|].
        unfold u8. rewrite N.mod_small by lia. rewrite <- EP at 2. symmetry. exact E. }
      split; intro room.
      - intros x H. destruct (N.ltb_spec room (blen v)); [discriminate|]. apply some_inj in H. rewrite F in H by assumption. auto.
      - intro H. destruct (N.ltb_spec room (blen v)); [lia|]. rewrite F by assumption. reflexivity. }
    first [apply emits_seq; [apply emits_varint|apply emits_seq; [apply emits_varint|exact R]]
          |rewrite app_assoc; apply emits_seq; [apply emits_seq; apply emits_varint|exact R]].
  - apply varint_bytes_is_varint. reflexivity.
  - apply varint_bytes_is_varint. unfold two62. lia.
  - exact Hb.
  - rewrite (small_varint (blen v)) by lia. change (blen (varint_bytes 13)) with 1. change (blen [blen v]) with 1. lia.
Qed.

Lemma sends_large : forall n, n < two62 -> sends (tp_large_encode n) [(3127, repeat 81 (N.to_nat n))] (n + 16).
Proof.
  intros n Hn. assert (L : blen (repeat 81 (N.to_nat n)) = n) by (unfold blen; rewrite repeat_length; lia).
  apply (sends_one _ _ _ (varint_bytes 3127) (varint_bytes n)).
  - unfold tp_large_encode, ty_large. 
    first [apply emits_seq; [apply emits_varint|apply emits_seq; [apply emits_varint|apply emits_put]]
          |rewrite app_assoc; apply emits_seq; [apply emits_seq; apply emits_varint|apply emits_put]].
  - apply varint_bytes_is_varint. reflexivity.
  - rewrite L. apply varint_bytes_is_varint. exact Hn.
  - apply Forall_forall. intros x Hx. apply repeat_spec in Hx. subst x. reflexivity.
  - rewrite L. pose proof (varint_len8 3127). pose proof (varint_len8 n). lia.
Qed.

(** The versions. *)
Definition proposed (server : bool) (cur desired : N) : list N :=
  if server then supported else (if negb (desired =? 0) && negb (desired =? cur) then [desired] else []) ++ [cur].

Lemma emits_32 : forall n, emits (frames_uint32_encode n) (format_32 n).
Proof.
  intro n. unfold frames_uint32_encode. split; intro room.
  - intros x H. destruct (_ <? _); [discriminate|apply some_inj in H; auto].
  - intro H. change (blen (format_32 n)) with 4 in H. destruct (N.ltb_spec room 4); [lia|reflexivity].
Qed.

Lemma emits_list : forall l : list (N * bool), emits (fold_right (fun e w => frames_uint32_encode (fst e) >>> w) wnil l) (flat_map (fun e => format_32 (fst e)) l).
Proof. intro l. induction l as [|e l IH]; [apply emits_nil|]. cbn [fold_right flat_map]. apply emits_seq; [apply emits_32|exact IH]. Qed.

Lemma emits_16 : emits (frames_uint16_encode 0) [0; 0].
Proof.
  unfold frames_uint16_encode. split; intro room.
  - intros x H. destruct (_ <? _); [discriminate|apply some_inj in H; auto].
  - intro H. change (blen [0; 0]) with 2 in H. destruct (N.ltb_spec room 2); [lia|reflexivity].
Qed.

Lemma format_supported : flat_map (fun e => format_32 (fst e)) supported_versions = flat_map be32 supported.
Proof. vm_compute. reflexivity. Qed.

Lemma be32_ok : forall n, bytes_ok (be32 n).
Proof. intro n. unfold bytes_ok, be32. repeat constructor; unfold is_byte; apply N.mod_lt; discriminate. Qed.

Lemma flat_be32_ok : forall l, bytes_ok (flat_map be32 l).
Proof. intro l. induction l as [|x l IH]; [constructor|]. cbn [flat_map]. apply Forall_app. split; [apply be32_ok|exact IH]. Qed.

Lemma flat_be32_len : forall l, blen (flat_map be32 l) = 4 * N.of_nat (length l).
Proof. intro l. unfold blen. rewrite flat_len. lia. Qed.

Lemma sends_version : forall server vi desired, index_ok vi -> desired < 2 ^ 32 ->
  sends (tp_version_encode server vi desired) [(17, flat_map be32 (version_of vi :: proposed server (version_of vi) desired))] 59.
Proof.
  intros server vi desired Hi Hd. set (v := flat_map be32 (version_of vi :: proposed server (version_of vi) desired)).
  assert (Hcur : version_of vi < 4294967296) by (apply version_32; exact Hi).
  assert (Lv : 8 <= blen v <= 56).
  { unfold v. rewrite flat_be32_len. unfold proposed. destruct server; [cbn; lia|]. destruct (_ && _); cbn; lia. }
  assert (Ev : emits (frames_uint16_encode 0 >>> frames_uint32_encode (version_of vi) >>>
           (if server then fold_right (fun e w => frames_uint32_encode (fst e) >>> w) wnil supported_versions
            else wif (negb (desired =? 0) && negb (desired =? version_of vi)) (frames_uint32_encode desired)
                 >>> frames_uint32_encode (version_of vi))) ([0; 0] ++ v)).
  { apply emits_seq; [exact emits_16|]. unfold v. cbn [flat_map]. apply emits_seq; [rewrite <- format_be32 by exact Hcur; apply emits_32|].
    unfold proposed. destruct server.
    - rewrite <- format_supported. apply emits_list.
    - rewrite flat_map_app. apply emits_seq.
      + destruct (_ && _); [|apply emits_nil]. cbn [wif flat_map]. rewrite app_nil_r, <- format_be32 by exact Hd. apply emits_32.
      + cbn [flat_map]. rewrite app_nil_r, <- format_be32 by exact Hcur. apply emits_32. }
  apply (sends_one _ _ _ (varint_bytes 17) [64; blen v]).
  - unfold tp_version_encode, ty_version. apply emits_seq; [apply emits_varint|].
    assert (HD : N.lor (u8 (N.land (N.shiftr (blen ([0; 0] ++ v) - 2) 8) 63)) 64 :: u8 (N.land (blen ([0; 0] ++ v) - 2) 255) :: skipn 2 ([0; 0] ++ v) = [64; blen v] ++ v).
    { cbn [app skipn]. rewrite !blen_cons. replace (1 + (1 + blen v) - 2) with (blen v) by lia. 
      rewrite N.shiftr_div_pow2. change (2 ^ 8) with 256. rewrite N.div_small by lia.
      change 255 with (N.ones 8). rewrite N.land_ones. change (2 ^ 8) with 256. rewrite N.mod_small by lia. unfold u8. rewrite (N.mod_small (blen v)) by lia. reflexivity. }
    destruct Ev as [E1 E2]. split; intro room.
    + intros x H. match type of H with match ?w with _ => _ end = _ => destruct w as [b|] eqn:E end; [|discriminate].
      apply E1 in E. subst b. cbv zeta in H. destruct (_ <? _); [discriminate|]. apply some_inj in H. rewrite HD in H. auto.
    + intro H. rewrite E2 by (rewrite blen_app in *; exact H). cbv zeta.
      destruct (N.ltb_spec 16383 (blen ([0; 0] ++ v) - 2)) as [h|h]; [rewrite blen_app in h; change (blen [0; 0]) with 2 in h; lia|]. rewrite HD. reflexivity.
  - apply varint_bytes_is_varint. reflexivity.
  - exists 1. change (2 ^ 1) with 2. change (2 ^ (8 * 2 - 2)) with 16384. split; [lia|]. split; [reflexivity|]. split; [lia|]. split; [cbn [be_value fold_left]; lia|].
    repeat constructor; unfold is_byte; lia.
  - apply flat_be32_ok.
  - change (blen (varint_bytes 17)) with 1. change (blen [64; blen v]) with 2. lia.
Qed.
