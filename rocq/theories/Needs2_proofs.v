(** Proofs about the repetition of lost frames: one frame of a packet. *)
From Verif Require Import Base Tac Varint_model Varint_spec Varint_proofs Sack_model Sack_spec Ack_model Ack_spec Ack_proofs Frames_model
  Frames_spec Frames_proofs Frames2_proofs Frames3_proofs Frames4_proofs Frames5_proofs Header_model Send_model Stream_model Needs_model Needs_spec
  Needs_proofs.

(** Frames that picoquic_skip_frame reports as pure acknowledgements. *)
Definition pure_of (f : sframe) : bool :=
  match f with
  | SAck _ _ _ _ _ _ _ | SCtl (WPathChallenge _) | SCtl (WPathResponse _) | SCtl (WTimeStamp _) => true
  | SRun t _ => t =? 0
  | _ => false
  end.

Lemma sent_ctl : forall w room b, write_frame w room = Some b -> b = frame_bytes w.
Proof.
  intros w room b H. rewrite write_canon in H. destruct (blen (frame_bytes w) <=? room); [|discriminate].
  apply some_inj in H. congruence.
Qed.

Lemma ext_skip : forall t m, fits t -> (64 <= hd 0 (varint_bytes t) \/ hd 0 (varint_bytes t) = 31) ->
  skip_frame (varint_bytes t ++ m) = skip_extension t (varint_bytes t ++ m) m.
Proof.
  intros t m Ht Hh. pose proof (dec_v t m Ht) as Hd. destruct (varint_bytes t ++ m) as [|b l] eqn:E.
  { pose proof (varint_bytes_length t) as Hl. pose proof (encode_varint_length_pos t).
    apply app_eq_nil in E. destruct E as [E _]. rewrite E in Hl. cbn in Hl. lia. }
  rewrite <- (ext_head _ _ _ _ E) in Hh. unfold skip_frame.
  assert (Hs : is_stream_type b = false).
  { destruct (is_stream_type b) eqn:Es; [|reflexivity]. apply stream_type_range in Es. lia. }
  rewrite Hs.
  assert (Hn : forall c, c < 64 -> c <> 31 -> (b =? c) = false) by (intros x Hc Hc'; lia).
  rewrite !Hn by (try reflexivity; discriminate). cbn [orb]. rewrite Hd. reflexivity.
Qed.

Ltac ext_s t := rewrite (ext_skip t) by (first [reflexivity | vm_compute; intuition congruence]); unfold skip_extension; ev; reflexivity.

Lemma pure_ctl : forall w rest, snd (skip_frame (frame_bytes w ++ rest)) = pure_of (SCtl w).
Proof.
  intros w rest. destruct w; cbn [frame_bytes pure_of]; cbv zeta; repeat rewrite <- app_assoc.
  all: try (cbn [app]; unfold skip_frame; ev; reflexivity).
  - destruct unidir; cbn [app]; unfold skip_frame; ev; reflexivity.
  - destruct unidir; cbn [app]; unfold skip_frame; ev; reflexivity.
  - destruct path_id; repeat rewrite <- app_assoc; [ext_s ft_path_new_connection_id|cbn [app]; unfold skip_frame; ev; reflexivity].
  - destruct path_id; repeat rewrite <- app_assoc; [ext_s ft_path_retire_connection_id|cbn [app]; unfold skip_frame; ev; reflexivity].
  - ext_s ft_ack_frequency.
  - ext_s ft_immediate_ack.
  - ext_s ft_time_stamp.
  - ext_s ft_path_abandon.
  - destruct available; [ext_s ft_path_available|ext_s ft_path_backup].
  - ext_s ft_max_path_id.
  - ext_s ft_paths_blocked.
  - ext_s ft_path_cid_blocked.
  - ext_s ft_bdp.
  - destruct v6; [ext_s ft_observed_address_v6|ext_s ft_observed_address_v4].
Qed.

(** STREAM frames. *)
Lemma stream_bits : forall wo last fin : bool,
  let b := 8 + (if wo then 4 else 0) + (if last then 0 else 2) + (if fin then 1 else 0) in
  is_stream_type b = true /\ (N.land b 4 =? 0) = negb wo /\ (N.land b 2 =? 0) = last /\ (N.land b 1 =? 0) = negb fin /\ b < 256.
Proof. intros [] [] []; vm_compute; repeat split; reflexivity. Qed.

Lemma read_v : forall v p l, is_varint v p -> bytes_ok l -> varint_read (p ++ l) = Some (v, l).
Proof.
  intros v p l Hp Hl. rewrite varint_read_eq; [apply is_varint_decode; assumption|].
  apply Forall_app. split; [|exact Hl]. destruct Hp as (c & _ & _ & _ & _ & H). exact H.
Qed.

Lemma is_varint_bytes : forall v p, is_varint v p -> bytes_ok p.
Proof. intros v p (c & _ & _ & _ & _ & H). exact H. Qed.

Lemma parse_sent : forall last sid off fin d b rest, sframe_ok (SStream last sid off fin d) ->
  sent_as (SStream last sid off fin d) b -> bytes_ok rest -> (last = true -> rest = []) ->
  bytes_ok b /\ exists b0 l, b ++ rest = b0 :: l /\ is_stream_type b0 = true /\ (N.land b0 2 =? 0) = last /\
    parse_stream b0 l = Some ((sid, off, fin, d), rest).
Proof.
  intros last sid off fin d b rest (_ & Hd & _) (wo & p1 & p2 & p3 & H1 & H2 & H3 & ->) Hr Hl.
  destruct (stream_bits wo last fin) as (B1 & B2 & B3 & B4 & B5).
  set (b0 := 8 + (if wo then 4 else 0) + (if last then 0 else 2) + (if fin then 1 else 0)) in *. clearbody b0.
  assert (O1 : bytes_ok p1) by (eapply is_varint_bytes; exact H1).
  assert (O2 : bytes_ok p2). { destruct wo; [eapply is_varint_bytes; exact H2|]. destruct H2 as [_ ->]. constructor. }
  assert (O3 : bytes_ok p3). { destruct last; [subst p3; constructor|eapply is_varint_bytes; exact H3]. }
  split.
  { cbn [app]. constructor; [exact B5|]. repeat (apply Forall_app; split; [assumption|]). exact Hd. }
  exists b0, (p1 ++ p2 ++ p3 ++ d ++ rest). split. { cbn [app]. repeat rewrite <- app_assoc. reflexivity. }
  split; [exact B1|]. split; [exact B3|]. unfold parse_stream.
  rewrite (read_v sid p1) by (try assumption; repeat (apply Forall_app; split; [assumption|]); exact Hr).
  rewrite B2, B3, B4.
  assert (E2 : (if negb wo then Some (0, p2 ++ p3 ++ d ++ rest) else varint_read (p2 ++ p3 ++ d ++ rest)) =
               Some (off, p3 ++ d ++ rest)).
  { destruct wo; cbn [negb].
    - apply read_v; [exact H2|]. repeat (apply Forall_app; split; [assumption|]). exact Hr.
    - destruct H2 as [-> ->]. reflexivity. }
  rewrite E2. rewrite negb_involutive. destruct last.
  - subst p3. rewrite (Hl eq_refl). cbn [app]. rewrite app_nil_r. reflexivity.
  - rewrite (read_v (blen d) p3) by (try assumption; repeat (apply Forall_app; split; [assumption|]); exact Hr).
    rewrite take_app. reflexivity.
Qed.

(** ACK frames. *)
Lemma skip_varints_app : forall vs p rest, varints vs p -> bytes_ok rest -> skip_varints (length vs) (p ++ rest) = Some rest.
Proof.
  intros vs p rest H Hr. induction H as [|v vs p q Hv Hq IH]; [reflexivity|].
  cbn [length skip_varints]. unfold sbind. rewrite <- app_assoc. rewrite frames_varint_skip_decode.
  rewrite (is_varint_decode v p (q ++ rest)); [exact IH|exact Hv|].
  apply Forall_app. split; [eapply varints_ok; exact Hq|exact Hr].
Qed.

Lemma varints_count : forall vs p, varints vs p -> (length vs <= length p)%nat.
Proof.
  intros vs p H. induction H as [|v vs p q Hv Hq IH]; [constructor|].
  rewrite app_length. cbn [length]. destruct p as [|x p]; [|cbn [length]; lia].
  destruct Hv as (c & _ & Hl & _). cbn in Hl. pose proof (N.pow_nonzero 2 c). lia.
Qed.

Lemma skip_blocks_app : forall blocks p rest fuel, varints (block_numbers blocks) p -> bytes_ok rest ->
  (length blocks < fuel)%nat -> skip_blocks fuel (N.of_nat (length blocks)) (p ++ rest) = Ok rest.
Proof.
  induction blocks as [|[g x] blocks IH]; intros p rest fuel Hv Hr Hf.
  { inversion Hv; subst. destruct fuel; reflexivity. }
  destruct fuel as [|fuel]; [lia|]. cbn [length] in *.
  change (block_numbers ((g, x) :: blocks)) with ([g; x] ++ block_numbers blocks) in Hv.
  destruct (varints_app_inv _ _ _ Hv) as (a & b & -> & Ha & Hb).
  cbn [skip_blocks]. replace (N.of_nat (S (length blocks)) =? 0) with false by lia.
  rewrite <- app_assoc. pose proof (skip_varints_app [g; x] a (b ++ rest) Ha) as G. cbn [length] in G.
  rewrite G by (apply Forall_app; split; [eapply varints_ok; exact Hb|exact Hr]).
  replace (N.of_nat (S (length blocks)) - 1) with (N.of_nat (length blocks)) by lia.
  apply IH; [exact Hb|exact Hr|lia].
Qed.

Lemma skip_ack_sent : forall ecn path largest delay first blocks counts b rest,
  sframe_ok (SAck ecn path largest delay first blocks counts) ->
  sent_as (SAck ecn path largest delay first blocks counts) b -> bytes_ok rest ->
  bytes_ok b /\ skip_frame (b ++ rest) = (Ok rest, true).
Proof.
  intros ecn path largest delay first blocks counts b rest Hok (p & -> & Hv) Hr. cbn [sframe_ok] in Hok.
  assert (Ht : forall x y : bool, bytes_ok [if x then 3 else 2] /\ bytes_ok [149; 34; 140; if y then 1 else 0]).
  { intros [] []; split; repeat constructor. }
  assert (Hp : bytes_ok p) by (eapply varints_ok; exact Hv).
  split. { apply Forall_app. split; [|exact Hp]. unfold ack_type. destruct path; apply (Ht ecn ecn). }
  destruct (varints_app_inv _ _ _ Hv) as (a1 & a2 & -> & Ha1 & Hv2).
  change ([largest; delay; N.of_nat (length blocks); first] ++ block_numbers blocks ++ counts)
    with ([largest; delay] ++ [N.of_nat (length blocks)] ++ [first] ++ block_numbers blocks ++ counts) in Hv2.
  destruct (varints_app_inv _ _ _ Hv2) as (a3 & a4 & -> & Ha3 & Hv3).
  destruct (varints_app_inv _ _ _ Hv3) as (a5 & a6 & -> & Ha5 & Hv4).
  destruct (varints_app_inv _ _ _ Hv4) as (a7 & a8 & -> & Ha7 & Hv5).
  destruct (varints_app_inv _ _ _ Hv5) as (a9 & a10 & -> & Ha9 & Ha10).
  pose proof (varints_ok _ _ Ha1) as O1. pose proof (varints_ok _ _ Ha3) as O3. pose proof (varints_ok _ _ Ha5) as O5.
  pose proof (varints_ok _ _ Ha7) as O7. pose proof (varints_ok _ _ Ha9) as O9. pose proof (varints_ok _ _ Ha10) as O10.
  assert (Ty : is_varint (if ecn then 3 else 2) [if ecn then 3 else 2] /\
               is_varint (354585600 + if ecn then 1 else 0) [149; 34; 140; if ecn then 1 else 0]).
  { destruct ecn; split; first [solve [exists 0; vm_compute; repeat split; repeat constructor] |
      solve [exists 2; vm_compute; repeat split; repeat constructor]]. }
  assert (Hsk : skip_ack_frame_maybe_ecn ecn (match path with Some _ => true | None => false end)
     (ack_type ecn path ++ a1 ++ a3 ++ a5 ++ a7 ++ a9 ++ a10 ++ rest) = Ok rest).
  { unfold skip_ack_frame_maybe_ecn.
    assert (E : skip_varints (if match path with Some _ => true | None => false end then 4 else 3)
       (ack_type ecn path ++ a1 ++ a3 ++ a5 ++ a7 ++ a9 ++ a10 ++ rest) = Some (a5 ++ a7 ++ a9 ++ a10 ++ rest)).
    { assert (Hb : bytes_ok (a5 ++ a7 ++ a9 ++ a10 ++ rest)) by (repeat (apply Forall_app; split; [assumption|]); exact Hr).
      destruct path as [q|].
      - pose proof (skip_varints_app [354585600 + (if ecn then 1 else 0); q; largest; delay]
          ([149; 34; 140; if ecn then 1 else 0] ++ a1 ++ a3) (a5 ++ a7 ++ a9 ++ a10 ++ rest)) as G.
        cbn [length] in G. unfold ack_type. repeat rewrite <- app_assoc in G. apply G; [|exact Hb].
        constructor; [apply Ty|]. apply (varints_app [q] [largest; delay]); assumption.
      - pose proof (skip_varints_app [(if ecn then 3 else 2); largest; delay]
          ([if ecn then 3 else 2] ++ a1 ++ a3) (a5 ++ a7 ++ a9 ++ a10 ++ rest)) as G.
        cbn [length] in G. unfold ack_type. repeat rewrite <- app_assoc in G. apply G; [|exact Hb].
        constructor; [apply Ty|]. apply (varints_app [] [largest; delay]); assumption. }
    rewrite E.
    inversion Ha5 as [|? ? x5 y5 V5 N5]; subst. inversion N5; subst. rewrite app_nil_r.
    rewrite (is_varint_decode _ x5 _ V5) by (repeat (apply Forall_app; split; [assumption|]); exact Hr).
    inversion Ha7 as [|? ? x7 y7 V7 N7]; subst. inversion N7; subst. rewrite app_nil_r, frames_varint_skip_decode.
    rewrite (is_varint_decode _ x7 _ V7) by (repeat (apply Forall_app; split; [assumption|]); exact Hr).
    rewrite skip_blocks_app; [| exact Ha9 | apply Forall_app; split; [assumption|exact Hr] |].
    - destruct ecn; [|destruct counts; [|discriminate]; inversion Ha10; subst; reflexivity].
      pose proof (skip_varints_app counts a10 rest Ha10 Hr) as G. rewrite Hok in G. rewrite G. reflexivity.
    - pose proof (varints_count _ _ Ha9) as G. rewrite app_length.
      assert (length blocks <= length (block_numbers blocks))%nat; [|lia].
      clear. unfold block_numbers. induction blocks as [|[? ?] l IH]; [constructor|]. cbn [flat_map app length]. lia. }
  repeat rewrite <- app_assoc. destruct path as [q|].
  - unfold ack_type in *. set (t := if ecn then 1 else 0) in *.
    unfold skip_frame. set (l0 := [149; 34; 140; t] ++ a1 ++ a3 ++ a5 ++ a7 ++ a9 ++ a10 ++ rest) in *.
    assert (Hd : frames_varint_decode l0 = Some (354585600 + t, a1 ++ a3 ++ a5 ++ a7 ++ a9 ++ a10 ++ rest)).
    { apply is_varint_decode; [apply Ty|]. repeat (apply Forall_app; split; [assumption|]). exact Hr. }
    rewrite Hd. unfold l0 at 1. cbn [app]. ev. unfold skip_extension.
    subst t. destruct ecn; ev; rewrite Hsk; reflexivity.
  - unfold ack_type in *. unfold skip_frame. cbn [app]. destruct ecn; ev; cbn [app] in Hsk; rewrite Hsk; reflexivity.
Qed.

Lemma skip_run_app : forall t n rest, hd_error rest <> Some t -> skip_run t (repeat t n ++ rest) = rest.
Proof.
  intros t n rest H. induction n as [|n IH].
  - cbn [repeat app]. destruct rest as [|b rest]; [reflexivity|]. cbn [skip_run]. cbn [hd_error] in H.
    destruct (N.eqb_spec b t); [subst; destruct (H eq_refl)|reflexivity].
  - cbn [repeat app skip_run]. rewrite N.eqb_refl. exact IH.
Qed.

(** Any frame of a packet is found by picoquic_skip_frame. *)
Lemma skip_sent : forall f b rest, sframe_ok f -> sent_as f b -> bytes_ok rest ->
  (forall sid off fin d, f = SStream true sid off fin d -> rest = []) ->
  (forall t n, f = SRun t n -> hd_error rest <> Some t) ->
  b <> [] /\ bytes_ok b /\ skip_frame (b ++ rest) = (Ok rest, pure_of f).
Proof.
  intros f b rest Hok Hs Hr Hl Hn. destruct f as [w|last sid off fin d|ecn path lg dl fi bl ct|t n].
  - destruct Hs as (room & Hw). destruct Hok as [Hok _].
    pose proof (skip_written w room b rest Hok Hr Hw) as H1. pose proof (sent_ctl _ _ _ Hw) as ->.
    split; [apply frame_bytes_nonempty|]. split; [apply frame_bytes_ok, Hok|].
    pose proof (pure_ctl w rest) as H2. destruct (skip_frame (frame_bytes w ++ rest)) as [x y]. cbn [fst snd] in H1, H2. rewrite H1, H2. reflexivity.
  - destruct (parse_sent last sid off fin d b rest Hok Hs Hr) as (Hb & b0 & l & E & Hst & H2 & Hp).
    { intros ->. eapply Hl. reflexivity. }
    split. { destruct Hs as (wo & p1 & p2 & p3 & _ & _ & _ & ->). discriminate. }
    split; [exact Hb|]. rewrite E. unfold skip_frame. rewrite Hst.
    assert (Hbl : bytes_ok (b0 :: l)) by (rewrite <- E; apply Forall_app; auto).
    apply stream_skip_agrees in Hp; [|inversion Hbl; assumption]. rewrite Hp. reflexivity.
  - destruct (skip_ack_sent ecn path lg dl fi bl ct b rest Hok Hs Hr) as [H1 H2].
    split; [|split; assumption]. destruct Hs as (p & -> & _). unfold ack_type. destruct path; discriminate.
  - cbn [sent_as sframe_ok] in *. subst b. split; [discriminate|].
    assert (Ht : t < 256) by lia.
    split. { cbn [repeat]. constructor; [exact Ht|]. clear - Ht. induction n; constructor; assumption. }
    cbn [repeat app]. unfold skip_frame. specialize (Hn t n eq_refl). pose proof (skip_run_app t n rest Hn) as G.
    destruct Hok as [->| ->]; ev; rewrite G; reflexivity.
Qed.
