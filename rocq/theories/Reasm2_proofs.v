(** Reassembly without any assumption on FIN, and without any assumption on the
    data. *)
From Verif Require Import Base Reasm_model Reasm_spec Reasm_proofs.

(** ** Consistent data, any FIN *)

Definition data_inv (D : list N) (r : rx) (out : list piece) : Prop :=
  rx_consumed r <= blen D /\ total out = firstn (N.to_nat (rx_consumed r)) D /\
  wfc D (rx_consumed r + 1) (rx_chunks r).

Definition given (D : list N) (r : rx) (out : list piece) : Prop :=
  rx_consumed r <= blen D /\ total out = firstn (N.to_nat (rx_consumed r)) D.

Lemma given_callback : forall D r out d, given D r out -> slice_of D (rx_consumed r) d ->
  exists r' ps, chunk_callback r d = (r', ps) /\ rx_chunks r' = rx_chunks r /\ rx_consumed r' = rx_consumed r + blen d /\
    given D r' (out ++ ps).
Proof.
  intros D r out d (H1 & H2) (S1 & S2). unfold chunk_callback. eexists _, _. split; [reflexivity|].
  split; [reflexivity|]. split; [reflexivity|]. cbn [given rx_consumed]. split; [exact S1|].
  assert (Htot : total out ++ d = firstn (N.to_nat (rx_consumed r + blen d)) D).
  { rewrite H2, S2 at 1. rewrite <- !slice_zero. rewrite <- slice_app, N.add_0_l. reflexivity. }
  cbn [rx_consumed]. rewrite total_app. destruct (N.ltb_spec 0 (blen d)) as [H|H]; cbn [orb].
  - unfold total at 2. cbn [map fst concat]. rewrite app_nil_r. exact Htot.
  - assert (d = []) by (apply blen_zero; lia). subst d. destruct (_ && _); unfold total at 2; cbn [map fst concat]; rewrite ?app_nil_r in *; exact Htot.
Qed.

Lemma given_drain : forall D tree r out lo, given D r out -> wfc D lo tree ->
  exists r' ps, drain tree r = (r', ps) /\ given D r' (out ++ ps) /\ wfc D (rx_consumed r' + 1) (rx_chunks r').
Proof.
  intros D. induction tree as [|c t IH]; intros r out lo Hd Hw; cbn [drain].
  - eexists _, _. split; [reflexivity|]. rewrite app_nil_r. split; [exact Hd|exact I].
  - cbn [wfc] in Hw. destruct Hw as (W1 & W2 & W3 & W4).
    destruct (N.leb_spec (c_off c) (rx_consumed r)) as [Hc|Hc].
    + destruct (N.leb_spec (rx_consumed r - c_off c) (blen (c_data c))) as [Hs|Hs].
      * rewrite (skipn_slice D (c_off c) (c_data c)) by assumption.
        replace (c_off c + (rx_consumed r - c_off c)) with (rx_consumed r) by lia.
        set (len := blen (c_data c) - (rx_consumed r - c_off c)).
        assert (Hle : rx_consumed r + len <= blen D) by (unfold len; destruct W3; lia).
        pose proof (slice_is D (rx_consumed r) len Hle) as Hsl.
        destruct (given_callback D r out (slice D (rx_consumed r) len) Hd Hsl) as (r1 & p1 & E1 & C1 & N1 & D1).
        rewrite E1. destruct (IH r1 (out ++ p1) (c_end c) D1 W4) as (r2 & p2 & E2 & D2 & G2).
        rewrite E2. eexists _, _. split; [reflexivity|]. rewrite app_assoc. split; [exact D2|exact G2].
      * exact (IH r out (c_end c) Hd W4).
    + eexists _, _. split; [reflexivity|]. rewrite app_nil_r. split; [exact Hd|].
      cbn [set_chunks rx_chunks rx_consumed wfc]. split; [lia|auto].
Qed.

Lemma given_data_callback : forall D r out lo, given D r out -> wfc D lo (rx_chunks r) ->
  exists r' ps, data_callback r = (r', ps) /\ data_inv D r' (out ++ ps).
Proof.
  intros D r out lo Hd Hw. unfold data_callback.
  destruct (given_drain D (rx_chunks r) r out lo Hd Hw) as (r1 & p1 & E1 & D1 & W1). rewrite E1.
  destruct (given_callback D r1 (out ++ p1) []) as (r2 & p2 & E2 & C2 & N2 & D2).
  - exact D1.
  - split; [rewrite blen_nil; destruct D1; lia|]. rewrite blen_nil. reflexivity.
  - rewrite E2. eexists _, _. split; [reflexivity|]. rewrite app_assoc. destruct D2 as [A B]. split; [exact A|]. split; [exact B|].
    rewrite blen_nil, N.add_0_r in N2. rewrite N2, C2. exact W1.
Qed.

Lemma data_step : forall D r out off d n, data_inv D r out -> slice_of D off d ->
  exists r' ps, rx_input r off d n = Some (r', ps) /\ data_inv D r' (out ++ ps).
Proof.
  intros D r out off d n (H1 & H2 & H3) Hs. pose proof Hs as [S1 S2].
  assert (Hg : given D r out) by (split; assumption). unfold rx_input.
  destruct (N.leb_spec off (rx_consumed r)) as [Hc|Hc].
  - destruct (N.leb_spec (rx_consumed r) (off + blen d)) as [Hb|Hb].
    + rewrite (skipn_slice D off d) by (try assumption; lia).
      replace (off + (rx_consumed r - off)) with (rx_consumed r) by lia.
      set (len := blen d - (rx_consumed r - off)).
      assert (Hle : rx_consumed r + len <= blen D) by (unfold len; lia).
      pose proof (slice_is D (rx_consumed r) len Hle) as Hss.
      destruct (given_callback D r out (slice D (rx_consumed r) len) Hg Hss) as (r1 & p1 & E1 & C1 & N1 & D1).
      rewrite E1. destruct (given_data_callback D r1 (out ++ p1) (rx_consumed r + 1) D1) as (r2 & p2 & E2 & D2).
      { rewrite C1. exact H3. }
      rewrite E2. eexists _, _. split; [reflexivity|]. rewrite app_assoc. exact D2.
    + eexists _, _. split; [reflexivity|]. rewrite app_nil_r. split; [exact H1|]. split; assumption.
  - destruct (queue_spec D (rx_chunks r) (rx_consumed r) (rx_consumed r + 1) off d H3 Hs) as (t2 & n2 & Q1 & Q2 & _ & _); [lia|lia|].
    rewrite Q1. destruct (n || n2).
    + destruct (given_data_callback D (set_chunks r t2) out (rx_consumed r + 1) Hg Q2) as (r2 & p2 & E2 & D2).
      rewrite E2. eexists _, _. split; [reflexivity|]. exact D2.
    + eexists _, _. split; [reflexivity|]. rewrite app_nil_r. split; [exact H1|]. split; [exact H2|exact Q2].
Qed.

Lemma data_inv_note : forall D r out fin fend, data_inv D r out -> data_inv D (rx_note r fin fend) out.
Proof. intros D r out fin fend H. exact H. Qed.

(** ** Any data: replacing every byte by zero changes nothing but the bytes *)

Definition zb (d : list N) : list N := map (fun _ => 0) d.
Definition zc (c : chunk) : chunk := (c_off c, zb (c_data c)).
Definition zr (r : rx) : rx := set_chunks r (map zc (rx_chunks r)).
Definition zp (p : piece) : piece := (zb (fst p), snd p).

Lemma zb_len : forall d, blen (zb d) = blen d.
Proof. intros d. unfold blen, zb. rewrite map_length. reflexivity. Qed.
Lemma zc_off : forall c, c_off (zc c) = c_off c.
Proof. reflexivity. Qed.
Lemma zc_end : forall c, c_end (zc c) = c_end c.
Proof. intros c. unfold c_end. change (c_data (zc c)) with (zb (c_data c)). rewrite zb_len. reflexivity. Qed.

Lemma zb_skipn : forall n d, zb (skipn n d) = skipn n (zb d).
Proof. intros. unfold zb. rewrite skipn_map. reflexivity. Qed.
Lemma zb_firstn : forall n d, zb (firstn n d) = firstn n (zb d).
Proof. intros. unfold zb. rewrite firstn_map. reflexivity. Qed.

Lemma z_sub : forall d o l, sub (zb d) o l = option_map zb (sub d o l).
Proof.
  intros d o l. unfold sub. rewrite zb_len. destruct (_ <=? _); [|reflexivity]. cbn [option_map].
  rewrite zb_firstn, zb_skipn. reflexivity.
Qed.

Lemma z_filter : forall (f : chunk -> bool) t, (forall c, f (zc c) = f c) -> filter f (map zc t) = map zc (filter f t).
Proof. intros f t H. induction t as [|c t IH]; cbn [map filter]; [reflexivity|]. rewrite H, IH. destruct (f c); reflexivity. Qed.

Lemma z_hd : forall t, hd_error (map zc t) = option_map zc (hd_error t).
Proof. intros [|c t]; reflexivity. Qed.

Lemma z_previous : forall t x, chunk_previous (map zc t) x = option_map zc (chunk_previous t x).
Proof. intros t x. unfold chunk_previous. rewrite z_filter by reflexivity. rewrite <- map_rev. apply z_hd. Qed.
Lemma z_next : forall t x, chunk_next (map zc t) x = option_map zc (chunk_next t x).
Proof. intros t x. unfold chunk_next. rewrite z_filter by reflexivity. apply z_hd. Qed.
Lemma z_insert : forall t c, chunk_insert (zc c) (map zc t) = map zc (chunk_insert c t).
Proof.
  induction t as [|x t IH]; intros c; cbn [map chunk_insert]; [reflexivity|]. rewrite !zc_off.
  destruct (_ <? _); [reflexivity|]. cbn [map]. rewrite IH. reflexivity.
Qed.

Definition z3 (x : list chunk * N * bool) : list chunk * N * bool := let '(t, f, n) := x in (map zc t, f, n).

Lemma z_loop : forall fuel t begin end_ d fdo next new,
  queue_loop fuel (map zc t) begin end_ (zb d) fdo (option_map zc next) new =
  option_map z3 (queue_loop fuel t begin end_ d fdo next new).
Proof.
  induction fuel as [|n IH]; intros; cbn [queue_loop]; [reflexivity|].
  destruct next as [nx|]; cbn [option_map]; [|reflexivity]. rewrite zc_off, zc_end.
  destruct (_ && _); [|reflexivity]. destruct (0 <? _).
  - rewrite z_sub. destruct (sub d _ _) as [b|]; cbn [option_map]; [|reflexivity].
    unfold add_chunk_node. change ((fdo, zb b) : chunk) with (zc (fdo, b)). rewrite z_insert, z_next. apply IH.
  - rewrite z_next. apply IH.
Qed.

Definition z2 (x : list chunk * bool) : list chunk * bool := let '(t, n) := x in (map zc t, n).

Lemma z_queue : forall t consumed off d,
  queue_network_input (map zc t) consumed off (zb d) = option_map z2 (queue_network_input t consumed off d).
Proof.
  intros t consumed off d. unfold queue_network_input. rewrite zb_len, z_previous, map_length.
  destruct (_ <? off + blen d); [|reflexivity].
  set (fdo := if off <? consumed then consumed else off).
  set (P := chunk_previous t fdo).
  assert (Hf : match option_map zc P with Some p => if c_end p <? fdo then fdo else c_end p | None => fdo end =
     match P with Some p => if c_end p <? fdo then fdo else c_end p | None => fdo end).
  { destruct P as [p|]; cbn [option_map]; [|reflexivity]. rewrite zc_end. reflexivity. }
  rewrite Hf. clear Hf.
  assert (Hn : match option_map zc P with Some p => chunk_next (map zc t) (c_off p) | None => hd_error (map zc t) end =
     option_map zc (match P with Some p => chunk_next t (c_off p) | None => hd_error t end)).
  { destruct P as [p|]; cbn [option_map]; [rewrite zc_off; apply z_next|apply z_hd]. }
  rewrite Hn, z_loop. destruct (queue_loop _ _ _ _ _ _ _ _) as [[[t' f] n]|]; cbn [option_map z3]; [|reflexivity].
  destruct (f <? _); [|reflexivity]. rewrite z_sub. destruct (sub d _ _) as [b|]; cbn [option_map]; [|reflexivity].
  unfold add_chunk_node. change ((f, zb b) : chunk) with (zc (f, b)). rewrite z_insert. reflexivity.
Qed.

Definition zrp (x : rx * list piece) : rx * list piece := let '(r, ps) := x in (zr r, map zp ps).

Lemma z_callback : forall r d, chunk_callback (zr r) (zb d) = zrp (chunk_callback r d).
Proof.
  intros r d. unfold chunk_callback, zrp. rewrite zb_len.
  change (rx_consumed (zr r)) with (rx_consumed r). change (rx_fin_offset (zr r)) with (rx_fin_offset r).
  change (rx_fin_received (zr r)) with (rx_fin_received r). change (rx_fin_signalled (zr r)) with (rx_fin_signalled r).
  destruct ((0 <? blen d) || ((rx_fin_offset r <=? rx_consumed r + blen d) && rx_fin_received r && negb (rx_fin_signalled r))); reflexivity.
Qed.

Lemma z_drain : forall t r, drain (map zc t) (zr r) = zrp (drain t r).
Proof.
  induction t as [|c t IH]; intros r; cbn [map drain]; [reflexivity|].
  change (rx_consumed (zr r)) with (rx_consumed r). rewrite zc_off. change (c_data (zc c)) with (zb (c_data c)). rewrite zb_len.
  destruct (c_off c <=? _); [|reflexivity]. destruct (_ <=? blen (c_data c)); [|apply IH].
  rewrite <- zb_skipn, z_callback. destruct (chunk_callback r _) as [r1 p1]. cbn [zrp]. rewrite IH.
  destruct (drain t r1) as [r2 p2]. cbn [zrp]. rewrite map_app. reflexivity.
Qed.

Lemma z_data_callback : forall r, data_callback (zr r) = zrp (data_callback r).
Proof.
  intros r. unfold data_callback. change (rx_chunks (zr r)) with (map zc (rx_chunks r)). rewrite z_drain.
  destruct (drain _ r) as [r1 p1]. cbn [zrp]. change [] with (zb []) at 1. rewrite z_callback.
  destruct (chunk_callback r1 []) as [r2 p2]. cbn [zrp]. rewrite map_app. reflexivity.
Qed.

Lemma z_input : forall r off d n, rx_input (zr r) off (zb d) n = option_map zrp (rx_input r off d n).
Proof.
  intros r off d n. unfold rx_input. rewrite zb_len. change (rx_consumed (zr r)) with (rx_consumed r).
  destruct (off <=? _).
  - destruct (_ <=? _); [|reflexivity]. rewrite <- zb_skipn, z_callback.
    destruct (chunk_callback r _) as [r1 p1]. cbn [zrp]. rewrite z_data_callback.
    destruct (data_callback r1) as [r2 p2]. cbn [zrp option_map]. rewrite map_app. reflexivity.
  - change (rx_chunks (zr r)) with (map zc (rx_chunks r)). rewrite z_queue.
    destruct (queue_network_input _ _ _ _) as [[t new]|]; cbn [option_map z2]; [|reflexivity].
    change (set_chunks (zr r) (map zc t)) with (zr (set_chunks r t)).
    destruct (n || new); [|reflexivity]. rewrite z_data_callback. reflexivity.
Qed.

(** Well-formed chunks, whatever their bytes; [m] bounds the offsets. *)
Definition any_inv (m : N) (r : rx) : Prop :=
  exists zs, blen zs = m /\ (forall x, In x zs -> x = 0) /\ exists out, data_inv zs (zr r) out.

Lemma zeros_eq : forall a b : list N, (forall x, In x a -> x = 0) -> (forall x, In x b -> x = 0) -> length a = length b -> a = b.
Proof.
  induction a as [|x a IH]; intros [|y b] Ha Hb Hl; try discriminate; [reflexivity|].
  rewrite (Ha x (or_introl eq_refl)), (Hb y (or_introl eq_refl)). f_equal. apply IH.
  - intros z Hz. apply Ha. right. exact Hz.
  - intros z Hz. apply Hb. right. exact Hz.
  - cbn [length] in Hl. lia.
Qed.

Lemma zeros_slice : forall zs off d, (forall x, In x zs -> x = 0) -> off + blen d <= blen zs -> slice_of zs off (zb d).
Proof.
  intros zs off d Hz Hl. unfold slice_of. rewrite zb_len. split; [exact Hl|]. apply zeros_eq.
  - intros x Hx. unfold zb in Hx. apply in_map_iff in Hx. destruct Hx as (y & <- & _). reflexivity.
  - intros x Hx. apply Hz. unfold slice in Hx.
    assert (forall n (l : list N) y, In y (firstn n l) -> In y l) as F1.
    { clear. induction n; intros [|z l] y H; cbn [firstn] in H; try contradiction. destruct H as [->|H]; [left; reflexivity|right; auto]. }
    assert (forall n (l : list N) y, In y (skipn n l) -> In y l) as F2.
    { clear. induction n; intros [|z l] y H; cbn [skipn] in H; try contradiction; try exact H. right. auto. }
    eapply F2. eapply F1. exact Hx.
  - pose proof (slice_len zs off (blen d) Hl) as E. unfold zb. rewrite map_length. unfold blen in E at 1. unfold blen in E at 2. lia.
Qed.

Lemma any_init : forall m md, any_inv m (mk_rx false false false false 0 0 md []).
Proof.
  intros m md. exists (repeat 0 (N.to_nat m)). split; [unfold blen; rewrite repeat_length; lia|].
  split; [intros x Hx; apply repeat_spec in Hx; exact Hx|]. exists []. split; [cbn [zr set_chunks rx_consumed]; lia|]. split; [reflexivity|exact I].
Qed.

Lemma any_step : forall m r off d n, any_inv m r -> off + blen d <= m ->
  exists r' ps, rx_input r off d n = Some (r', ps) /\ any_inv m r'.
Proof.
  intros m r off d n (zs & H1 & H2 & out & H3) Hl. subst m.
  destruct (data_step zs (zr r) out off (zb d) n H3 (zeros_slice _ _ _ H2 Hl)) as (r' & ps & E & H4).
  rewrite z_input in E. destruct (rx_input r off d n) as [[r1 p1]|]; cbn [option_map] in E; [|discriminate].
  exists r1, p1. split; [reflexivity|]. exists zs. split; [reflexivity|]. split; [exact H2|]. exists (out ++ ps).
  injection E as E1 E2. rewrite E1. exact H4.
Qed.

(** What [any_inv] says of the chunks: disjoint, in order, after the consumed
    bytes, within [m]. *)
Fixpoint apart (lo m : N) (cs : list chunk) : Prop :=
  match cs with
  | [] => True
  | c :: t => lo <= c_off c /\ 0 < blen (c_data c) /\ c_end c <= m /\ apart (c_end c) m t
  end.

Lemma any_apart : forall m r, any_inv m r -> rx_consumed r <= m /\ apart (rx_consumed r + 1) m (rx_chunks r).
Proof.
  intros m r (zs & H1 & H2 & out & H3 & H4 & H5). change (rx_consumed (zr r)) with (rx_consumed r) in *.
  subst m. split; [exact H3|]. change (rx_chunks (zr r)) with (map zc (rx_chunks r)) in H5. revert H5.
  generalize (rx_consumed r + 1). induction (rx_chunks r) as [|c t IH]; intros lo H; [exact I|].
  cbn [map wfc apart] in *. destruct H as (A & B & C & E). rewrite zc_off in *. change (c_data (zc c)) with (zb (c_data c)) in *.
  rewrite zb_len in B. rewrite zc_end in E. split; [exact A|]. split; [exact B|].
  split; [destruct C as [C _]; rewrite zb_len in C; exact C|]. apply IH. exact E.
Qed.

(** Bytes held by the chunks. *)
Definition held (cs : list chunk) : N := fold_right (fun c n => blen (c_data c) + n) 0 cs.

Lemma apart_held : forall cs lo m, apart lo m cs -> lo <= m \/ cs <> [] -> held cs <= m - lo.
Proof.
  induction cs as [|c t IH]; intros lo m H Hl; cbn [held fold_right]; [lia|]. cbn [apart] in H.
  destruct H as (A & B & C & E). fold (held t). specialize (IH _ _ E (or_introl C)). unfold c_end in *. lia.
Qed.

(** Converse of [any_apart]. *)
Lemma apart_any : forall m r, rx_consumed r <= m -> apart (rx_consumed r + 1) m (rx_chunks r) -> any_inv m r.
Proof.
  intros m r Hc Ha. exists (repeat 0 (N.to_nat m)).
  assert (Hl : blen (repeat 0 (N.to_nat m)) = m) by (unfold blen; rewrite repeat_length; lia).
  assert (Hz : forall x, In x (repeat 0 (N.to_nat m)) -> x = 0) by (intros x Hx; apply repeat_spec in Hx; exact Hx).
  split; [exact Hl|]. split; [exact Hz|].
  exists [(firstn (N.to_nat (rx_consumed r)) (repeat 0 (N.to_nat m)), false)]. change (rx_consumed (zr r)) with (rx_consumed r).
  split; [change (rx_consumed (zr r)) with (rx_consumed r); lia|]. split; [unfold total; cbn [map fst concat]; rewrite app_nil_r; reflexivity|].
  change (rx_chunks (zr r)) with (map zc (rx_chunks r)). change (rx_consumed (zr r)) with (rx_consumed r). revert Ha.
  generalize (rx_consumed r + 1). induction (rx_chunks r) as [|c t IH]; intros lo H; [exact I|].
  cbn [map wfc apart] in *. destruct H as (A & B & C & E). rewrite zc_off, zc_end. change (c_data (zc c)) with (zb (c_data c)).
  rewrite zb_len. split; [exact A|]. split; [exact B|]. split; [apply zeros_slice; [exact Hz|rewrite Hl; exact C]|]. apply IH. exact E.
Qed.

Lemma apart_mono : forall cs lo m m', apart lo m cs -> m <= m' -> apart lo m' cs.
Proof.
  induction cs as [|c t IH]; intros lo m m' H Hm; [exact I|]. cbn [apart] in *. destruct H as (A & B & C & E).
  split; [exact A|]. split; [exact B|]. split; [lia|]. eapply IH; eassumption.
Qed.

Lemma any_mono : forall m m' r, any_inv m r -> m <= m' -> any_inv m' r.
Proof.
  intros m m' r H Hm. apply any_apart in H. destruct H as [A B]. apply apart_any; [lia|]. eapply apart_mono; eassumption.
Qed.

Lemma any_congr : forall m r r', rx_consumed r' = rx_consumed r -> rx_chunks r' = rx_chunks r -> any_inv m r -> any_inv m r'.
Proof. intros m r r' E1 E2 H. apply any_apart in H. destruct H as [A B]. apply apart_any; rewrite E1; [exact A|rewrite E2; exact B]. Qed.

(** ** FIN, whatever the frames *)

Definition fin_ok (r : rx) (out : list piece) : Prop :=
  rx_fin_signalled r = existsb snd out /\ fin_last out /\
  (rx_fin_signalled r = true -> rx_fin_received r = true /\ rx_fin_offset r <= rx_consumed r).

Lemma fin_callback : forall r out d r' ps, fin_ok r out -> (rx_fin_signalled r = true -> d = []) -> chunk_callback r d = (r', ps) ->
  fin_ok r' (out ++ ps) /\ same_frame r r' /\ rx_chunks r' = rx_chunks r /\ rx_consumed r <= rx_consumed r'.
Proof.
  intros r out d r' ps (H1 & H2 & H3) Hd E. unfold chunk_callback in E. injection E as <- <-.
  split; [|split; [repeat split|split; [reflexivity|cbn [rx_consumed]; lia]]].
  set (fin_now := (rx_fin_offset r <=? rx_consumed r + blen d) && rx_fin_received r && negb (rx_fin_signalled r)).
  unfold fin_ok. cbn [rx_fin_signalled rx_fin_received rx_consumed rx_fin_offset].
  destruct (rx_fin_signalled r) eqn:Es; cbn [orb].
  - rewrite (Hd eq_refl). rewrite blen_nil, N.add_0_r in *.
    assert (fin_now = false) as -> by (unfold fin_now; cbn [negb]; rewrite andb_false_r; reflexivity).
    cbn [orb]. rewrite N.ltb_irrefl. rewrite app_nil_r. split; [exact H1|]. split; [exact H2|exact H3].
  - symmetry in H1. assert (Hn : fin_now = true -> rx_fin_received r = true /\ rx_fin_offset r <= rx_consumed r + blen d).
    { unfold fin_now. intros Hn. apply andb_prop in Hn. destruct Hn as [Hn _]. apply andb_prop in Hn. destruct Hn as [Hn1 Hn2]. split; [exact Hn2|lia]. }
    destruct ((0 <? blen d) || fin_now) eqn:Ec.
    + split; [symmetry; exact (existsb_snoc out (d, fin_now) H1)|]. split; [apply fin_last_snoc; exact H1|exact Hn].
    + apply orb_false_elim in Ec. destruct Ec as [_ Ec2]. rewrite Ec2, app_nil_r. split; [symmetry; exact H1|]. split; [exact H2|discriminate].
Qed.

Lemma fin_drain : forall t r out r' ps, fin_ok r out -> (forall c, In c t -> c_end c <= rx_fin_offset r) -> drain t r = (r', ps) ->
  fin_ok r' (out ++ ps) /\ same_frame r r'.
Proof.
  induction t as [|c t IH]; intros r out r' ps Hf Hc E; cbn [drain] in E.
  - injection E as <- <-. rewrite app_nil_r. split; [exact Hf|repeat split].
  - destruct (N.leb_spec (c_off c) (rx_consumed r)) as [Ho|Ho].
    + destruct (N.leb_spec (rx_consumed r - c_off c) (blen (c_data c))) as [Hs|Hs].
      * destruct (chunk_callback r _) as [r1 p1] eqn:E1. destruct (drain t r1) as [r2 p2] eqn:E2. injection E as <- <-.
        assert (Hd : rx_fin_signalled r = true -> skipn (N.to_nat (rx_consumed r - c_off c)) (c_data c) = []).
        { intros Hsig. destruct Hf as (_ & _ & H3). apply H3 in Hsig. destruct Hsig as [_ Hsig]. apply blen_zero. rewrite blen_skipn.
          specialize (Hc c (or_introl eq_refl)). unfold c_end in Hc. lia. }
        destruct (fin_callback _ _ _ _ _ Hf Hd E1) as (A & B & C & D).
        destruct (IH _ _ _ _ A (fun x Hx => eq_ind_r (fun v => c_end x <= v) (Hc x (or_intror Hx)) (proj1 (proj2 (proj2 (proj2 B))))) E2) as (A2 & B2).
        rewrite app_assoc. split; [exact A2|]. eapply same_frame_trans; eassumption.
      * eapply IH; [exact Hf| |exact E]. intros x Hx. apply Hc. right. exact Hx.
    + injection E as <- <-. rewrite app_nil_r. split; [exact Hf|repeat split].
Qed.

Lemma fin_data_callback : forall r out r' ps, fin_ok r out -> (forall c, In c (rx_chunks r) -> c_end c <= rx_fin_offset r) ->
  data_callback r = (r', ps) -> fin_ok r' (out ++ ps) /\ same_frame r r'.
Proof.
  intros r out r' ps Hf Hc E. unfold data_callback in E. destruct (drain _ r) as [r1 p1] eqn:E1.
  destruct (chunk_callback r1 []) as [r2 p2] eqn:E2. injection E as <- <-.
  destruct (fin_drain _ _ _ _ _ Hf Hc E1) as (A & B). destruct (fin_callback _ _ _ _ _ A (fun _ => eq_refl) E2) as (A2 & B2 & _ & _).
  rewrite app_assoc. split; [exact A2|]. eapply same_frame_trans; eassumption.
Qed.

Lemma apart_in : forall cs lo m c, apart lo m cs -> In c cs -> c_end c <= m.
Proof.
  induction cs as [|x t IH]; intros lo m c H Hc; [contradiction|]. cbn [apart] in H. destruct H as (A & B & C & E).
  destruct Hc as [<-|Hc]; [exact C|]. eapply IH; eassumption.
Qed.

(** A frame within the known final size. *)
Lemma fin_input : forall r out off d n r' ps, any_inv (rx_fin_offset r) r -> off + blen d <= rx_fin_offset r -> fin_ok r out ->
  rx_input r off d n = Some (r', ps) -> fin_ok r' (out ++ ps) /\ same_frame r r' /\ any_inv (rx_fin_offset r') r'.
Proof.
  intros r out off d n r' ps Ha Hl Hf E.
  destruct (any_step _ r off d n Ha Hl) as (r2 & p2 & E2 & A2). rewrite E in E2. injection E2 as <- <-.
  assert (G : fin_ok r' (out ++ ps) /\ same_frame r r').
  { pose proof (any_apart _ _ Ha) as [Hc Hp]. unfold rx_input in E.
    destruct (N.leb_spec off (rx_consumed r)) as [Ho|Ho].
    - destruct (N.leb_spec (rx_consumed r) (off + blen d)) as [Hb|Hb].
      + destruct (chunk_callback r _) as [r1 p1] eqn:E1. destruct (data_callback r1) as [r3 p3] eqn:E3. injection E as <- <-.
        assert (Hd : rx_fin_signalled r = true -> skipn (N.to_nat (rx_consumed r - off)) d = []).
        { intros Hsig. destruct Hf as (_ & _ & H3). apply H3 in Hsig. destruct Hsig as [_ Hsig]. apply blen_zero. rewrite blen_skipn. lia. }
        destruct (fin_callback _ _ _ _ _ Hf Hd E1) as (A & B & C & D).
        destruct (fin_data_callback r1 (out ++ p1) r3 p3 A) as (A3 & B3); [|exact E3|].
        { rewrite C. destruct B as (_ & _ & _ & -> & _). intros c Hin. eapply apart_in; eassumption. }
        rewrite app_assoc. split; [exact A3|]. eapply same_frame_trans; eassumption.
      + injection E as <- <-. rewrite app_nil_r. split; [exact Hf|repeat split].
    - destruct (queue_network_input _ _ _ _) as [[t new]|] eqn:Eq; [|discriminate].
      assert (Ht : forall c, In c t -> c_end c <= rx_fin_offset r).
      { destruct Ha as (zs & Z1 & Z2 & zo & Z3 & Z4 & Z5). pose proof (z_queue (rx_chunks r) (rx_consumed r) off d) as Q. rewrite Eq in Q.
        destruct (queue_spec zs (map zc (rx_chunks r)) (rx_consumed r) (rx_consumed r + 1) off (zb d)) as (t2 & n2 & Q1 & Q2 & _).
        - exact Z5.
        - apply zeros_slice; [exact Z2|]. rewrite Z1. exact Hl.
        - lia.
        - exact Ho.
        - rewrite Q in Q1. cbn [option_map z2] in Q1. injection Q1 as <- _. intros c Hin.
          assert (Hin2 : In (zc c) (map zc t)) by (apply in_map; exact Hin). destruct (wfc_in _ _ _ _ Q2 Hin2) as (_ & _ & [W _]).
          change (c_data (zc c)) with (zb (c_data c)) in W. rewrite zb_len, zc_off, Z1 in W. exact W. }
      destruct (n || new).
      + injection E as E. eapply fin_data_callback in E; [exact E|exact Hf|exact Ht].
      + injection E as <- <-. rewrite app_nil_r. split; [exact Hf|repeat split]. }
  destruct G as [G1 G2]. split; [exact G1|]. split; [exact G2|]. destruct G2 as (_ & _ & _ & -> & _). exact A2.
Qed.
