(** Property C62: the byte streams of the binary logs: what is written is read back, nothing is
    stored or loaded outside of the data, and a stream that is full says so. *)
From Verif Require Import Base Varint_spec Bstream_model Bstream_spec Bstream_proofs Bstreamb_proofs.

(** Any items are written one after the other in the shortest layout at the position of the stream,
    and nothing else changes, exactly if they fit; if not, the writing says so, the bytes before
    the position are the same, and the position is the end.  Nothing is stored outside. *)
Theorem C62_write : forall l s, bs_ok s -> Forall item_ok l ->
  exists p s' r, series l p /\ w_items l s = Some (s', r) /\ bs_ok s' /\
    blen (b_data s') = blen (b_data s) /\
    (r = true <-> b_ptr s + blen p <= blen (b_data s)) /\
    if r then written (b_ptr s) p (b_data s) (b_data s') /\ b_ptr s' = b_ptr s + blen p
    else b_ptr s' = blen (b_data s) /\
         exists a b c, b_data s = a ++ b /\ b_data s' = a ++ c /\ blen a = b_ptr s.
Proof. exact write_thm. Qed.
Print Assumptions C62_write.

Definition C62_items : list bitem :=
  [BVint 70000; B8 255; B16 4660; B32 305419896; B64 1311768467463790320; BBuf [9; 8; 7]; BCid [1; 2; 3; 4];
   BStr [104; 105]; BAddr 2 [10; 0; 0; 1] 443; BAddr 10 (repeat 254 16) 4433].

Example C62_write_ex :
  bs_ok (mk_bs (repeat 0 80) 5) /\ Forall item_ok C62_items /\
  option_map snd (w_items C62_items (mk_bs (repeat 0 80) 5)) = Some true /\
  option_map snd (w_items C62_items (mk_bs (repeat 0 40) 5)) = Some false.
Proof.
  split; [|split; [|split; vm_compute; reflexivity]].
  - split; [vm_compute; discriminate|]. split; [vm_compute; reflexivity|].
    apply Forall_forall. intros x H. apply repeat_spec in H. subst. reflexivity.
  - unfold C62_items.
    assert (B : forall l, forallb (fun b => b <? 256) l = true -> bytes_ok l).
    { intros l H. apply Forall_forall. intros x Hx. rewrite forallb_forall in H. apply N.ltb_lt. exact (H x Hx). }
    apply Forall_cons; [reflexivity|]. apply Forall_cons; [reflexivity|]. apply Forall_cons; [reflexivity|].
    apply Forall_cons; [reflexivity|]. apply Forall_cons; [reflexivity|].
    apply Forall_cons; [apply B; reflexivity|].
    apply Forall_cons; [split; [apply B; reflexivity|vm_compute; discriminate]|].
    apply Forall_cons; [split; [apply B; reflexivity|reflexivity]|].
    apply Forall_cons; [split; [apply B; reflexivity|split; [reflexivity|left; split; reflexivity]]|].
    apply Forall_cons; [split; [apply B; reflexivity|split; [reflexivity|right; split; [discriminate|split; reflexivity]]]|].
    apply Forall_nil.
Qed.

(** Every reader, on any data and at any position: it loads nothing outside, does not change the
    data, and finds an item exactly if the bytes at the position are one, after which it stops. *)
Theorem C62_read : forall k s, bs_ok s ->
  exists s' v, r_item k s = Some (s', v) /\ bs_ok s' /\ b_data s' = b_data s /\ b_ptr s <= b_ptr s' /\
    match v with
    | Some i => exists a p t, b_data s = a ++ p ++ t /\ blen a = b_ptr s /\ reads k i p /\ b_ptr s' = b_ptr s + blen p
    | None => forall i a p t, b_data s = a ++ p ++ t -> blen a = b_ptr s -> ~ reads k i p
    end.
Proof. exact read_thm. Qed.
Print Assumptions C62_read.

Example C62_read_ex :
  r_item (KStr 10) (mk_bs [7; 2; 104; 105; 9] 1) = Some (mk_bs [7; 2; 104; 105; 9] 4, Some (BStr [104; 105])) /\
  r_item (KStr 10) (mk_bs [7; 4; 104; 105; 9] 1) = Some (mk_bs [7; 4; 104; 105; 9] 5, None).
Proof. vm_compute. split; reflexivity. Qed.

(** What was written is read back, and the reader stops where the writer did: a string in an array
    that holds it, an address of family 2 or 10. *)
Theorem C62_round : forall ks l s s', bs_ok s -> Forall item_ok l -> Forall2 for_item ks l ->
  w_items l s = Some (s', true) ->
  r_items ks (mk_bs (b_data s') (b_ptr s)) = Some (s', Some l).
Proof. exact round_thm. Qed.
Print Assumptions C62_round.

Definition C62_kinds : list bkind := [KVint; K8; K16; K32; K64; KBuf 3; KCid 0; KStr 3; KAddr; KAddr].

Example C62_round_ex :
  Forall2 for_item C62_kinds C62_items /\
  option_map snd (r_items C62_kinds (mk_bs
    match w_items C62_items (mk_bs (repeat 0 80) 5) with Some (s, _) => b_data s | None => [] end 5)) =
  Some (Some C62_items).
Proof.
  split; [|vm_compute; reflexivity]. unfold C62_kinds, C62_items.
  repeat (constructor; [try exact I; try reflexivity; try (left; reflexivity); try (right; reflexivity)|]). constructor.
Qed.

(** A reader that fails leaves the position at the end, so that every later item of one byte or more
    fails too; except for connection ids and strings that are too long. *)
Theorem C62_end : forall k s s', bs_ok s -> r_item k s = Some (s', None) ->
  b_ptr s' = blen (b_data s) \/ match k with KCid _ | KStr _ => True | _ => False end.
Proof. exact end_thm. Qed.
Print Assumptions C62_end.

Example C62_end_ex : r_item K32 (mk_bs [1; 2; 3; 4; 5] 2) = Some (mk_bs [1; 2; 3; 4; 5] 5, None).
Proof. vm_compute. reflexivity. Qed.

(** Passing over an item stops where reading it does, if it can be read, and loads nothing outside;
    it succeeds only on items that can be read, but for connection ids and strings. *)
Theorem C62_skip : forall k s, bs_ok s ->
  exists s' r, skip_item k s = Some (s', r) /\ b_data s' = b_data s /\ b_ptr s <= b_ptr s' <= blen (b_data s) /\
    (forall s'' i, r_item k s = Some (s'', Some i) -> r = true /\ s'' = s') /\
    (r = true -> (exists i, r_item k s = Some (s', Some i)) \/
       match k with KCid _ | KStr _ => True | _ => False end).
Proof. exact skip_thm. Qed.
Print Assumptions C62_skip.

Example C62_skip_ex :
  skip_item KAddr (mk_bs [2; 10; 0; 0; 1; 1; 187; 6] 0) = Some (mk_bs [2; 10; 0; 0; 1; 1; 187; 6] 7, true).
Proof. vm_compute. reflexivity. Qed.

(** FINDING: an error does not stay: a connection id with a length over 20 is refused, but the
    position is then that of its first byte (bytestream.c 328, 329), and so for a string that is too
    long (363, 364); what follows is read from the middle of the item. *)
Theorem C62_sticky_refuted : exists s s1 s2 i,
  bs_ok s /\ r_item (KCid 0) s = Some (s1, None) /\ r_item K8 s1 = Some (s2, Some i).
Proof.
  exists (mk_bs (21 :: repeat 5 21) 0), (mk_bs (21 :: repeat 5 21) 1), (mk_bs (21 :: repeat 5 21) 2), (B8 5).
  repeat split; try (vm_compute; congruence). repeat (constructor; [vm_compute; reflexivity|]). constructor.
Qed.
Print Assumptions C62_sticky_refuted.

(** FINDING: an address that is not set (family 0) is written as such with 16 bytes, and read back
    as an address of IPv6 (bytestream.c 394-398, 413-417). *)
Theorem C62_family_refuted : exists i j s s',
  item_ok i /\ bs_ok s /\ w_item i s = Some (s', true) /\
  r_item KAddr (b_reset s') = Some (s', Some j) /\ j <> i.
Proof.
  exists (BAddr 0 (repeat 0 16) 0), (BAddr 10 (repeat 0 16) 0), (mk_bs (repeat 7 19) 0), (mk_bs (repeat 0 19) 19).
  split; [|split; [|split; [vm_compute; reflexivity|split; [vm_compute; reflexivity|discriminate]]]].
  - split; [repeat (constructor; [vm_compute; reflexivity|]); constructor|]. split; [vm_compute; reflexivity|].
    right. split; [discriminate|]. split; reflexivity.
  - repeat split; try (vm_compute; congruence). repeat (constructor; [vm_compute; reflexivity|]). constructor.
Qed.
Print Assumptions C62_family_refuted.

(** FINDING: numbers of 2^62 or more lose their two first bits without error (bytestream.c 138-147):
    for example a time, or a value of UINT64_MAX, in a log. *)
Theorem C62_large_refuted : exists n s s' m,
  n < two64 /\ bs_ok s /\ w_item (BVint n) s = Some (s', true) /\
  r_item KVint (b_reset s') = Some (s', Some (BVint m)) /\ m <> n.
Proof.
  exists max64, (mk_bs (repeat 0 8) 0), (mk_bs (repeat 255 8) 8), 4611686018427387903.
  split; [vm_compute; reflexivity|]. split; [|split; [vm_compute; reflexivity|split; [vm_compute; reflexivity|discriminate]]].
  repeat split; try (vm_compute; congruence). repeat (constructor; [vm_compute; reflexivity|]). constructor.
Qed.
Print Assumptions C62_large_refuted.

(** FINDING: byteskip_cid passes over an id of more than 20 bytes, that byteread_cid refuses
    (bytestream.c 338-345). *)
Theorem C62_skip_refuted : exists s s' s'',
  bs_ok s /\ skip_item (KCid 0) s = Some (s', true) /\ r_item (KCid 0) s = Some (s'', None).
Proof.
  exists (mk_bs (21 :: repeat 5 21) 0), (mk_bs (21 :: repeat 5 21) 22), (mk_bs (21 :: repeat 5 21) 1).
  repeat split; try (vm_compute; congruence). repeat (constructor; [vm_compute; reflexivity|]). constructor.
Qed.
Print Assumptions C62_skip_refuted.

(** FINDING: when an item does not fit, the position becomes the end of the array, though the bytes in
    between were not written: bytestream_length (bytestream.c 87-90) then counts them, and the
    functions of picoquic/logwriter.c, that do not look at the results (for example 913-942, with a server name and
    protocols of any length), copy them
    to the log: the bytes of an array of the stack that was never set. *)
Theorem C62_stale_refuted : exists i s s',
  item_ok i /\ bs_ok s /\ w_item i s = Some (s', false) /\ b_data s' = b_data s /\
  b_ptr s' = blen (b_data s) /\ b_ptr s + 1 < b_ptr s'.
Proof.
  exists (BBuf [1; 2; 3]), (mk_bs [9; 9] 0), (mk_bs [9; 9] 2).
  repeat split; try (vm_compute; congruence); repeat (constructor; [vm_compute; reflexivity|]); constructor.
Qed.
Print Assumptions C62_stale_refuted.
