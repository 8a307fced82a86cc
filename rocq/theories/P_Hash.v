(** Property C17: the hash table behaves as a keyed collection. *)
From Verif Require Import Base Hash_model Hash_spec Hash_proofs.

(** After every legal history, with every compatible hash function and every
    number of bins, a lookup returns the most recently inserted item still
    present with an equal key, and nothing if there is none; the count is the
    number of items present. *)
Theorem C17_lookup : forall K (hash : K -> N) (eqk : K -> K -> bool), hash_compatible hash eqk ->
  forall nb ops key, legal_run eqk [] ops ->
  hash_retrieve hash eqk (hash_run hash eqk (hash_create nb) ops) key =
  option_map (fun p => mk_hitem (fst p) (hash (snd p)) (snd p)) (List.find (fun p => eqk key (snd p)) (live eqk ops)) /\
  ht_count (hash_run hash eqk (hash_create nb) ops) = N.of_nat (length (live eqk ops)).
Proof. exact @hash_map_like. Qed.
Print Assumptions C17_lookup.

(** Keys 1, 4, 7 collide in 3 bins; item 13 shadows item 11. *)
Example C17_lookup_case :
  let ops := [HInsert 10 1; HInsert 11 4; HInsert 12 7; HInsert 13 4; HDeleteItem 10 1; HDeleteKey 7; HDeleteKey 9] in
  hash_compatible (fun k => k) N.eqb /\ legal_run N.eqb [] ops /\
  live N.eqb ops = [(13, 4); (11, 4)] /\
  hash_retrieve (fun k => k) N.eqb (hash_run (fun k => k) N.eqb (hash_create 3) ops) 4 = Some (mk_hitem 13 4 4).
Proof.
  cbn zeta. split; [|split; [cbn; intuition discriminate|split; reflexivity]].
  split; [apply N.eqb_refl|]. split; [apply N.eqb_sym|]. split.
  - intros a b c H1 H2. apply N.eqb_eq in H1, H2. subst. apply N.eqb_refl.
  - intros a b H. apply N.eqb_eq in H. exact H.
Qed.

(** A lookup succeeds exactly when an item with an equal key is present, and it
    returns such an item. *)
Theorem C17_found_iff : forall K (hash : K -> N) (eqk : K -> K -> bool), hash_compatible hash eqk ->
  forall nb ops key, legal_run eqk [] ops ->
  ((exists it, hash_retrieve hash eqk (hash_run hash eqk (hash_create nb) ops) key = Some it /\
     In (hi_id it, hi_key it) (live eqk ops) /\ eqk key (hi_key it) = true) <->
   exists p, In p (live eqk ops) /\ eqk key (snd p) = true) /\
  (hash_retrieve hash eqk (hash_run hash eqk (hash_create nb) ops) key = None <->
   forall p, In p (live eqk ops) -> eqk key (snd p) = false).
Proof. exact @hash_found_iff. Qed.
Print Assumptions C17_found_iff.

Example C17_found_iff_case :
  let ops := [HInsert 10 [1; 2]; HInsert 11 [3]; HDeleteKey [3]] in
  let h := fun k => picohash_bytes k [1;2;3;4;5;6;7;8;9;10;11;12;13;14;15;16] in
  let eqk := fun a b : list N => if list_eq_dec N.eq_dec a b then true else false in
  legal_run eqk [] ops /\ live eqk ops = [(10, [1; 2])] /\
  hash_retrieve h eqk (hash_run h eqk (hash_create 32) ops) [3] = None.
Proof. vm_compute. intuition. Qed.

(** Items present were inserted. *)
Theorem C17_live_inserted : forall K (eqk : K -> K -> bool) ops p, In p (live eqk ops) ->
  In (HInsert (fst p) (snd p)) ops.
Proof. exact live_inserted. Qed.
Print Assumptions C17_live_inserted.

Example C17_live_inserted_case : In (7, 3) (live N.eqb [HInsert 7 3; HInsert 8 3; HDeleteKey 3]).
Proof. left. reflexivity. Qed.
