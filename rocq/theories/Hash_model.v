(** Model of the hash table, picoquic/picohash.c (definitions only). *)
From Verif Require Import Base.

(** picoquic/picohash.h 36-40: an item with its address, hash and key. *)
Record hitem (K : Type) := mk_hitem { hi_id : N; hi_hash : N; hi_key : K }.
Arguments mk_hitem {K} _ _ _.
Arguments hi_id {K} _.
Arguments hi_hash {K} _.
Arguments hi_key {K} _.

(** picoquic/picohash.h 42-51: the bins as lists, first item first. *)
Record htable (K : Type) := mk_htable { ht_nb_bin : N; ht_bins : N -> list (hitem K); ht_count : N }.
Arguments mk_htable {K} _ _ _.
Arguments ht_nb_bin {K} _.
Arguments ht_bins {K} _.
Arguments ht_count {K} _.

(** picoquic/picohash.c 29-58, picohash_create_ex when the allocations succeed. *)
Definition hash_create {K} (nb_bin : N) : htable K := mk_htable nb_bin (fun _ => []) 0.

(** picoquic/picohash.c 70, 87 and 113: index of the bin, cast to 32 bits. *)
Definition bin_of {K} (t : htable K) (hash : N) : N := (hash mod ht_nb_bin t) mod 2 ^ 32.

(** Assignment to hash_bin[bin] (picoquic/picohash.c 102 and 118). *)
Definition set_bin {K} (t : htable K) (b : N) (l : list (hitem K)) (count : N) : htable K :=
  mk_htable (ht_nb_bin t) (fun i => if i =? b then l else ht_bins t i) count.

(** picoquic/picohash.c 67-82, picohash_retrieve; [eqk] is picohash_compare == 0. *)
Definition hash_retrieve {K} (hash : K -> N) (eqk : K -> K -> bool) (t : htable K) (key : K) : option (hitem K) :=
  List.find (fun it => eqk key (hi_key it)) (ht_bins t (bin_of t (hash key))).

(** picoquic/picohash.c 84-109, picohash_insert of an item at address [id]. *)
Definition hash_insert {K} (hash : K -> N) (t : htable K) (id : N) (key : K) : htable K :=
  let h := hash key in
  let b := bin_of t h in
  set_bin t b (mk_hitem id h key :: ht_bins t b) (ht_count t + 1).

(** picoquic/picohash.c 115-130: unlinking of the item, first occurrence of its
    address in the bin; [None] when it is not there. *)
Fixpoint unlink {K} (id : N) (l : list (hitem K)) : option (list (hitem K)) :=
  match l with
  | [] => None
  | x :: l' => if hi_id x =? id then Some l' else option_map (cons x) (unlink id l')
  end.

(** picoquic/picohash.c 111-141, picohash_delete_item; the memory management
    (132-140) is not modelled. *)
Definition hash_delete_item {K} (t : htable K) (it : hitem K) : htable K :=
  let b := bin_of t (hi_hash it) in
  match unlink (hi_id it) (ht_bins t b) with
  | Some l => set_bin t b l (ht_count t - 1)
  | None => t
  end.

(** picoquic/picohash.c 143-153, picohash_delete_key. *)
Definition hash_delete_key {K} (hash : K -> N) (eqk : K -> K -> bool) (t : htable K) (key : K) : htable K :=
  match hash_retrieve hash eqk t key with
  | Some it => hash_delete_item t it
  | None => t
  end.

(** Operations of a history. *)
Inductive hash_op (K : Type) :=
| HInsert (id : N) (key : K)
| HDeleteItem (id : N) (key : K)
| HDeleteKey (key : K).
Arguments HInsert {K} _ _.
Arguments HDeleteItem {K} _ _.
Arguments HDeleteKey {K} _.

(** One operation; the item deleted at address [id] holds the key it was
    inserted with, and the hash stored by the insertion (picohash.c 99-100). *)
Definition hash_step {K} (hash : K -> N) (eqk : K -> K -> bool) (t : htable K) (o : hash_op K) : htable K :=
  match o with
  | HInsert id key => hash_insert hash t id key
  | HDeleteItem id key => hash_delete_item t (mk_hitem id (hash key) key)
  | HDeleteKey key => hash_delete_key hash eqk t key
  end.

(** A history. *)
Definition hash_run {K} (hash : K -> N) (eqk : K -> K -> bool) (t : htable K) (ops : list (hash_op K)) : htable K :=
  fold_left (hash_step hash eqk) ops t.

(** picoquic/picohash.c 180-202, picohash_bytes. *)
Fixpoint hash_bytes_loop (bytes : list N) (i : N) (seed : list N) (h rot : N) : N * N :=
  match bytes with
  | [] => (h, rot)
  | b :: bytes' =>
    let h := N.lxor h b in
    let h := N.lxor h (nth (N.to_nat (N.land i 15)) seed 0) in
    let h := N.lxor h (u64 (N.shiftl h 8)) in
    let h := u64 (h + N.shiftr h rot) in
    hash_bytes_loop bytes' (i + 1) seed h (N.land h 31 + 11)
  end.

(** picoquic/picohash.c 180-202, picohash_bytes. *)
Definition picohash_bytes (bytes seed : list N) : N :=
  let h0 := fold_right (fun b acc => b + 256 * acc) 0 (firstn 8 (skipn 8 seed)) in
  let '(h, rot) := hash_bytes_loop bytes 0 seed h0 11 in
  N.lxor h (N.shiftr h rot).
