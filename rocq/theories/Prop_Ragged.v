(** Properties of ragged arrays: C24 - C26. *)
From Verif Require Import Base Slice Ragged RaggedSpec RaggedFacts.
Local Open Scope Z_scope.

(** C24.  Per-item sizes: accepted exactly when they add up to the length of
    the data, and then the array is the list of consecutive pieces. *)
Theorem C24_sizes_partition {A} (d : list A) b sizes :
  (forall z, In z sizes -> 0 <= z) -> (sizes <> [] \/ b = true) ->
  (zsum sizes = Z.of_nat (length d) ->
     exists r items, init (Flat d) (ISeq b sizes) = Ok r /\ shows r items /\
       map (fun x => Z.of_nat (length x)) items = sizes /\ concat items = d) /\
  (zsum sizes <> Z.of_nat (length d) -> init (Flat d) (ISeq b sizes) = Err ValueError).
Proof. exact (build_sizes d b sizes). Qed.
Print Assumptions C24_sizes_partition.

(** C24.  One size for all. *)
Theorem C24_uniform_partition {A} (d : list A) n : 0 < n -> (0 < length d)%nat ->
  ((n | Z.of_nat (length d)) ->
     exists r items, init (Flat d) (IInt n) = Ok r /\ shows r items /\ concat items = d /\
       (forall x, In x items -> Z.of_nat (length x) = n) /\ Z.of_nat (length items) * n = Z.of_nat (length d)) /\
  (~ (n | Z.of_nat (length d)) -> init (Flat d) (IInt n) = Err ValueError).
Proof. exact (build_uniform d n). Qed.
Print Assumptions C24_uniform_partition.

(** C24.  A list of sequences is itself, whatever sizes are given. *)
Theorem C24_nested {A} (l : list (list A)) s : l <> [] -> exists r, init (Nested l) s = Ok r /\ shows r l.
Proof. exact (build_nested l s). Qed.
Print Assumptions C24_nested.

(** C24.  What is shown determines the items. *)
Theorem C24_items_unique {A} (r : ragged A) items items' : shows r items -> shows r items' -> items = items'.
Proof. exact (shows_unique r items items'). Qed.
Print Assumptions C24_items_unique.

(** C24 fails for negative sizes that add up (accepted, items overlap or
    vanish) ... *)
Theorem C24_negative_sizes_refuted :
  exists (d : list nat) sizes r, init (Flat d) (ISeq false sizes) = Ok r /\
    zsum sizes = Z.of_nat (length d) /\
    get r (KInt 0) = Ok [] /\ get r (KInt 1) = Ok [8%nat] /\ rlen r = 2.
Proof. exact negative_sizes_witness. Qed.
Print Assumptions C24_negative_sizes_refuted.

(** ... and for size zero or empty data with one size: ZeroDivisionError
    instead of ValueError or an empty array. *)
Theorem C24_degenerate_uniform_refuted {A} (d : list A) n : n = 0 \/ (0 < n /\ d = []) ->
  init (Flat d) (IInt n) = Err ZeroDivisionError.
Proof. exact (build_degenerate d n). Qed.
Print Assumptions C24_degenerate_uniform_refuted.

(** C25.  Whatever was done to it, a ragged array built with non-negative sizes
    is a list of lists. *)
Theorem C25_always_a_list_of_items {A} (r : ragged A) : reachable r -> exists items, shows r items.
Proof. exact (reachable_shows r). Qed.
Print Assumptions C25_always_a_list_of_items.

(** C25.  Writing item [i] (named from the front or the back) changes item [i]
    and no other; values that do not fit raise ValueError. *)
Theorem C25_write_item {A} (r : ragged A) items i x p (v : aval A) :
  reachable r -> shows r items -> nth_error items i = Some x -> names items p i ->
  (forall w, spread (length x) v w -> exists r', set r (KInt p) v = Ok r' /\ shows r' (upd items i w)) /\
  ((forall w, ~ spread (length x) v w) -> set r (KInt p) v = Err ValueError).
Proof. exact (write_item r items i x p v). Qed.
Print Assumptions C25_write_item.

(** C25.  No write of any kind changes the number or the sizes of the items. *)
Theorem C25_sizes_never_change {A} (r : ragged A) items k (v : aval A) r' :
  reachable r -> shows r items -> set r k v = Ok r' ->
  exists items', shows r' items' /\ map (@length A) items' = map (@length A) items.
Proof. exact (write_keeps_sizes r items k v r'). Qed.
Print Assumptions C25_sizes_never_change.

Theorem C25_write_outside {A} (r : ragged A) items p (v : aval A) : reachable r -> shows r items ->
  (p < - Z.of_nat (length items) \/ Z.of_nat (length items) <= p) -> set r (KInt p) v = Err IndexError.
Proof. exact (write_outside r items p v). Qed.
Print Assumptions C25_write_outside.

(** C26.  Unit-step slices that select at least one item. *)
Theorem C26_unit_slices {A} (r : ragged A) items a b sel : reachable r -> shows r items ->
  get_slice items a b 1 = Ok sel -> sel <> [] -> get r (KSlice a b 1) = Ok (concat sel).
Proof. exact (slice_unit r items a b sel). Qed.
Print Assumptions C26_unit_slices.

(** C26.  Lists of indices give the items listed, in that order. *)
Theorem C26_lists_of_indices {A} (r : ragged A) items ks is : reachable r -> shows r items ->
  Forall2 (names items) ks is -> (forall i, In i is -> (i < length items)%nat) ->
  get r (KList ks) = Ok (concat (pick items is)).
Proof. exact (list_of_items r items ks is). Qed.
Print Assumptions C26_lists_of_indices.

(** C26 fails for other steps: the items in between are returned too ... *)
Theorem C26_strided_slice_refuted :
  exists (r : ragged nat) items sel, shows r items /\ get_slice items None None 2 = Ok sel /\
    get r (KSlice None None 2) <> Ok (concat sel).
Proof. exact strided_slice_witness. Qed.
Print Assumptions C26_strided_slice_refuted.
(** ... and reversal is ignored ... *)
Theorem C26_reversed_slice_refuted :
  exists (r : ragged nat) items sel, shows r items /\ get_slice items None None (-1) = Ok sel /\
    get r (KSlice None None (-1)) <> Ok (concat sel).
Proof. exact reversed_slice_witness. Qed.
Print Assumptions C26_reversed_slice_refuted.
(** ... and for empty slices: ValueError. *)
Theorem C26_empty_slice_refuted {A} (r : ragged A) items a b c : reachable r -> shows r items -> c <> 0 ->
  get_slice items a b c = Ok [] -> get r (KSlice a b c) = Err ValueError.
Proof. exact (slice_empty r items a b c). Qed.
Print Assumptions C26_empty_slice_refuted.

(** C26.  What any slice does return: everything from the lowest to the highest
    selected item. *)
Theorem C26_any_slice_exact {A} (r : ragged A) items a b c lo hi : reachable r -> shows r items -> c <> 0 ->
  let idx := slice_indices (Z.of_nat (length items)) a b c in
  In lo idx -> In hi idx -> (forall i, In i idx -> (lo <= i <= hi)%nat) ->
  get r (KSlice a b c) = Ok (concat (firstn (S hi - lo) (skipn lo items))).
Proof. exact (slice_any r items a b c lo hi). Qed.
Print Assumptions C26_any_slice_exact.

(** ** The hypotheses are met *)
Definition ex_r : ragged nat := mkRag [1; 2; 3; 4; 5; 6]%nat [(0, 1); (1, 1); (1, 4); (4, 6)].
Definition ex_items : list (list nat) := [[1]; []; [2; 3; 4]; [5; 6]]%nat.
Example ex_init : init (Flat [1; 2; 3; 4; 5; 6]%nat) (ISeq false [1; 0; 3; 2]) = Ok ex_r.
Proof. reflexivity. Qed.
Example ex_reachable : reachable ex_r.
Proof.
  eapply (r_init _ (ISeq false [1; 0; 3; 2])); [|exact ex_init]. cbn. intuition lia.
Qed.
Example ex_shows : shows ex_r ex_items.
Proof. apply repr_shows. split; reflexivity. Qed.
Example ex_set : set ex_r (KInt (-2)) (AMany [9; 9; 8]%nat) = Ok (mkRag [1; 9; 9; 8; 5; 6]%nat (ritems ex_r)).
Proof. reflexivity. Qed.
Example ex_slice : get ex_r (KSlice (Some (-3)) None 1) = Ok [2; 3; 4; 5; 6]%nat /\
  get_slice ex_items (Some (-3)) None 1 = Ok [[]; [2; 3; 4]; [5; 6]]%nat /\
  get ex_r (KSlice None (Some 0) 1) = Err ValueError /\
  get ex_r (KList [3; 0; -2]) = Ok [5; 6; 1; 2; 3; 4]%nat.
Proof. repeat split; reflexivity. Qed.
Example ex_uniform : exists r, init (Flat [1; 2; 3; 4]%nat) (IInt 2) = Ok r /\ get r (KInt 1) = Ok [3; 4]%nat.
Proof. eexists. split; reflexivity. Qed.
