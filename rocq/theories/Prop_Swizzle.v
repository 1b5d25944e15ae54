(** Properties of swizzles: C29 - C30. *)
From Verif Require Import Base Swizzle SwizzleSpec SwizzleFacts.

(** C29.  A swizzle shows, for every element, the named components in the named
    order, repetitions included. *)
Theorem C29_read {A} (v : vecs A) key l : vector v -> names (ncomp v) key l ->
  exists r, getattr (alphabets (ncomp v)) v key = Ok r /\ shows_components v r l.
Proof. exact (read_ok v key l). Qed.
Print Assumptions C29_read.

(** C29.  Any other string is not an attribute. *)
Theorem C29_other_names {A} (v : vecs A) key : (forall l, ~ names (ncomp v) key l) ->
  getattr (alphabets (ncomp v)) v key = Err AttributeError.
Proof. exact (read_error v key). Qed.
Print Assumptions C29_other_names.

Example C29_example : names 4 (list_ascii_of_string "bgrr") [2; 1; 0; 0] /\ (forall l, ~ names 4 (list_ascii_of_string "xg") l).
Proof.
  split.
  - eexists. split; [right; left; reflexivity|]. repeat constructor.
  - intros l [s [Hs H]]. inversion H as [|? ? ? ? E H']; subst. inversion H' as [|? ? ? ? E' _]; subst.
    apply nth_error_In in E, E'. destruct Hs as [<-|[<-|[]]]; cbn in *; intuition discriminate.
Qed.

(** C30.  A scalar sets the named components of every element, and nothing
    else. *)
Theorem C30_write_scalar {A} (v : vecs A) key l (w : arr A) : vector v -> names (ncomp v) key l -> NoDup key ->
  shape w = [] ->
  exists v', setattr (alphabets (ncomp v)) v key w = (v', Ok tt) /\ sets_exactly v v' l (fun _ _ => at_ w []).
Proof. exact (write_scalar v key l w). Qed.
Print Assumptions C30_write_scalar.

(** C30.  One value per named component, unless there are as many elements as
    named components. *)
Theorem C30_write_components {A} (v : vecs A) key l (w : arr A) : vector v -> names (ncomp v) key l -> NoDup key ->
  shape w = [length key] -> (length key <> vlen v \/ length key = 1) ->
  exists v', setattr (alphabets (ncomp v)) v key w = (v', Ok tt) /\ sets_exactly v v' l (fun _ j => at_ w [j]).
Proof. exact (write_components v key l w). Qed.
Print Assumptions C30_write_components.

(** C30.  One row per element, unless the number of rows is the number of
    values or of named components. *)
Theorem C30_write_rows {A} (v : vecs A) key l (w : arr A) d L : vector v -> names (ncomp v) key l -> NoDup key ->
  lead v = d :: L -> shape w = lead v ++ [length key] -> prodn (shape w) <> d -> length key <> d ->
  exists v', setattr (alphabets (ncomp v)) v key w = (v', Ok tt) /\
    sets_exactly v v' l (fun i j => at_ w (i ++ [j])).
Proof. exact (fun Hv Hn => write_rows v key l w Hv Hn d L). Qed.
Print Assumptions C30_write_rows.

(** C30.  One row per element, one named component. *)
Theorem C30_write_column {A} (v : vecs A) key l (w : arr A) n : vector v -> names (ncomp v) key l -> NoDup key ->
  lead v = [n] -> length key = 1 -> shape w = [n; 1] ->
  exists v', setattr (alphabets (ncomp v)) v key w = (v', Ok tt) /\
    sets_exactly v v' l (fun i j => at_ w (i ++ [j])).
Proof. exact (fun Hv Hn => write_column v key l w Hv Hn n). Qed.
Print Assumptions C30_write_column.

(** C30.  One array per named component. *)
Theorem C30_write_arrays {A} (v : vecs A) key l (w : arr A) d L : vector v -> names (ncomp v) key l -> NoDup key ->
  lead v = d :: L -> shape w = length key :: lead v -> prodn (shape w) <> d ->
  exists v', setattr (alphabets (ncomp v)) v key w = (v', Ok tt) /\
    sets_exactly v v' l (fun i j => at_ w (j :: i)).
Proof. exact (fun Hv Hn => write_arrays v key l w Hv Hn d L). Qed.
Print Assumptions C30_write_arrays.

(** C30.  One value per element, the same for all the named components. *)
Theorem C30_write_elements {A} (v : vecs A) key l (w : arr A) n : vector v -> names (ncomp v) key l -> NoDup key ->
  lead v = [n] -> shape w = [n] ->
  exists v', setattr (alphabets (ncomp v)) v key w = (v', Ok tt) /\ sets_exactly v v' l (fun i _ => at_ w i).
Proof. exact (fun Hv Hn => write_elements v key l w Hv Hn n). Qed.
Print Assumptions C30_write_elements.

(** C30.  Reading the same components gives back what was written. *)
Theorem C30_read_back {A} (v v' : vecs A) key l f : vector v -> names (ncomp v) key l -> sets_exactly v v' l f ->
  exists r, getattr (alphabets (ncomp v')) v' key = Ok r /\ lead r = lead v /\ ncomp r = length key /\
    forall i j, in_shape (lead v) i -> j < length key -> comp r i j = f i j.
Proof. exact (read_back v v' key l f). Qed.
Print Assumptions C30_read_back.

(** C30.  A write that raises changes nothing. *)
Theorem C30_error_unchanged {A} (v : vecs A) key l (w : arr A) v' e : vector v -> names (ncomp v) key l ->
  setattr (alphabets (ncomp v)) v key w = (v', Err e) -> v' = v /\ (e = ValueError \/ e = IndexError).
Proof. exact (fun Hv Hn => write_error v key l w Hv Hn v' e). Qed.
Print Assumptions C30_error_unchanged.

(** Five 3-component vectors, v.zx = two columns. *)
Example C30_example :
  let v := mkVecs [5] 3 (fun _ c => c) in let w := mkArr [5; 2] (fun i => 10 * hd 0 i + last i 0 + 100) in
  vector v /\ names 3 (list_ascii_of_string "zx") [2; 0] /\ NoDup (list_ascii_of_string "zx") /\
  prodn (shape w) <> 5 /\
  let r := fst (setattr (alphabets 3) v (list_ascii_of_string "zx") w) in
  map (comp r [3]) [0; 1; 2] = [131; 1; 130].
Proof.
  cbv zeta. split; [|split; [|split; [|split]]].
  - split; cbn; lia.
  - eexists. split; [left; reflexivity|]. repeat constructor.
  - repeat constructor; cbn; intuition discriminate.
  - discriminate.
  - reflexivity.
Qed.

(** C30 fails for a single vector all of whose components are given (the
    example of the class documentation): ValueError. *)
Theorem C30_single_vector_refuted :
  let v := mkVecs [] 4 (fun _ _ => 0) in let key := list_ascii_of_string "xyzw" in
  names 4 key [0; 1; 2; 3] /\ forall w : arr nat, shape w = [4] -> setattr (alphabets 4) v key w = (v, Err ValueError).
Proof. exact single_vector_witness. Qed.
Print Assumptions C30_single_vector_refuted.

(** The same for every single vector. *)
Theorem C30_single_vector_raises {A} (v : vecs A) key l (w : arr A) : vector v -> names (ncomp v) key l ->
  lead v = [] -> shape w = [ncomp v] -> l <> [] ->
  setattr (alphabets (ncomp v)) v key w = (v, Err ValueError).
Proof. exact (write_single_all v key l w). Qed.
Print Assumptions C30_single_vector_raises.

(** C30 fails for as many elements as named components: v.xy = 1, 2 on two
    vectors gives (1, 1), (2, 2) instead of (1, 2), (1, 2); ... *)
Theorem C30_one_value_per_component_refuted :
  let v := mkVecs [2] 2 (fun _ _ => 0) in
  let w := mkArr [2] (fun i => match i with [0] => 1 | _ => 2 end) in
  let r := fst (setattr (alphabets 2) v (list_ascii_of_string "xy") w) in
  snd (setattr (alphabets 2) v (list_ascii_of_string "xy") w) = Ok tt /\
  (comp r [0] 0, comp r [0] 1) = (1, 1) /\ (comp r [1] 0, comp r [1] 1) = (2, 2).
Proof. exact two_vectors_witness. Qed.
Print Assumptions C30_one_value_per_component_refuted.

(** ... a square block of rows is stored transposed; ... *)
Theorem C30_square_rows_refuted :
  let v := mkVecs [2] 2 (fun _ _ => 0) in
  let w := mkArr [2; 2] (fun i => match i with [0; 0] => 1 | [0; 1] => 2 | [1; 0] => 3 | _ => 4 end) in
  let r := fst (setattr (alphabets 2) v (list_ascii_of_string "xy") w) in
  snd (setattr (alphabets 2) v (list_ascii_of_string "xy") w) = Ok tt /\
  (comp r [0] 0, comp r [0] 1) = (1, 3) /\ (comp r [1] 0, comp r [1] 1) = (2, 4).
Proof. exact square_witness. Qed.
Print Assumptions C30_square_rows_refuted.

(** ... for every such block; ... *)
Theorem C30_square_rows_transposed {A} (v : vecs A) key l (w : arr A) n : vector v -> names (ncomp v) key l ->
  NoDup key -> lead v = [n] -> length key = n -> 2 <= n -> shape w = [n; n] ->
  exists v', setattr (alphabets (ncomp v)) v key w = (v', Ok tt) /\ sets_exactly v v' l (fun i j => at_ w (j :: i)).
Proof. exact (fun Hv Hn => write_square v key l w Hv Hn n). Qed.
Print Assumptions C30_square_rows_transposed.

(** ... and an empty block of rows raises for an empty array. *)
Theorem C30_empty_refuted :
  let v := mkVecs [0] 2 (fun _ _ => 0) in
  setattr (alphabets 2) v (list_ascii_of_string "xy") (mkArr [0; 2] (fun _ => 0)) = (v, Err ValueError).
Proof. exact empty_witness. Qed.
Print Assumptions C30_empty_refuted.
