(** Properties of tracked arrays: C27 - C28. *)
From Verif Require Import Base Slice Tracked TrackedSpec TrackedFacts.
Local Open Scope Z_scope.

(** C27.  After a clear nothing is reported; from then on, whatever is written
    through the base array or through views of views of it (forward slices,
    in-place +=, -=, *=), every byte that changed is reported. *)
Theorem C27_changes_since_clear_reported w shape mem l1 l2 : 0 < w -> Forall (Z.le 0) shape ->
  each trackable (create w shape mem false) (l1 ++ OClear :: l2) -> Forall not_clear l2 ->
  let t1 := run (create w shape mem false) (l1 ++ [OClear]) in
  let t2 := run t1 l2 in
  t_dirty t1 = None /\ forall x, t_mem t2 x <> t_mem t1 x -> reported t2 x.
Proof. exact (reported_since_clear w shape mem l1 l2). Qed.
Print Assumptions C27_changes_since_clear_reported.

(** C27.  The same since the creation of the array. *)
Theorem C27_changes_since_creation_reported w shape mem l : 0 < w -> Forall (Z.le 0) shape ->
  each trackable (create w shape mem false) l -> Forall not_clear l ->
  let t := run (create w shape mem false) l in
  forall x, t_mem t x <> mem x -> reported t x.
Proof. exact (reported_since_creation w shape mem l). Qed.
Print Assumptions C27_changes_since_creation_reported.

(** C27.  The first write after a clear is reported as the smallest block that
    holds it; it stores the value there and changes nothing else. *)
Theorem C27_smallest_block t h key val x z : 0 < t_w t /\ Forall (Z.le 0) (t_shape t) ->
  t_tracker t = false -> t_dirty t = None ->
  nth_error (t_handles t) h = Some x -> sub (view_of t x) key = Ok z -> forward_view z ->
  v_dims z <> [] -> Forall (fun d => 0 < fst d) (v_dims z) ->
  let t' := step t (OSet h key val) in
  (forall b, reported t' b -> exists b1 b2, byte_of (t_w t) z b1 /\ byte_of (t_w t) z b2 /\ b1 <= b <= b2) /\
  (forall b, byte_of (t_w t) z b -> reported t' b /\ t_mem t' b = val b) /\
  (forall b, ~ byte_of (t_w t) z b -> t_mem t' b = t_mem t b).
Proof. exact (set_extent_exact t h key val x z). Qed.
Print Assumptions C27_smallest_block.

(** C27.  A view's bytes are among those of the array it was taken from. *)
Theorem C27_views_inside w v key z b : Forall (fun d => 0 <= fst d) (v_dims v) ->
  sub v key = Ok z -> byte_of w z b -> byte_of w v b.
Proof. exact (sub_bytes w v key z b). Qed.
Print Assumptions C27_views_inside.

(** A history with a view of a view: a 3 x 4 array of 2-byte items; rows
    [1:], columns [::2] of them, then a row of that, an element of the base
    array, and an in-place operation. *)
Definition ex_history : list op :=
  [OGet 0 [XSlice (Some 1) None 1; XSlice None None 2]; OGet 1 [XInt (-1)]; OClear;
   OSet 1 [XInt 0] (fun _ => 5); OInplace 2 (fun _ => 9); OSet 0 [XInt 1; XInt (-1)] (fun _ => 3)].
Example C27_example_hypotheses : each trackable (create 2 [3; 4] (fun _ => 0) false) ex_history.
Proof.
  assert (K : forall k, forward_key k <-> Forall (fun k => match k with XInt _ => True | XSlice _ _ c => 0 <= c end) k)
    by (intros; reflexivity).
  unfold ex_history. cbn [each trackable]. rewrite !K.
  repeat match goal with |- _ /\ _ => split | |- Forall _ _ => repeat constructor; try lia end; auto.
  right. intros [x [z [E [Hz D]]]]. cbn in E. injection E as <-. vm_compute in Hz. injection Hz as <-. discriminate.
Qed.
Example C27_example_extent :
  t_dirty (run (create 2 [3; 4] (fun _ => 0) false) ex_history) = Some (8, 22) /\
  map (t_mem (run (create 2 [3; 4] (fun _ => 0) false) ex_history))
      [8; 9; 10; 11; 12; 13; 14; 15; 16; 17; 18; 20; 21; 22] =
      [5; 5; 0; 0; 5; 5; 3; 3; 9; 9; 0; 9; 9; 0].
Proof. split; vm_compute; reflexivity. Qed.

(** C27 fails for slices with a negative step, ... *)
Theorem C27_too_many_refused v key : (length (v_dims v) < length key)%nat -> (forall a b c, In (XSlice a b c) key -> c <> 0) -> sub v key = Err IndexError.
Proof. exact (too_many v key). Qed.
Print Assumptions C27_too_many_refused.
Example C27_too_many_case : sub (mkView 0 [(4, 1)]) [XInt 1; XSlice None None 2] = Err IndexError.
Proof. reflexivity. Qed.
Theorem C27_reversed_slice_refuted :
  let t1 := run (create 1 [4] (fun _ => 0) false) [OClear] in
  let t2 := step t1 (OSet 0 [XSlice None None (-1)] (fun _ => 7)) in
  t_mem t2 0 <> t_mem t1 0 /\ t_dirty t2 = Some (3, 1) /\ ~ reported t2 0.
Proof. exact reversed_unreported. Qed.
Print Assumptions C27_reversed_slice_refuted.

(** ... for one element of a view, ... *)
Theorem C27_element_of_view_refuted :
  let t1 := run (create 1 [4] (fun _ => 0) false) [OGet 0 [XSlice (Some 2) None 1]; OClear] in
  let t2 := step t1 (OSet 1 [XInt 0] (fun _ => 7)) in
  t_mem t2 2 <> t_mem t1 2 /\ t_dirty t2 = Some (0, 1) /\ ~ reported t2 2.
Proof. exact scalar_view_unreported. Qed.
Print Assumptions C27_element_of_view_refuted.

(** ... and for the in-place operators the class does not override. *)
Theorem C27_inplace_division_refuted :
  let t1 := run (create 1 [4] (fun _ => 8) false) [OClear] in
  let t2 := step t1 (OOther 0 (fun _ => 4)) in
  t_mem t2 0 <> t_mem t1 0 /\ t_dirty t2 = None.
Proof. exact division_unreported. Qed.
Print Assumptions C27_inplace_division_refuted.

(** C28.  Assignments through views of any depth keep the tracker's copy equal
    to the array. *)
Theorem C28_assignments_mirrored w shape mem l : 0 < w -> Forall (Z.le 0) shape ->
  let t0 := create w shape mem true in each mirrored_sets t0 l -> in_sync (run t0 l).
Proof. exact (sync_sets w shape mem l). Qed.
Print Assumptions C28_assignments_mirrored.

(** C28.  With in-place operators in between, the copy is up to date after
    every assignment through the base array or a view taken from it (any
    strides) ... *)
Theorem C28_mirrored_after_assignment w shape mem l h key val : 0 < w -> Forall (Z.le 0) shape ->
  let t0 := create w shape mem true in
  each mirrored_direct t0 (l ++ [OSet h key val]) -> set_succeeds (run t0 l) h key ->
  in_sync (run t0 (l ++ [OSet h key val])).
Proof. exact (sync_after_set w shape mem l h key val). Qed.
Print Assumptions C28_mirrored_after_assignment.

(** C28.  ... and at any time the bytes the tracker has not received are
    reported as modified. *)
Theorem C28_pending_reported w shape mem l : 0 < w -> Forall (Z.le 0) shape ->
  let t0 := create w shape mem true in
  each mirrored_direct t0 l ->
  forall x, 0 <= x < nbytes (run t0 l) -> t_copy (run t0 l) x <> t_mem (run t0 l) x -> reported (run t0 l) x.
Proof. exact (pending_reported w shape mem l). Qed.
Print Assumptions C28_pending_reported.

Example C28_example :
  let t0 := create 1 [6] (fun x => x) true in
  let l := [OSet 0 [XInt (-1)] (fun _ => 40); OGet 0 [XSlice None None (-2)]; OInplace 0 (fun x => x + 10)] in
  let o := OSet 1 [XSlice (Some 1) None 1] (fun _ => 77) in
  each mirrored_direct t0 (l ++ [o]) /\ set_succeeds (run t0 l) 1 [XSlice (Some 1) None 1] /\
  map (t_copy (run t0 l)) [0; 1; 2; 3; 4; 5] = [0; 1; 2; 3; 4; 40] /\
  map (t_copy (run t0 (l ++ [o]))) [0; 1; 2; 3; 4; 5] = [10; 77; 12; 77; 14; 15].
Proof.
  cbv zeta. split; [|split; [|split]].
  - cbn. repeat split; auto; try discriminate; repeat constructor.
    intros x E. injection E as <-. cbn. repeat constructor; cbn; lia.
  - eexists _, _. split; [reflexivity|]. vm_compute. reflexivity.
  - vm_compute. reflexivity.
  - vm_compute. reflexivity.
Qed.
Example C28_example_nested :
  let t0 := create 2 [3; 3] (fun x => x) true in
  let l := [OGet 0 [XSlice (Some 1) None 1]; OGet 1 [XSlice None None 1; XSlice None None 2];
            OSet 2 [XInt (-1)] (fun _ => 5); OSet 2 [XInt 0; XInt 1] (fun _ => 6)] in
  each mirrored_sets t0 l /\
  map (t_copy (run t0 l)) [0; 6; 8; 10; 11; 12; 13; 14; 15; 16; 17] = [0; 6; 8; 6; 6; 5; 5; 14; 15; 5; 5].
Proof.
  cbv zeta. split; [|vm_compute; reflexivity].
  cbn. repeat split; auto; try discriminate; repeat constructor; lia.
Qed.

(** C28 fails for in-place operators on their own, ... *)
Theorem C28_inplace_refuted :
  let t := run (create 1 [4] (fun _ => 0) true) [OInplace 0 (fun _ => 1)] in ~ in_sync t.
Proof. exact inplace_unsent. Qed.
Print Assumptions C28_inplace_refuted.

(** ... for slices with a negative step of the base array, ... *)
Theorem C28_reversed_slice_refuted :
  let t := run (create 1 [4] (fun _ => 0) true)
               [OSet 0 [XInt 0] (fun _ => 0); OSet 0 [XSlice None None (-1)] (fun _ => 7)] in
  ~ in_sync t /\ t_dirty t = None.
Proof. exact reversed_unsent. Qed.
Print Assumptions C28_reversed_slice_refuted.

(** ... and for an in-place operator followed by an assignment through a view
    of a view: its change is then forgotten for good. *)
Theorem C28_nested_view_refuted :
  let t := run (create 1 [4] (fun _ => 0) true)
               [OGet 0 [XSlice (Some 2) (Some 4) 1]; OGet 1 [XSlice (Some 0) (Some 1) 1];
                OInplace 0 (fun _ => 1); OSet 2 [XSlice None None 1] (fun _ => 7)] in
  ~ in_sync t /\ t_dirty t = None.
Proof. exact nested_view_unsent. Qed.
Print Assumptions C28_nested_view_refuted.
