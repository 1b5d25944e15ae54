(** C97: creating visuals. *)
From Verif Require Import Base Registry Convert Command Buffer Creation CreationSpec CreationFacts.
From Verif Require Visual.
Local Open Scope string_scope.

(** The arguments of a new visual, given by place or by name to the class of the
    protocol or to that of the backend, are its input variables, under the documented
    names; there is no viewport yet and there are no others. *)
Theorem C97_arguments w k args kw c : create w k args kw = Ok c \/ create_mpl w k args kw = Ok c ->
  (forall n, In n (documented k) -> dget (c_in c) n = argument (documented k) args kw n /\ dget (c_in c) n <> None) /\
  dget (c_in c) "viewport" = Some VNone /\ (forall n, dget (c_in c) n <> None -> In n (documented k) \/ n = "viewport").
Proof. exact (arguments_kept w k args kw c). Qed.
Print Assumptions C97_arguments.
(** The two classes do the same. *)
Theorem C97_same w k args kw : create_mpl w k args kw = create w k args kw.
Proof. exact (create_mpl_same w k args kw). Qed.
Print Assumptions C97_same.
(** A call with a missing, unknown, repeated or supernumerary argument is refused. *)
Theorem C97_calls w k args kw : ~ proper (documented k) args kw -> create w k args kw = Err TypeError /\ create_mpl w k args kw = Err TypeError.
Proof. exact (improper w k args kw). Qed.
Print Assumptions C97_calls.
(** Each output array has an item for each position, those of paths and polygons one
    for each group. *)
Theorem C97_sizes w k args kw c : create w k args kw = Ok c ->
  exists p n m, argument (documented k) args kw "positions" = Some p /\ counted w k p n /\
  (grouped k -> exists i, argument (documented k) args kw "indices" = Some i /\ grouping w n i m) /\
  forall name, dget (c_out c) name = if existsb (String.eqb name) (Visual.outputs k) then Some (shape k (Z.of_nat n) (Z.of_nat m) name) else None.
Proof. exact (sizes_of w k args kw c). Qed.
Print Assumptions C97_sizes.
(** The variables are those of the model of visuals (C36, C37). *)
Theorem C97_variables w k args kw c : create w k args kw = Ok c -> dkeys (c_in c) = Visual.inputs k /\ dkeys (c_out c) = Visual.outputs k.
Proof. exact (variables_of w k args kw c). Qed.
Print Assumptions C97_variables.
(** Positions that can be counted and groups that can be counted are accepted. *)
Theorem C97_accepted_partial w k args kw p n m : proper (documented k) args kw -> argument (documented k) args kw "positions" = Some p -> counted w k p n ->
  (grouped k -> exists i, argument (documented k) args kw "indices" = Some i /\ grouping w n i m) -> exists c, create w k args kw = Ok c.
Proof. exact (creates w k args kw p n m). Qed.
Print Assumptions C97_accepted_partial.
(** A transform is announced for the positions of every visual, but points, markers
    and pixels refuse it. *)
Theorem C97_transform_refuted w k args kw c r x : ~ of_lines k -> proper (documented k) args kw -> argument (documented k) args kw "positions" = Some (VObj c r) ->
  w_thing w r = ATransform x -> create w k args kw = Err TypeError /\ create_mpl w k args kw = Err TypeError.
Proof. exact (transform_refused w k args kw c r x). Qed.
Print Assumptions C97_transform_refuted.
(** Paths and polygons refuse some of the groups announced: lists whose items have one
    size, and transforms; and sizes that are not positive. *)
Theorem C97_groups_refuted w k args kw p n i : grouped k -> proper (documented k) args kw -> argument (documented k) args kw "positions" = Some p -> counted w k p n ->
  argument (documented k) args kw "indices" = Some i ->
  (forall c r l z, i = VObj c r -> w_thing w r = AList l -> l_sizes l = OneSize z -> create w k args kw = Err NameError /\ create_mpl w k args kw = Err NameError) /\
  (forall c r x, i = VObj c r -> w_thing w r = ATransform x -> create w k args kw = Err TypeError /\ create_mpl w k args kw = Err TypeError) /\
  (i = VInt 0 -> create w k args kw = Err ZeroDivisionError /\ create_mpl w k args kw = Err ZeroDivisionError) /\
  (forall z, i = VInt z -> (z < 0)%Z -> (0 < n)%nat -> create w k args kw = Err ValueError /\ create_mpl w k args kw = Err ValueError).
Proof. exact (groups_refused w k args kw p n i). Qed.
Print Assumptions C97_groups_refuted.

(** Paths of a buffer of six positions in groups of four, and of a transform in the
    groups of a list. *)
Example C97_case :
  create_mpl ex_world Visual.Paths [VObj "Buffer" 0%nat] (ex_kw (VInt 4)) =
    Ok (mkC [("positions", VObj "Buffer" 0%nat); ("indices", VInt 4); ("line_colors", VSeq [VInt 0; VInt 0; VInt 0; VInt 1]); ("line_widths", VInt 2);
             ("line_styles", VInt 0); ("line_joins", VInt 0); ("line_caps", VInt 1); ("viewport", VNone)]
            [("screen[positions]", [6; 3]); ("screen[paths]", [1; 3]); ("line_caps", [6; 2]); ("line_colors", [6; 4]); ("line_widths", [6])])%Z /\
  (exists c, create ex_world Visual.Paths [VObj "Transform" 1%nat] (ex_kw (VObj "List" 3%nat)) = Ok c /\ dget (c_out c) "screen[paths]" = Some [3; 3]%Z) /\
  counted ex_world Visual.Paths (VObj "Transform" 1%nat) 6 /\ grouping ex_world 6 (VInt 4) 1.
Proof.
  split; [reflexivity|]. split; [eexists; split; reflexivity|]. split.
  - eapply counted_transform; [red; tauto|reflexivity|]. now constructor.
  - eapply grouping_size; [now left| |]; cbn; split || reflexivity; discriminate || reflexivity.
Qed.
Example C97_calls_case : ~ proper (documented Visual.Pixels) [VInt 1] [] /\ proper (documented Visual.Pixels) [VInt 1] [("colors", VInt 2)].
Proof.
  split; [intros (_ & H); now apply (proj2 (H "colors")); left|]. split; [cbn; auto|]. intros n. cbn. tauto.
Qed.
Example C97_transform_case : ~ of_lines Visual.Pixels /\ proper (documented Visual.Pixels) [VObj "X" 1%nat] [("colors", VInt 2)] /\
  argument (documented Visual.Pixels) [VObj "X" 1%nat] [("colors", VInt 2)] "positions" = Some (VObj "X" 1%nat) /\
  w_thing ex_world 1%nat = ATransform (Ok (VAtom "ndarray" 6)).
Proof.
  split; [intros [H|[H|H]]; discriminate|]. split; [split; [cbn; auto|]; intros n; cbn; tauto|]. split; reflexivity.
Qed.
Example C97_groups_case : create ex_world Visual.Paths [VObj "Buffer" 0%nat] (ex_kw (VObj "List" 2%nat)) = Err NameError /\
  proper (documented Visual.Paths) [VObj "Buffer" 0%nat] (ex_kw (VObj "List" 2%nat)) /\ counted ex_world Visual.Paths (VObj "Buffer" 0%nat) 6.
Proof.
  split; [reflexivity|]. split; [split; [cbn; auto with arith|]; intros n; cbn; tauto|]. constructor. now apply (holds_buffer ex_world "Buffer" 0%nat six).
Qed.
