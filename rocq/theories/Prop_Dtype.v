(** Property of data-type descriptions: C09. *)
From Verif Require Import Base Dtype DtypeSpec DtypeFacts.
Local Open Scope string_scope.

(** C09.  To text and back: scalars, vectors, and structures with any number of
    scalar or vector fields. *)
Theorem C09_roundtrip sz d : describable sz d -> str_to_dtype sz (dtype_to_str d) = Ok d.
Proof. exact (roundtrip sz d). Qed.
Print Assumptions C09_roundtrip.

(** C09.  Different dtypes have different texts. *)
Theorem C09_texts_differ sz d d' : describable sz d -> describable sz d' -> dtype_to_str d = dtype_to_str d' -> d = d'.
Proof. exact (text_injective sz d d'). Qed.
Print Assumptions C09_texts_differ.

Example C09_example :
  describable f4 (EStruct 28 [("position", (EType "<f4", [3%nat]), 0%nat); ("size", (EType "<f4", []), 12%nat);
                              ("uv", (EType "<f4", [3%nat]), 16%nat)], []) /\
  dtype_to_str (EStruct 28 [("position", (EType "<f4", [3%nat]), 0%nat); ("size", (EType "<f4", []), 12%nat);
                            ("uv", (EType "<f4", [3%nat]), 16%nat)], []) = "<f4:position:3,<f4:size:1,<f4:uv:3".
Proof.
  split; [|reflexivity]. split; [reflexivity|]. split; [discriminate|]. split.
  - repeat constructor; cbn; intuition discriminate.
  - assert (C : clean "<f4") by (split; cbn; intuition discriminate).
    assert (T : f4 "<f4" <> None) by discriminate.
    split; [|cbn; repeat (split; [reflexivity|eexists; split; [reflexivity|]]); reflexivity].
    assert (F : forall n s o, n <> "" -> clean n -> plain_shape s ->
                simple_field f4 (n, (EType "<f4", s), o) /\ plain_shape (field_shape (n, (EType "<f4", s), o))).
    { intros n s o H1 H2 H3. split; [|exact H3]. split; [exact H1|]. split; [exact H2|]. now exists "<f4". }
    assert (V : plain_shape [3%nat]) by (right; exists 3%nat; split; [lia|reflexivity]).
    constructor; [|constructor; [|constructor; [|constructor]]]; apply F; try discriminate; try exact V;
      try (left; reflexivity); split; cbn; intuition discriminate.
Qed.

(** C09.  Without names, the shape survives exactly when it is a scalar or a
    vector of at least two items; otherwise only the number of items is left. *)
Theorem C09_unnamed_iff sz t shape : clean t -> sz t <> None ->
  (str_to_dtype sz (dtype_to_str (EType t, shape)) = Ok (EType t, shape) <-> plain_shape shape).
Proof. exact (unnamed_iff sz t shape). Qed.
Print Assumptions C09_unnamed_iff.
Theorem C09_unnamed_flattened sz t shape : clean t -> sz t <> None ->
  str_to_dtype sz (dtype_to_str (EType t, shape)) = Ok (EType t, flat_shape shape).
Proof. exact (unnamed_flat sz t shape). Qed.
Print Assumptions C09_unnamed_flattened.

(** C09.  Structures of fields of any shape: names and types survive, shapes
    are flattened, fields are laid out without gaps. *)
Theorem C09_fields_flattened sz total fields : fields <> [] -> NoDup (map field_name fields) ->
  Forall (simple_field sz) fields ->
  exists total' fields',
    str_to_dtype sz (dtype_to_str (EStruct total fields, [])) = Ok (EStruct total' fields', []) /\
    packed sz 0 fields' total' /\
    map fst fields' = map (fun f => (field_name f, (field_elem f, flat_shape (field_shape f)))) fields.
Proof. exact (struct_flat sz total fields). Qed.
Print Assumptions C09_fields_flattened.

(** C09 fails for matrices, ... *)
Theorem C09_matrix_refuted : str_to_dtype f4 (dtype_to_str (EType "<f4", [4; 4]%nat)) = Ok (EType "<f4", [16%nat]).
Proof. exact matrix_witness. Qed.
Print Assumptions C09_matrix_refuted.

(** ... for names with separators (an error, or another structure), ... *)
Theorem C09_separator_in_name_refuted :
  str_to_dtype f4 (dtype_to_str (EStruct 4 [("a:b", (EType "<f4", []), 0%nat)], [])) = Err ValueError /\
  str_to_dtype f4 (dtype_to_str (EStruct 4 [("a:1,<f4:b", (EType "<f4", []), 0%nat)], [])) =
    Ok (EStruct 8 [("a", (EType "<f4", []), 0%nat); ("b", (EType "<f4", []), 4%nat)], []).
Proof. exact separator_witness. Qed.
Print Assumptions C09_separator_in_name_refuted.

(** ... for structures in structures, and ... *)
Theorem C09_nested_refuted :
  let inner := EStruct 8 [("x", (EType "<f4", []), 0%nat); ("y", (EType "<f4", []), 4%nat)] in
  str_to_dtype f4 (dtype_to_str (EStruct 8 [("p", (inner, []), 0%nat)], [])) =
    Ok (EStruct 8 [("p", (EType "|V8", []), 0%nat)], []).
Proof. exact nested_witness. Qed.
Print Assumptions C09_nested_refuted.

(** ... for structures with gaps. *)
Theorem C09_padding_refuted :
  str_to_dtype f4 (dtype_to_str (EStruct 16 [("a", (EType "<f4", []), 0%nat); ("b", (EType "<f4", []), 8%nat)], [])) =
    Ok (EStruct 8 [("a", (EType "<f4", []), 0%nat); ("b", (EType "<f4", []), 4%nat)], []).
Proof. exact padding_witness. Qed.
Print Assumptions C09_padding_refuted.

(** A count that is not a number is refused. *)
Theorem C09_count_refused sz t name size c : clean t -> clean name -> clean size -> In c (list_ascii_of_string size) -> letter c ->
  str_to_dtype sz (t ++ ":" ++ name ++ ":" ++ size) = Err ValueError.
Proof. exact (count_refused sz t name size c). Qed.
Print Assumptions C09_count_refused.
Example C09_count_refused_case : letter "x" /\ str_to_dtype (fun _ => Some 4%nat) "<f4:position:3x" = Err ValueError.
Proof. split; [right; cbn; lia|reflexivity]. Qed.
