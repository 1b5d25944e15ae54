(** C71: the converters that come with the library.  C72: matrices. *)
From Verif Require Import Base Base64 Buffer Types Registry Convert Command Queue Execute Json TypesFacts.
Local Open Scope nat_scope.
Local Open Scope list_scope.
Local Open Scope string_scope.

Theorem C71_target : forall objects tracker src dst f v w, In (src, dst, f) (registered objects tracker) -> dst <> "Canvas" ->
  f v = Ok w -> Types.class_of w = dst.
Proof. exact target. Qed.
Print Assumptions C71_target.
(** There are fifteen, for these pairs of classes; each gives something only for values
    of the class it is registered for (a Color is a tuple, a Marker an int), except
    the one for None, which is never given anything else. *)
Theorem C71_pairs : forall objects tracker, map fst (registered objects tracker) =
  [ ("str", "memoryview"); ("list", "Color"); ("tuple", "Color"); ("Color", "list"); ("Color", "tuple"); ("list", "tuple"); ("tuple", "list");
    ("int", "Canvas"); ("NoneType", "list"); ("ndarray", "Matrix"); ("list", "Buffer"); ("list", "List"); ("int", "Marker"); ("ndarray", "Buffer"); ("tracked", "Buffer") ].
Proof. exact registered_names. Qed.
Print Assumptions C71_pairs.
Theorem C71_source : forall objects tracker src dst f v w, In (src, dst, f) (registered objects tracker) -> f v = Ok w ->
  src = "NoneType" \/ Types.class_of v = src \/ (src = "tuple" /\ exists r g b a, v = PColor r g b a) \/ (src = "int" /\ exists z, v = PMarker z).
Proof. exact source. Qed.
Print Assumptions C71_source.
Theorem C71_colors : forall l, match l with
                   | [r; g; b; a] => list_to_Color (PList l) = Ok (PColor r g b a) /\ tuple_to_Color (PTuple l) = Ok (PColor r g b a)
                   | _ => list_to_Color (PList l) = Err TypeError /\ tuple_to_Color (PTuple l) = Err TypeError
                   end.
Proof. exact color_ok. Qed.
Print Assumptions C71_colors.
Theorem C71_sequences : forall l, list_to_tuple (PList l) = Ok (PTuple l) /\ tuple_to_list (PTuple l) = Ok (PList l) /\
  forall r g b a, tuple_to_list (PColor r g b a) = Ok (PList [r; g; b; a]).
Proof. repeat split. Qed.
Print Assumptions C71_sequences.
Theorem C71_markers : forall z, int_to_Marker (PInt z) = if ((1 <=? z) && (z <=? 12))%Z then Ok (PMarker z) else Err ValueError.
Proof. exact marker_ok. Qed.
Print Assumptions C71_markers.
Theorem C71_arrays : forall n sh w f c a, ndarray_to_Buffer (PArray (n :: sh) w f c a) = Ok (PBuffer (mkBuffer n w (SArray a) None)) /\
  ndarray_to_Buffer (PArray [] w f c a) = Err TypeError.
Proof. split; reflexivity. Qed.
Print Assumptions C71_arrays.
Theorem C71_objects : forall objects z, match dget objects z with
                                        | Some o => int_to_Canvas objects (PInt z) = Ok o
                                        | None => int_to_Canvas objects (PInt z) = Err KeyError
                                        end.
Proof. intros objects z. cbn. destruct (dget objects z); reflexivity. Qed.
Print Assumptions C71_objects.
Example C71_target_some : exists f, In ("list", "Color", f) (registered [] (fun _ => Ok tt)) /\
  f (PList [PInt 0; PInt 0; PInt 1; PInt 1]) = Ok (PColor (PInt 0) (PInt 0) (PInt 1) (PInt 1)).
Proof. eexists. split; [right; left; reflexivity|reflexivity]. Qed.

(** Six of the fifteen never give anything. *)
Theorem C71_never_refuted : forall objects tracker src dst f v w, In (src, dst, f) (registered objects tracker) ->
  In (src, dst) [("str", "memoryview"); ("Color", "list"); ("Color", "tuple"); ("ndarray", "Matrix"); ("list", "Buffer"); ("list", "List")] ->
  f v <> Ok w.
Proof. exact never. Qed.
Print Assumptions C71_never_refuted.
Example C71_never_some : exists f, In ("Color", "list", f) (registered [] (fun _ => Ok tt)).
Proof. eexists. do 3 right. left. reflexivity. Qed.
(** An identifier given for a canvas may be that of anything. *)
Theorem C71_canvas_refuted : exists objects w, int_to_Canvas objects (PInt 3) = Ok w /\ Types.class_of w <> "Canvas".
Proof. exists [(3%Z, PObject "Viewport" 3)], (PObject "Viewport" 3). split; [reflexivity|discriminate]. Qed.
Print Assumptions C71_canvas_refuted.
(** A session cannot be saved once a command holds a conversion that fails, such as
    an array given to render as a matrix. *)
Theorem C71_unsavable_refuted : forall txt ap oidf fuel s q c k f w e, (forall f v, fst (ap f v) = []) -> ap f w = ([], Err e) ->
  In c (commands s q) -> In (k, VConv f w) (c_params c) -> forall r, snd (save_queue txt ap oidf fuel s (Some q)) <> Ok r.
Proof. exact saving_fails. Qed.
Print Assumptions C71_unsavable_refuted.

Theorem C72_matrix : forall shape place, matrix (PArray shape 4 true true place) = Ok (PMatrix place (total shape)).
Proof. exact matrix_ok. Qed.
Print Assumptions C72_matrix.
Example C72_matrix_44 : matrix (PArray [4; 4] 4 true true 7) = Ok (PMatrix 7 16).
Proof. reflexivity. Qed.
(** The documented tuples and lists are refused. *)
Theorem C72_sequences_refuted : forall l, matrix (PTuple l) = Err TypeError /\ matrix (PList l) = Err TypeError.
Proof. split; reflexivity. Qed.
Print Assumptions C72_sequences_refuted.
(** Any number of values passes, and double-precision arrays give twice as many. *)
Theorem C72_size_refuted : forall n place, matrix (PArray [n] 4 true true place) = Ok (PMatrix place n).
Proof. intros n place. rewrite matrix_ok. cbn. now rewrite Nat.mul_1_r. Qed.
Print Assumptions C72_size_refuted.
Theorem C72_doubles_refuted : forall shape place, matrix (PArray shape 8 false true place) = Ok (PMatrix place (2 * total shape)).
Proof. exact matrix_double. Qed.
Print Assumptions C72_doubles_refuted.
(** A transposed or strided array is refused. *)
Theorem C72_strided_refuted : forall shape w f place, matrix (PArray shape w f false place) = Err ValueError.
Proof. reflexivity. Qed.
Print Assumptions C72_strided_refuted.
Definition rendered : sys := history
  [EGet (Some "q"); EPush 0 Z.of_nat "Points" "render" [("id", VOid 3); ("model", VConv 10 (VAtom "ndarray" 5))]].
Example C71_unsavable_some : exists c, In c (commands rendered 0) /\ In ("model", VConv 10 (VAtom "ndarray" 5)) (c_params c) /\
  snd (save_queue (fun _ _ => None) (fun f v => ([], if (f =? 10)%nat then Err NameError else Ok v)) Z.of_nat 9 rendered (Some 0)) = Err NameError.
Proof. eexists. split; [left; reflexivity|]. split; [right; left; reflexivity|reflexivity]. Qed.
