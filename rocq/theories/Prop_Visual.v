(** C36, C37, C56: variables and matrices of visuals. *)
From Verif Require Import Base Transform TransformSpec Visual VisualSpec VisualFacts.
Local Open Scope string_scope.

(** C36: setting an input variable. *)
Theorem C36_set_input {A M} (W : world A M) s n v : dmem (v_in s) n = true ->
  let s' := fst (set_variable W s n v) in
  snd (set_variable W s n v) = Ok tt /\ get_variable s' n = Ok v /\
  (forall m, m <> n -> get_variable s' m = get_variable s m) /\
  v_arrays s' = v_arrays s /\ v_out s' = v_out s /\
  (forall m, dmem (v_in s') m = dmem (v_in s) m) /\ same_matrices s s'.
Proof. exact (set_input W s n v). Qed.
Print Assumptions C36_set_input.
Example C36_set_input_case : dmem (v_in ex_points) "sizes" = true.
Proof. reflexivity. Qed.
(** Setting an output variable updates its array in place; what is seen through
    other variables is unchanged unless they hold that array. *)
Theorem C36_set_output_partial {A M} (W : world A M) s n v i a a' :
  dget (v_in s) n = None -> dget (v_out s) n = Some i ->
  nth_error (v_arrays s) i = Some a -> w_assign W (v_arrays s) a v = Ok a' ->
  let s' := fst (set_variable W s n v) in
  snd (set_variable W s n v) = Ok tt /\
  get_variable s' n = Ok (VRef i) /\ nth_error (v_arrays s') i = Some a' /\
  (forall j, j <> i -> nth_error (v_arrays s') j = nth_error (v_arrays s) j) /\
  (forall m, get_variable s' m = get_variable s m) /\
  (forall m x, get_variable s m = Ok x -> x <> VRef i -> get_variable s' m = Ok x /\ seen s' x = seen s x) /\
  v_in s' = v_in s /\ v_out s' = v_out s /\ same_matrices s s'.
Proof. exact (set_output W s n v i a a'). Qed.
Print Assumptions C36_set_output_partial.
Example C36_set_output_case : dget (v_in ex_points) "screen[positions]" = None /\
  dget (v_out ex_points) "screen[positions]" = Some 1%nat /\ nth_error (v_arrays ex_points) 1 = Some 100%Z /\
  w_assign ex_world (v_arrays ex_points) 100%Z (VAtom 7) = Ok 7%Z.
Proof. repeat split. Qed.
(** An input that holds the array of an output changes with it. *)
Theorem C36_alias_refuted : exists (s : visual Z Z) n m v x,
  n <> m /\ get_variable s m = Ok x /\ snd (set_variable ex_world s n v) = Ok tt /\
  get_variable (fst (set_variable ex_world s n v)) m = Ok x /\
  seen (fst (set_variable ex_world s n v)) x <> seen s x.
Proof. exact alias_witness. Qed.
Print Assumptions C36_alias_refuted.
(** When the array refuses the value, or the name is unknown, nothing changes. *)
Theorem C36_refused {A M} (W : world A M) s n v i a e :
  dget (v_in s) n = None -> dget (v_out s) n = Some i ->
  nth_error (v_arrays s) i = Some a -> w_assign W (v_arrays s) a v = Err e ->
  set_variable W s n v = (s, Err e).
Proof. exact (set_output_fails W s n v i a e). Qed.
Print Assumptions C36_refused.
Example C36_refused_case : set_variable ex_world ex_points "screen[positions]" VNone = (ex_points, Err ValueError).
Proof. reflexivity. Qed.
Theorem C36_unknown {A M} (W : world A M) s n v f h : dget (v_in s) n = None -> dget (v_out s) n = None ->
  set_variable W s n v = (s, Err IndexError) /\ get_variable s n = Err IndexError /\
  eval_variable W f h s n = Err IndexError.
Proof. exact (unknown W s n v f h). Qed.
Print Assumptions C36_unknown.
Example C36_unknown_case : dget (v_in ex_points) "colors" = None /\ dget (v_out ex_points) "colors" = None.
Proof. now split. Qed.
(** After any history an input holds the last value it was given, and the known
    names are the same. *)
Theorem C36_history {A M} (W : world A M) n h s d : get_variable s n = Ok d -> dmem (v_in s) n = true ->
  get_variable (assignments W s h) n = Ok (latest n d h).
Proof. exact (history_input W n h s d). Qed.
Print Assumptions C36_history.
Theorem C36_names {A M} (W : world A M) h s :
  v_out (assignments W s h) = v_out s /\ (forall m, dmem (v_in (assignments W s h)) m = dmem (v_in s) m).
Proof. exact (history_names W h s). Qed.
Print Assumptions C36_names.
Example C36_history_case : latest "sizes" VNone [("sizes", VAtom 1); ("colors", VAtom 2); ("sizes", VAtom 3); ("x", VNone)] = VAtom 3.
Proof. reflexivity. Qed.

(** C37: Out(n) is the output n or, when there is none, the input n. *)
Theorem C37_output_first {A M} (W : world A M) f h s m i nd n :
  dget (v_in s) m = Some (VTrans i) -> nth_error h i = Some nd -> n_kind nd = KOut n -> has_dot n = false ->
  eval_variable W (S f) h s m =
    match dget (v_out s) n with
    | Some j => Ok (w_at1 W (v_arrays s) (VRef j))
    | None => match dget (v_in s) n with Some v => Ok (w_at1 W (v_arrays s) v) | None => Err ValueError end
    end.
Proof. exact (shadow W f h s m i nd n). Qed.
Print Assumptions C37_output_first.
Example C37_output_first_case : dget (v_in ex_points) "sizes" = Some (VTrans 0) /\
  nth_error ex_heap 0 = Some (mkNode (KOut "line_widths") ON ON ON None None) /\ has_dot "line_widths" = false.
Proof. repeat split. Qed.
(** Out("n.k") picks the components that the letters of k name. *)
Theorem C37_components {A M} (W : world A M) f h s m i nd n k v l :
  dget (v_in s) m = Some (VTrans i) -> nth_error h i = Some nd ->
  n_kind nd = KOut (n ++ String "."%char k) -> ~ In "."%char (letters n) -> read s n = Some v ->
  picks "xyzw" k l \/ picks "rgba" k l ->
  eval_variable W (S f) h s m = let* r := w_pick W (v_arrays s) v l in Ok (w_at1 W (v_arrays s) r).
Proof. exact (component_read W f h s m i nd n k v l). Qed.
Print Assumptions C37_components.
Example C37_components_case : picks "xyzw" "zx" [2%nat; 0%nat] /\ picks "rgba" "aab" [3%nat; 3%nat; 2%nat].
Proof. split; repeat constructor. Qed.
(** A variable holding any transform is the value of its tree, read from the
    visual. *)
Theorem C37_value {A M} (W : world A M) f h s m i t :
  dget (v_in s) m = Some (VTrans i) -> stands anywhere h t i -> depth t <= f ->
  eval_variable W f h s m =
    let* r := TransformSpec.value (interp_of W s) t in Ok (w_at1 W (v_arrays s) r).
Proof. exact (eval_tree W f h s m i t). Qed.
Print Assumptions C37_value.
(** Only the names the transform reads matter. *)
Theorem C37_frame {A M} (W : world A M) f h s m i t n v :
  dget (v_in s) m = Some (VTrans i) -> stands anywhere h t i -> depth t <= f ->
  dmem (v_in s) n = true -> m <> n -> ~ In n (names_read t) ->
  eval_variable W f h (fst (set_variable W s n v)) m = eval_variable W f h s m.
Proof. exact (eval_frame W f h s m i t n v). Qed.
Print Assumptions C37_frame.
Example C37_frame_case : stands anywhere ex_heap (Node (KOut "line_widths") BN BN BN None) 0 /\
  dmem (v_in ex_points) "fill_colors" = true /\ ~ In "fill_colors" (names_read (Node (KOut "line_widths") BN BN BN None)).
Proof. split; [|split; [reflexivity|cbn; intuition discriminate]]. cbn. split; [exact Logic.I|]. eexists. repeat split. Qed.
(** Setting an input whose name is also an output never affects a transform. *)
Theorem C37_shared_input_ignored {A M} (W : world A M) f h s m i t n v j :
  dget (v_in s) m = Some (VTrans i) -> stands anywhere h t i -> depth t <= f ->
  dmem (v_in s) n = true -> dget (v_out s) n = Some j -> m <> n ->
  eval_variable W f h (fst (set_variable W s n v)) m = eval_variable W f h s m.
Proof. exact (eval_shared W f h s m i t n v j). Qed.
Print Assumptions C37_shared_input_ignored.
(** Those outputs are never written: on any visual, after any history, they are
    the uninitialised arrays of the constructor. *)
Theorem C37_shared_output_frozen {A M} (W : world A M) eye k args (arrays fresh : list A) n h :
  S (length args) = length (inputs k) -> length fresh = length (outputs k) -> In n (inputs k) /\ In n (outputs k) ->
  let s := build (M := M) eye k args arrays fresh in
  exists i a, nth_error fresh i = Some a /\
    dget (v_out (assignments W s h)) n = Some (length arrays + i)%nat /\
    nth_error (v_arrays (assignments W s h)) (length arrays + i) = Some a.
Proof. exact (shared_frozen W eye k args arrays fresh n h). Qed.
Print Assumptions C37_shared_output_frozen.
Example C37_shared_case : (In "sizes" (inputs Points) /\ In "sizes" (outputs Points)) /\
  (In "line_caps" (inputs Segments) /\ In "line_caps" (outputs Segments)) /\
  (In "line_widths" (inputs Polygons) /\ In "line_widths" (outputs Polygons)).
Proof. cbn. intuition. Qed.
(** So Out("line_widths") is neither the widths that were set nor any widths that
    can be set. *)
Theorem C37_current_output_refuted : exists (s : visual Z Z) h m n v,
  get_variable s n = Ok (VAtom 5) /\
  get_variable (fst (set_variable ex_world s n v)) n = Ok v /\ v <> VAtom 5 /\
  n_kind (nth 0%nat h (mkNode (KMap 0) ON ON ON None None)) = KOut n /\ get_variable s m = Ok (VTrans 0) /\
  exists i, eval_variable ex_world 1 h s m = Ok (VRef i) /\ nth_error (v_arrays s) i = Some 104%Z /\
    eval_variable ex_world 1 h (fst (set_variable ex_world s n v)) m = Ok (VRef i) /\
    nth_error (v_arrays (fst (set_variable ex_world s n v))) i = Some 104%Z.
Proof. exact shared_witness. Qed.
Print Assumptions C37_current_output_refuted.
(** An input that is itself a transform is read as a transform, not as its
    value. *)
Theorem C37_nested_refuted : exists (s : visual Z Z) h m n,
  n_kind (nth 1%nat h (mkNode (KMap 0) ON ON ON None None)) = KOut n /\ get_variable s m = Ok (VTrans 1) /\
  eval_variable ex_world 2 h s n = Ok (VRef 0) /\ eval_variable ex_world 2 h s m = Ok (VTrans 0).
Proof. exact nested_witness. Qed.
Print Assumptions C37_nested_refuted.

(** C56: a visual is rendered with the last matrices it was given, so rendering
    again without matrices (on resize) uses the same transform. *)
Theorem C56_last_matrices {A M} (W : world A M) h s : let s' := renders W s h in
  v_model s' = last_given (v_model s) (map (fun c => fst (snd c)) h) /\
  v_view s' = last_given (v_view s) (map (fun c => fst (snd (snd c))) h) /\
  v_proj s' = last_given (v_proj s) (map (fun c => snd (snd (snd c))) h).
Proof. exact (renders_matrices W h s). Qed.
Print Assumptions C56_last_matrices.
Theorem C56_transform {A M} (W : world A M) h c s : let s' := renders W s (h ++ [c]) in
  v_transform s' = match (let* pv := w_mul W (v_proj s') (v_view s') in w_mul W pv (v_model s')) with
                   | Ok x => Some x | Err _ => None end.
Proof. exact (renders_transform W h c s). Qed.
Print Assumptions C56_transform.
Theorem C56_resize {A M} (W : world A M) s vp vp' m v p : let s1 := fst (render W s vp m v p) in
  let s2 := fst (render W s1 vp' None None None) in same_matrices s1 s2.
Proof. exact (rerender W s vp vp' m v p). Qed.
Print Assumptions C56_resize.
Theorem C56_viewport {A M} (W : world A M) s vp m v p : dmem (v_in s) "viewport" = true ->
  snd (render W s vp m v p) = Ok tt /\
  get_variable (fst (render W s vp m v p)) "viewport" = Ok vp /\
  forall n, n <> "viewport" -> get_variable (fst (render W s vp m v p)) n = get_variable s n.
Proof. exact (render_viewport W s vp m v p). Qed.
Print Assumptions C56_viewport.
Example C56_case : let h := [(VOther 1, (Some 2, (Some 3, Some 5))); (VOther 2, (None, (Some 7, None))); (VOther 1, (None, (None, None)))]%Z in
  v_transform (renders ex_world ex_points h) = Some 70%Z /\ get_variable (renders ex_world ex_points h) "viewport" = Ok (VOther 1).
Proof. now split. Qed.
(** "Render without matrices only declares the viewport" does not hold: the
    transform is there from the start. *)
Theorem C56_declaration_refuted {A M} (W : world A M) s vp t : v_transform s <> None ->
  w_mul W (v_proj s) (v_view s) = Ok t -> (exists u, w_mul W t (v_model s) = Ok u) ->
  v_transform (fst (render W s vp None None None)) <> None.
Proof. exact (declared W s vp t). Qed.
Print Assumptions C56_declaration_refuted.
Example C56_declaration_case : v_transform ex_points <> None /\ w_mul ex_world (v_proj ex_points) (v_view ex_points) = Ok 1%Z /\
  w_mul ex_world 1%Z (v_model ex_points) = Ok 1%Z.
Proof. repeat split. discriminate. Qed.
