(** Variables of visuals.  Models gsp/visual/visual.py and the variable tables of
    gsp/visual/points.py, markers.py, pixels.py, segments.py, paths.py and
    polygons.py; and gsp/transform/out.py:46-74.

    Simplifications: arrays are objects in a heap, named by their position; what
    numpy computes (assignment with broadcasting, picking components, arithmetic,
    atleast_1d) and what one stage of a transform computes are given by a world; a
    stage sees the variables it looks up by name (measure.py:56-75 and 111-116,
    accessor.py:53) and no others.  The type check and recording of render are
    modelled in Command.v. *)
From Verif Require Import Base Transform.
From Verif Require Dtype.
Local Open Scope string_scope.

(** Values of variables: a Transform (an object of the heap of transforms), an
    array or Buffer, a List or list, a float, int or str, None, anything else (a
    tuple, a Viewport). visual.py:76-87. *)
Inductive value := VTrans (i : nat) | VRef (i : nat) | VList (z : Z) | VAtom (z : Z) | VNone | VOther (z : Z).

Section Model.
Context {A M : Type}.

(** Names looked up by measures and accessors. gsp/transform/measure.py:57-75 and 112-116. *)
Definition context_names : list string := ["dpi"; "viewport"; "canvas"; "size"; "index"].
(** What numpy and the transforms do: visual.py:45, 77-87 and 118-121, out.py:46-74. *)
Record world := mkW {
  w_assign : list A -> A -> value -> res A;             (* array[...] = value *)
  w_at1 : list A -> value -> value;                     (* np.atleast_1d *)
  w_pick : list A -> value -> list nat -> res value;    (* array[..., index] *)
  w_ready : list (option value) -> kind -> res unit;
  w_app : list (option value) -> list A -> kind -> value -> res value;
  w_one : value;
  w_arith : list A -> opr -> value -> value -> res value;
  w_bindable : value -> bool;
  w_mul : M -> M -> res M }.                            (* matrix product *)

(** _in_variables, _out_variables, the arrays, _model, _view, _proj, _transform:
    visual.py:22-28. *)
Record visual := mkV { v_in : dict string value; v_out : dict string nat; v_arrays : list A;
                       v_model : M; v_view : M; v_proj : M; v_transform : option M }.
(** self._in_variables[name] = value, visual.py:43. *)
Definition with_in s d := mkV d (v_out s) (v_arrays s) (v_model s) (v_view s) (v_proj s) (v_transform s).
(** The arrays once one is assigned, visual.py:45. *)
Definition with_arrays s l := mkV (v_in s) (v_out s) l (v_model s) (v_view s) (v_proj s) (v_transform s).

(** visual.py:42-47.  The first result is the visual, also when an exception is
    raised. *)
Definition set_variable (W : world) (s : visual) (name : string) (v : value) : visual * res unit :=
  if dmem (v_in s) name then (with_in s (dset (v_in s) name v), Ok tt)
  else match dget (v_out s) name with
       | Some i =>
           match nth_error (v_arrays s) i with
           | Some a => match w_assign W (v_arrays s) a v with
                       | Ok a' => (with_arrays s (upd (v_arrays s) i a'), Ok tt)
                       | Err e => (s, Err e)
                       end
           | None => (s, Err KeyError)
           end
       | None => (s, Err IndexError)
       end.
(** visual.py:59-63. *)
Definition get_variable (s : visual) (name : string) : res value :=
  match dget (v_in s) name with
  | Some v => Ok v
  | None => match dget (v_out s) name with Some i => Ok (VRef i) | None => Err IndexError end
  end.

(** [self._in_variables | self._out_variables], visual.py:77: the right operand
    wins. *)
Definition variables (s : visual) (name : string) : option value :=
  match dget (v_out s) name with Some i => Some (VRef i) | None => dget (v_in s) name end.

(** out.py:56-65.  [None]: no swizzle contains the key, so that [index] is
    unbound. *)
Fixpoint chars (s : string) : list ascii := match s with EmptyString => [] | String a r => a :: chars r end.
(** swizzle.index(c), out.py:61. *)
Fixpoint position (a : ascii) (l : list ascii) : option nat :=
  match l with
  | [] => None
  | b :: r => if Ascii.eqb a b then Some 0%nat else option_map S (position a r)
  end.
(** The list of out.py:61, when every letter is in the swizzle. *)
Fixpoint positions (key swizzle : list ascii) : option (list nat) :=
  match key with
  | [] => Some []
  | a :: r => match position a swizzle, positions r swizzle with Some i, Some l => Some (i :: l) | _, _ => None end
  end.
(** The separator of out.py:56-58. *)
Definition dot : ascii := "."%char.
(** out.py:56. *)
Definition has_dot (s : string) : bool := existsb (Ascii.eqb dot) (chars s).
(** out.py:59-62. *)
Definition out_index (key : string) : option (list nat) :=
  match positions (chars key) (chars "xyzw") with
  | Some l => Some l
  | None => positions (chars key) (chars "rgba")
  end.
(** out.py:46-74. *)
Definition out_value (W : world) (s : visual) (n : string) : res value :=
  if has_dot n then
    let parts := Dtype.split dot n in
    match variables s (hd "" parts) with
    | Some v => match out_index (last parts "") with
                | Some l => w_pick W (v_arrays s) v l
                | None => Err UnboundLocalError
                end
    | None => Err ValueError
    end
  else match variables s n with Some v => Ok v | None => Err ValueError end.

(** The variables a transform is evaluated with, visual.py:77. *)
Definition context (s : visual) : list (option value) := map (variables s) context_names.
(** What transforms evaluated against the variables of [s] compute. visual.py:77. *)
Definition interp_of (W : world) (s : visual) : interp value :=
  mkI (w_ready W (context s)) (w_app W (context s) (v_arrays s)) (w_one W) (out_value W s)
      (w_arith W (v_arrays s)) (w_bindable W).

(** visual.py:75-87; [h] is the heap of transforms. *)
Definition eval_variable (W : world) (fuel : nat) (h : heap value) (s : visual) (name : string) : res value :=
  let* v := get_variable s name in
  match v with
  | VTrans i => let* r := evaluate (interp_of W s) fuel h i in Ok (w_at1 W (v_arrays s) r)
  | VRef i => Ok (w_at1 W (v_arrays s) v)
  | VList _ | VAtom _ | VNone => Ok v
  | VOther _ => Ok (w_at1 W (v_arrays s) v)
  end.

(** visual.py:111-116. *)
Definition given (o : option M) (d : M) : M := match o with Some m => m | None => d end.
(** visual.py:111-123. *)
Definition render (W : world) (s : visual) (viewport : value) (model view proj : option M) : visual * res unit :=
  let m := given model (v_model s) in
  let v := given view (v_view s) in
  let p := given proj (v_proj s) in
  let t := match (let* pv := w_mul W p v in w_mul W pv m) with Ok x => Some x | Err _ => None end in
  set_variable W (mkV (v_in s) (v_out s) (v_arrays s) m v p t) "viewport" viewport.
End Model.
Arguments world A M : clear implicits.
Arguments visual A M : clear implicits.

(** The tables of the visuals: input and output variables.
    points.py:73-92, markers.py:86-111, pixels.py:60-72, segments.py:69-90,
    paths.py:141-171, polygons.py:136-167. *)
Inductive vkind := Points | Markers | Pixels | Segments | Paths | Polygons.
(** points.py:73-92, markers.py:86-111, pixels.py:60-72, segments.py:69-90, paths.py:141-171, polygons.py:136-167. *)
Definition inputs (k : vkind) : list string :=
  match k with
  | Points => ["positions"; "sizes"; "fill_colors"; "line_colors"; "line_widths"; "viewport"]
  | Markers => ["positions"; "types"; "sizes"; "axis"; "angles"; "fill_colors"; "line_colors"; "line_widths"; "viewport"]
  | Pixels => ["positions"; "colors"; "viewport"]
  | Segments => ["positions"; "line_caps"; "line_colors"; "line_widths"; "viewport"]
  | Paths => ["positions"; "indices"; "line_colors"; "line_widths"; "line_styles"; "line_joins"; "line_caps"; "viewport"]
  | Polygons => ["positions"; "indices"; "fill_colors"; "line_colors"; "line_widths"; "line_styles"; "line_joins"; "viewport"]
  end.
(** The output variables, at the same lines: points.py:73-92, markers.py:86-111, pixels.py:60-72, segments.py:69-90, paths.py:141-171, polygons.py:136-167. *)
Definition outputs (k : vkind) : list string :=
  match k with
  | Points => ["screen[positions]"; "sizes"; "fill_colors"; "line_colors"; "line_widths"]
  | Markers => ["screen[positions]"; "types"; "sizes"; "axis"; "angles"; "fill_colors"; "line_colors"; "line_widths"]
  | Pixels => ["screen[positions]"]
  | Segments => ["screen[positions]"; "screen[segments]"; "line_caps"; "line_colors"; "line_widths"]
  | Paths => ["screen[positions]"; "screen[paths]"; "line_caps"; "line_colors"; "line_widths"]
  | Polygons => ["screen[positions]"; "screen[polygons]"; "line_caps"; "fill_colors"; "line_colors"; "line_widths"]
  end.
(** The visual built from the arguments [args] (the viewport is None); the arrays
    of the outputs ([fresh], np.empty) are added to the heap of arrays.
    Visual.__init__ with these tables, visual.py:17-28. *)
Definition build {A M} (eye : M) (k : vkind) (args : list value) (arrays fresh : list A) : visual A M :=
  mkV (combine (inputs k) (args ++ [VNone])%list)
      (combine (outputs k) (seq (length arrays) (length (outputs k))))
      (arrays ++ fresh)%list eye eye eye (Some eye).
