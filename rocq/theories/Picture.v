(** Where a vertex appears on the canvas.  Models what gsp_matplotlib/visual/points.py
    and pixels.py hand to matplotlib for positions, matrices and attributes, and where a
    viewport's axes (gsp_matplotlib/core/viewport.py) put it; and the matrices of
    examples/common/camera.py.

    Simplifications: real numbers without rounding; matplotlib draws an item of a
    collection with its centre where the linear axes say, and no item with an undefined
    position; np.argsort is a parameter. *)
From Coq Require Import Reals.
From Verif Require Import Base Slice Measure Viewport Glm Vec Render Trackball.
Local Open Scope R_scope.

(** A number of the viewport, as a real number. gsp_matplotlib/core/viewport.py:113-128. *)
Definition inR (x : Qc) : R := Q2R (this x).
(** One direction of matplotlib's Axes.transData: the limits are the ends of the box.
    gsp_matplotlib/core/viewport.py:113, 127-128. *)
Definition along (start size : R) (l : Qc * Qc) (x : R) : R :=
  start + size * ((x - inR (fst l)) / (inR (snd l) - inR (fst l))).
(** The pixel, from the bottom left of the canvas, of an offset in the axes.
    gsp_matplotlib/core/viewport.py:113, 127-128; points.py:71. *)
Definition on_canvas (v : Viewport.viewport) (x y : num) : option (R * R) :=
  let '(l, b, w, h) := p_pos v in
  let '(cw, ch) := Viewport.size (p_fig v) in
  match x, y with
  | Num x, Num y => Some (along (inR (l * cw)) (inR (w * cw)) (p_xlim v) x, along (inR (b * ch)) (inR (h * ch)) (p_ylim v) y)
  | _, _ => None
  end.
(** gsp/visual/visual.py:119. *)
Definition transform_of (model view proj : mat) : mat := matmul (matmul proj view) model.
(** [1 - positions[:,2]], points.py:69. *)
Definition flipped (z : num) : num := match z with Num r => Num (1 - r) | NonFinite => NonFinite end.
(** The rows that [positions[:,2]] reads, points.py:69. *)
Definition rows_of (A : arr) : res (list (list num)) :=
  match a_data A with Vec.Rows _ l => Ok l | _ => Err IndexError end.

Section Draw.
Variable argsort : list num -> list nat.
(** points.py:62-97 with visual.py:119: the items drawn, in order, with their
    attributes. *)
Definition points (v : Viewport.viewport) (V : arr) (model view proj : mat) (face edge width size : attr) :
    res (list (option (R * R) * list (option (list Z)))) :=
  let* A := placed_points V (transform_of model view proj) in
  let* l := rows_of A in
  let n := length l in
  let idx := argsort (map (fun r => flipped (col r 2)) l) in
  let* sz := attach_size n idx size in
  Ok (collection (pick (map (fun r => on_canvas v (col r 0) (col r 1)) l) idx)
                 [attach n idx face; attach n idx edge; attach n idx width; sz]).
(** pixels.py:68-82 with visual.py:119. *)
Definition pixels (v : Viewport.viewport) (V : arr) (model view proj : mat) (color : attr) :
    res (list (option (R * R) * list (option (list Z)))) :=
  let* A := placed V (transform_of model view proj) in
  let* l := rows_of A in
  let n := length l in
  let idx := argsort (map (fun r => col r 2) l) in
  Ok (collection (pick (map (fun r => on_canvas v (col r 0) (col r 1)) l) idx) [attach n idx color]).
End Draw.

(** The matrices of a camera that is not "ortho": model, view and projection.
    examples/common/camera.py:48-51, 65-69, 207-208. *)
Definition camera_mats (b : trackball) (zdist s : R) : res (mat * mat * mat) :=
  let* proj := perspective 35 1 1 100 false in
  Ok (transpose (t_model b), matmul (translate (V3 0 0 (- zdist)) false) (scale (V3 s s s) false), proj).
(** Those of an "ortho" one, examples/common/camera.py:59-63. *)
Definition flat_mats : res (mat * mat * mat) :=
  let eye := Mat (V4 1 0 0 0) (V4 0 1 0 0) (V4 0 0 1 0) (V4 0 0 0 1) in
  let* proj := ortho (-1) 1 (-1) 1 1 100 false in
  Ok (eye, eye, proj).
