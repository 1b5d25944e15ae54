(** The size of a canvas and the place of viewports given in pixels, in floating point:
    gsp_matplotlib/core/canvas.py:27-45 and gsp_matplotlib/core/viewport.py:24-114.

    Viewport.v is the same code over the rational numbers.  Simplifications: one direction, the other
    being alike; coordinates given as transforms are left out; no number is too large. *)
From Coq Require Import Reals ZArith.
From Verif Require Import Base Glm Drift.
Local Open Scope R_scope.

(** Canvas.size, gsp_matplotlib/core/canvas.py:33-34 and 40-45: inches are kept, pixels computed. *)
Definition canvas_size (width dpi : R) : res R :=
  let* inches := fdiv width dpi in
  Ok (fmul inches dpi).
(** A coordinate, gsp_matplotlib/core/viewport.py:72-80: a float is taken as it is, an int is divided
    by the size of the canvas. *)
Inductive extent := Fraction (x : R) | Pixels (n : Z).
(** gsp_matplotlib/core/viewport.py:72-110. *)
Definition placed_at (width dpi : R) (c : extent) : res R :=
  let* size := canvas_size width dpi in
  match c with Fraction x => Ok x | Pixels n => fdiv (IZR n) size end.
(** [width or canvas._width], gsp_matplotlib/core/viewport.py:25: an extent of zero is that of the
    canvas, here a whole number of pixels. *)
Definition or_canvas (width : Z) (w : extent) : extent :=
  match w with
  | Pixels n => if Z.eqb n 0 then Pixels width else Pixels n
  | Fraction x => if Req_EM_T x 0 then Pixels width else Fraction x
  end.
(** set_position([x, y, width, height]), gsp_matplotlib/core/viewport.py:53-114, when the canvas made
    [made] pixels wide has been resized to [now] pixels (viewport.py:44-46; the window sets the inches
    to pixels over dpi): matplotlib keeps the two edges, the second being the sum. *)
Definition resized (made : Z) (now dpi : R) (x w : extent) : res (R * R) :=
  let* x := placed_at now dpi x in
  let* w := placed_at now dpi (or_canvas made w) in
  Ok (x, fadd x w).
(** The viewport as it was made, gsp_matplotlib/core/viewport.py:24-31. *)
Definition edges (width : Z) (dpi : R) (x w : extent) : res (R * R) := resized width (IZR width) dpi x w.
