(** The zoom of the camera and the limits of the axes in floating point: examples/common/camera.py:116-182
    and gsp_matplotlib/core/viewport.py:115-128, with every operation rounded as Python's floats are.

    Viewport.v is the same code over the rational numbers.  Simplifications: the axes keep the upper
    limits only, the lower ones being their opposites; the size of the viewport in pixels is given
    with the event of its resize; a limit of zero, which matplotlib would set apart from its
    opposite, does not occur in the theorems; no number is too large. *)
From Coq Require Import Reals List.
From Verif Require Import Base Glm Drift.
From Verif Require Viewport.
Import ListNotations.
Local Open Scope R_scope.

(** [0.9], [1.1], [0.1] and [5.0] as binary64, camera.py:56-57 and 171-173. *)
Definition inward : R := 8106479329266893 / 9007199254740992.
(** camera.py:173. *)
Definition outward : R := 4953959590107546 / 4503599627370496.
(** camera.py:57. *)
Definition least : R := 3602879701896397 / 36028797018963968.
(** camera.py:56. *)
Definition most : R := 5.
(** Python's [max(a, b)] and [min(a, b)], camera.py:171 and 173. *)
Definition fmax (a b : R) : R := if Rlt_dec a b then b else a.
(** camera.py:173. *)
Definition fmin (a b : R) : R := if Rlt_dec b a then b else a.
(** camera.py:170-173. *)
Definition fzoomed (z : R) (b : Viewport.button) : R :=
  match b with
  | Viewport.Up => fmax (fmul inward z) least
  | Viewport.Down => fmin (fmul outward z) most
  | Viewport.OtherButton => z
  end.

(** The zoom of the camera, that of the axes, the limits of the axes, and whether the camera is
    connected: camera.py:55 and 127-160, gsp_matplotlib/core/viewport.py:30-37. *)
Record zooming := mkZ { z_zoom : R; z_axes : R; z_x : R; z_y : R; z_connected : bool }.
(** A camera and a new viewport, camera.py:55, gsp_matplotlib/core/viewport.py:30 and 36-37. *)
Definition znew (zoom : R) : zooming := mkZ zoom 1 1 1 false.
(** camera.py:154-159 and 175-180: the aspect is read from the limits. *)
Definition show (zoom : R) (c : bool) (s : zooming) : res zooming :=
  let* aspect := fdiv (z_y s) (z_x s) in
  Ok (mkZ zoom zoom zoom (fmul zoom aspect) c).
(** What happens: connect, the wheel turned inside or outside of the axes, the viewport getting a size in
    pixels.  camera.py:116-182, gsp_matplotlib/core/viewport.py:46. *)
Inductive happening := Connected | Wheel (inside : bool) (b : Viewport.button) | Resized (width height : R).
(** camera.py:116-160 and 163-182; gsp_matplotlib/core/viewport.py:117-128, called at gsp_matplotlib/core/viewport.py:46. *)
Definition happen (s : zooming) (e : happening) : res zooming :=
  match e with
  | Connected => show (z_zoom s) true s
  | Wheel inside b =>
      if negb (z_connected s) then Ok s
      else if negb inside then Ok s
      else show (fzoomed (z_zoom s) b) true s
  | Resized width height =>
      if Rlt_dec height width
      then let* x := fdiv (fmul (z_axes s) width) height in Ok (mkZ (z_zoom s) (z_axes s) x (z_axes s) (z_connected s))
      else let* y := fdiv (fmul (z_axes s) height) width in Ok (mkZ (z_zoom s) (z_axes s) (z_axes s) y (z_connected s))
  end.
(** One after the other; camera.py:116-182. *)
Fixpoint happens (s : zooming) (l : list happening) : res zooming :=
  match l with [] => Ok s | e :: l => let* s := happen s e in happens s l end.
