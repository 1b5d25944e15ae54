(** The sizes and widths of points that follow the zoom, in floating point: examples/points-3d.py:29-43.

    Sized.v is the same code over the real numbers.  Simplifications: no number is too large;
    [**] is the function pow of the C library, a parameter. *)
From Coq Require Import Reals List.
From Verif Require Import Base Glm Drift.
Import ListNotations.
Local Open Scope R_scope.

(** [1/(camera.zoom**2) * _sizes] stored in the float32 array [sizes], and
    [1/(camera.zoom) * _linewidths] in every item of [linewidths]: examples/points-3d.py:41-42.
    [square] is what [**2] gives. *)
Definition ftables (square : R -> R) (zoom : R) (base : list R) (line : R) : res (list R * list R) :=
  let* i := fdiv 1 (square zoom) in
  let* j := fdiv 1 zoom in
  Ok (map (fun b => rnd32 (fmul i b)) base, repeat (rnd32 (fmul j line)) (length base)).
