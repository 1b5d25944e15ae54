(** The matrices of gsp_matplotlib/glm/glm.py in floating point: numbers are computed as float64
    and the matrices store them as float32, the default dtype.

    Glm.v is the same code over the real numbers.  Simplifications: the arguments are numbers
    that are not rounded further (floats, or integers below 2^53); np.sin, np.cos and np.tan are
    parameters, since they are those of numpy's build; no number is too large; a division by zero
    is an error here, as in Glm.v (it is one with floats of Python, and a warning with those of numpy). *)
From Coq Require Import Reals.
From Verif Require Import Base Glm Trackball Drift Single.
Local Open Scope R_scope.

(** np.radians, glm.py:172, 385: a product with the float64 nearest to pi/180. *)
Definition fradians (t : R) : R := fmul t (rnd (fpi / 180)).

(** glm.py:94-141. *)
Definition ffrustum (left right bottom top znear zfar : R) (t : bool) : res mat :=
  let* m00 := fdiv (fmul 2 znear) (fsub right left) in
  let* m11 := fdiv (fmul 2 znear) (fsub top bottom) in
  let* m22 := fdiv (- fadd zfar znear) (fsub zfar znear) in
  let* m02 := fdiv (fadd right left) (fsub right left) in
  let* m21 := fdiv (fadd top bottom) (fsub top bottom) in
  let* m23 := fdiv (fmul (fmul (- 2) znear) zfar) (fsub zfar znear) in
  Ok (finish t (Mat (V4 (rnd32 m00) 0 (rnd32 m02) 0)
                    (V4 0 (rnd32 m11) 0 0)
                    (V4 0 (rnd32 m21) (rnd32 m22) (rnd32 m23))
                    (V4 0 0 (rnd32 (- 1)) 0))).

(** glm.py:144-174; [tangent] is np.tan. *)
Definition fperspective (tangent : R -> R) (fovy aspect znear zfar : R) (t : bool) : res mat :=
  let h := fmul (tangent (fmul (/ 2) (fradians fovy))) znear in
  let w := fmul h aspect in
  ffrustum (- w) w (- h) h znear zfar t.

(** glm.py:177-223. *)
Definition fortho (left right bottom top znear zfar : R) (t : bool) : res mat :=
  let* m00 := fdiv 2 (fsub right left) in
  let* m11 := fdiv 2 (fsub top bottom) in
  let* m22 := fdiv (- 2) (fsub zfar znear) in
  let* m02 := fdiv (- fadd right left) (fsub right left) in
  let* m13 := fdiv (- fadd top bottom) (fsub top bottom) in
  let* m23 := fdiv (- fadd zfar znear) (fsub zfar znear) in
  Ok (finish t (Mat (V4 (rnd32 m00) 0 (rnd32 m02) 0)
                    (V4 0 (rnd32 m11) 0 (rnd32 m13))
                    (V4 0 0 (rnd32 m22) (rnd32 m23))
                    (V4 0 0 0 (rnd32 1)))).

(** glm.py:267-295. *)
Definition fscale (s : vec3) (t : bool) : mat :=
  finish t (Mat (V4 (rnd32 (x3 s)) 0 0 0) (V4 0 (rnd32 (y3 s)) 0 0) (V4 0 0 (rnd32 (z3 s)) 0) (V4 0 0 0 (rnd32 1))).

(** glm.py:317-346. *)
Definition ftranslate (v : vec3) (t : bool) : mat :=
  finish t (Mat (V4 (rnd32 1) 0 0 (rnd32 (x3 v))) (V4 0 (rnd32 1) 0 (rnd32 (y3 v))) (V4 0 0 (rnd32 1) (rnd32 (z3 v))) (V4 0 0 0 (rnd32 1))).

(** glm.py:366-395; [L] has np.cos and np.sin. *)
Definition fxrotate (L : libm) (theta : R) (t : bool) : mat :=
  let c := rnd32 (m_cos L (fradians theta)) in
  let s := rnd32 (m_sin L (fradians theta)) in
  finish t (Mat (V4 (rnd32 1) 0 0 0) (V4 0 c (- s) 0) (V4 0 s c 0) (V4 0 0 0 (rnd32 1))).
(** glm.py:398-427. *)
Definition fyrotate (L : libm) (theta : R) (t : bool) : mat :=
  let c := rnd32 (m_cos L (fradians theta)) in
  let s := rnd32 (m_sin L (fradians theta)) in
  finish t (Mat (V4 c 0 s 0) (V4 0 (rnd32 1) 0 0) (V4 (- s) 0 c 0) (V4 0 0 0 (rnd32 1))).
(** glm.py:430-459. *)
Definition fzrotate (L : libm) (theta : R) (t : bool) : mat :=
  let c := rnd32 (m_cos L (fradians theta)) in
  let s := rnd32 (m_sin L (fradians theta)) in
  finish t (Mat (V4 c (- s) 0 0) (V4 s c 0 0) (V4 0 0 (rnd32 1) 0) (V4 0 0 0 (rnd32 1))).

(** The projection of the camera of the examples, examples/common/camera.py:49-52 and 67-68. *)
Definition camera_proj_computed (tangent : R -> R) : res mat := fperspective tangent 35 1 1 100 false.
(** Its view, examples/common/camera.py:69: the product is one of numpy. *)
Definition camera_view_computed (zdist s : R) (V : mat) : Prop :=
  product (ftranslate (V3 0 0 (- zdist)) false) (fscale (V3 s s s) false) V.
