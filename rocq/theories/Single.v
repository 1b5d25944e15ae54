(** Where the vertices of a visual go, in floating point: gsp/visual/visual.py:119 and
    gsp_matplotlib/visual/points.py:65, with the float32 matrices of gsp_matplotlib/glm/glm.py.

    Picture.v is the same code over the real numbers.  The order in which numpy adds the four
    products of [@], and whether it rounds a product before adding it, depend on the machine and on
    the library numpy was built with: all of them are allowed here.  Simplifications: no number
    is too large (Overflow.v shows that), and the axes of matplotlib (gsp_matplotlib/core/viewport.py:113) are those of Picture.v. *)
From Coq Require Import Reals List Permutation.
From Verif Require Import Base Glm GlmSpec Drift.
Import ListNotations.
Local Open Scope R_scope.

(** What an operation gives whose exact value is [x]: the nearest float32, or the nearest float64
    when the positions handed to the visual are of that type.  points.py:65. *)
Definition result (x y : R) : Prop := y = rnd32 x \/ y = rnd x.

(** The factors that an item of [A @ B] adds the products of, visual.py:119. *)
Definition terms (a b : vec4) : list (R * R) := [(x4 a, x4 b); (y4 a, y4 b); (z4 a, z4 b); (w4 a, w4 b)].
(** Sums of products as [@] may compute them: products are rounded, or added in one go with one
    rounding; parts are summed apart and then together; all that in any order.  visual.py:119. *)
Inductive summed : list (R * R) -> R -> Prop :=
| sum_one a b r : result (a * b) r -> summed [(a, b)] r
| sum_fused a b l x r : summed l x -> result (x + a * b) r -> summed ((a, b) :: l) r
| sum_parts l m x y r : summed l x -> summed m y -> result (x + y) r -> summed (l ++ m) r
| sum_order l m r : summed l r -> Permutation l m -> summed m r.

(** A row of [A @ B], visual.py:119. *)
Definition row_product (a : vec4) (B : mat) (c : vec4) : Prop :=
  summed (terms a (row0 (transpose B))) (x4 c) /\ summed (terms a (row1 (transpose B))) (y4 c) /\
  summed (terms a (row2 (transpose B))) (z4 c) /\ summed (terms a (row3 (transpose B))) (w4 c).
(** [A @ B], visual.py:119. *)
Definition product (A B C : mat) : Prop :=
  row_product (row0 A) B (row0 C) /\ row_product (row1 A) B (row1 C) /\
  row_product (row2 A) B (row2 C) /\ row_product (row3 A) B (row3 C).
(** [self._proj @ self._view @ self._model], visual.py:119. *)
Definition transform_computed (model view proj T : mat) : Prop :=
  exists PV, product proj view PV /\ product PV model T.
(** A row of [glm.to_vec4(positions) @ self._transform.T], points.py:65. *)
Definition moved (T : mat) (p : vec3) (c : vec4) : Prop :=
  summed (terms (row0 T) (point p)) (x4 c) /\ summed (terms (row1 T) (point p)) (y4 c) /\
  summed (terms (row2 T) (point p)) (z4 c) /\ summed (terms (row3 T) (point p)) (w4 c).
(** A row of [glm.to_vec3(...)], gsp_matplotlib/glm/vec234.py:221-262: the division, by a number
    that is not zero. *)
Definition divided (c : vec4) (q : vec3) : Prop :=
  w4 c <> 0 /\ result (x4 c / w4 c) (x3 q) /\ result (y4 c / w4 c) (y3 q) /\ result (z4 c / w4 c) (z3 q).
(** points.py:65 for one vertex. *)
Definition placed_computed (model view proj : mat) (p q : vec3) : Prop :=
  exists T c, transform_computed model view proj T /\ moved T p c /\ divided c q.
(** [1 - positions[:,2]], points.py:69: what points are sorted by. *)
Definition sort_key (q : vec3) (k : R) : Prop := result (1 - z3 q) k.

(** A number stored in a float32 matrix, glm.py:59-346: the exact one up to two roundings. *)
Definition held (x y : R) : Prop := Rabs (y - x) <= / 2 ^ 23 * Rabs x.
(** A row of it, glm.py:59-346. *)
Definition held4 (a b : vec4) : Prop := held (x4 a) (x4 b) /\ held (y4 a) (y4 b) /\ held (z4 a) (z4 b) /\ held (w4 a) (w4 b).
(** A matrix of glm.py computed in double precision and stored in single precision: [proj] and
    [view] of examples/common/camera.py:67-69. *)
Definition stored (A B : mat) : Prop :=
  held4 (row0 A) (row0 B) /\ held4 (row1 A) (row1 B) /\ held4 (row2 A) (row2 B) /\ held4 (row3 A) (row3 B).
