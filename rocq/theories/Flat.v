(** What the camera of the examples computes when its mode is "ortho": examples/common/camera.py:60-64
    with the float32 projection of gsp_matplotlib/glm/glm.py:177-223, and gsp_matplotlib/visual/points.py:65-69.
    Simplifications: those of Single.v and Optics.v. *)
From Coq Require Import Reals.
From Verif Require Import Base Glm GlmSpec Drift Single Optics.
Local Open Scope R_scope.

(** np.eye(4): the view and the model, camera.py:63-64. *)
Definition eye4 : mat := Mat (V4 1 0 0 0) (V4 0 1 0 0) (V4 0 0 1 0) (V4 0 0 0 1).
(** The projection, camera.py:51-52 and 61. *)
Definition flat_proj_computed : res mat := fortho (-1) 1 (-1) 1 1 100 false.
(** Where points.py:65 may place a vertex. *)
Definition flat_placed (p q : vec3) : Prop :=
  exists proj, flat_proj_computed = Ok proj /\ placed_computed eye4 eye4 proj p q.
