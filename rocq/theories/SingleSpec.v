(** Vocabulary for pictures in floating point. *)
From Coq Require Import Reals List.
From Verif Require Import Base Glm GlmSpec Viewport PictureSpec Drift Single.
Import ListNotations.
Local Open Scope R_scope.

(** The exact place of homogeneous coordinates in the view, after perspective division. *)
Definition exact_place (c : vec4) : vec3 := V3 (x4 c / w4 c) (y4 c / w4 c) (z4 c / w4 c).
(** Coordinates that differ by at most [e]. *)
Definition within (e : R) (p q : vec3) : Prop :=
  Rabs (x3 p - x3 q) <= e /\ Rabs (y3 p - y3 q) <= e /\ Rabs (z3 p - z3 q) <= e.
(** A vertex of a scene that fills the cube from -1 to 1 once scaled. *)
Definition in_cube (s : R) (p : vec3) : Prop := Rabs (s * x3 p) <= 1 /\ Rabs (s * y3 p) <= 1 /\ Rabs (s * z3 p) <= 1.
(** The view of the camera: the scene scaled by [s] and five units away. *)
Definition camera_view (s : R) : mat := Mat (V4 s 0 0 0) (V4 0 s 0 0) (V4 0 0 s (-5)) (V4 0 0 0 1).
(** Entries as numpy stores them in single precision. *)
Definition single4 (a : vec4) : vec4 := V4 (rnd32 (x4 a)) (rnd32 (y4 a)) (rnd32 (z4 a)) (rnd32 (w4 a)).
Definition single (A : mat) : mat := Mat (single4 (row0 A)) (single4 (row1 A)) (single4 (row2 A)) (single4 (row3 A)).
(** The exact sum of products, and that of their absolute values. *)
Fixpoint total (l : list (R * R)) : R := match l with [] => 0 | (a, b) :: t => a * b + total t end.
Fixpoint weight (l : list (R * R)) : R := match l with [] => 0 | (a, b) :: t => Rabs (a * b) + weight t end.
(** Everything without its sign. *)
Definition vabs (v : vec4) : vec4 := V4 (Rabs (x4 v)) (Rabs (y4 v)) (Rabs (z4 v)) (Rabs (w4 v)).
Definition mabs (B : mat) : mat := Mat (vabs (row0 B)) (vabs (row1 B)) (vabs (row2 B)) (vabs (row3 B)).
Definition pabs (p : vec3) : vec3 := V3 (Rabs (x3 p)) (Rabs (y3 p)) (Rabs (z3 p)).
(** No entry is larger than [K]. *)
Definition big (K : R) (v : vec4) : Prop := Rabs (x4 v) <= K /\ Rabs (y4 v) <= K /\ Rabs (z4 v) <= K /\ Rabs (w4 v) <= K.
Definition mbig (K : R) (A : mat) : Prop := big K (row0 A) /\ big K (row1 A) /\ big K (row2 A) /\ big K (row3 A).
(** The error allowed for a number whose computation without signs gives [w]. *)
Definition millionth (a b w : R) : Prop := Rabs (a - b) <= / 10 ^ 6 * w + / 10 ^ 12.
