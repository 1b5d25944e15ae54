(** What the matrices of glm are meant to do, in terms of points. *)
From Verif Require Import Base Glm.
From Coq Require Import Reals Lra.
Local Open Scope R_scope.

(** A matrix applied to a column of four numbers. *)
Definition dot4 (u v : vec4) : R := x4 u * x4 v + y4 u * y4 v + z4 u * z4 v + w4 u * w4 v.
Definition apply4 (m : mat) (v : vec4) : vec4 :=
  V4 (dot4 (row0 m) v) (dot4 (row1 m) v) (dot4 (row2 m) v) (dot4 (row3 m) v).

(** A point as a homogeneous column, and a direction. *)
Definition point (p : vec3) : vec4 := V4 (x3 p) (y3 p) (z3 p) 1.
Definition direction (p : vec3) : vec4 := V4 (x3 p) (y3 p) (z3 p) 0.

(** The matrix sends point [p] to point [q] without, and with, perspective
    division. *)
Definition sends (m : mat) (p q : vec3) : Prop := apply4 m (point p) = point q.
Definition projects (m : mat) (p q : vec3) : Prop :=
  exists w, w <> 0 /\ apply4 m (point p) = V4 (w * x3 q) (w * y3 q) (w * z3 q) w.

Definition identity : mat := Mat (V4 1 0 0 0) (V4 0 1 0 0) (V4 0 0 1 0) (V4 0 0 0 1).
Definition composed (A B C : mat) : Prop := forall v, apply4 C v = apply4 A (apply4 B v).
Definition undoes (A B : mat) : Prop := forall v, apply4 A (apply4 B v) = v.

(** The 3x3 block, and a homogeneous matrix that has only that block. *)
Definition only_block (m : mat) : Prop :=
  w4 (row0 m) = 0 /\ w4 (row1 m) = 0 /\ w4 (row2 m) = 0 /\ row3 m = V4 0 0 0 1.
Definition det3 (m : mat) : R :=
  x4 (row0 m) * (y4 (row1 m) * z4 (row2 m) - z4 (row1 m) * y4 (row2 m))
  - y4 (row0 m) * (x4 (row1 m) * z4 (row2 m) - z4 (row1 m) * x4 (row2 m))
  + z4 (row0 m) * (x4 (row1 m) * y4 (row2 m) - y4 (row1 m) * x4 (row2 m)).

(** A rotation about the origin: rows of length one at right angles, positive
    orientation, nothing but the block. *)
Definition rotation (m : mat) : Prop :=
  only_block m /\
  dot4 (row0 m) (row0 m) = 1 /\ dot4 (row1 m) (row1 m) = 1 /\ dot4 (row2 m) (row2 m) = 1 /\
  dot4 (row0 m) (row1 m) = 0 /\ dot4 (row0 m) (row2 m) = 0 /\ dot4 (row1 m) (row2 m) = 0 /\
  det3 m = 1.

(** The turn by [t] radians about the axis [u] of length one, anticlockwise
    seen from the tip of [u] (Rodrigues' formula): the image of [p] is
    [cos t p + sin t (u x p) + (1 - cos t) (u.p) u]. *)
Definition turned (t : R) (u p : vec3) : vec3 :=
  V3 (cos t * x3 p + sin t * (y3 u * z3 p - z3 u * y3 p) + (1 - cos t) * (dot u p) * x3 u)
     (cos t * y3 p + sin t * (z3 u * x3 p - x3 u * z3 p) + (1 - cos t) * (dot u p) * y3 u)
     (cos t * z3 p + sin t * (x3 u * y3 p - y3 u * x3 p) + (1 - cos t) * (dot u p) * z3 u).
Definition turns (m : mat) (t : R) (u : vec3) : Prop := forall p, sends m p (turned t u p).

(** Two matrices agree within [e] in every entry. *)
Definition near4 (e : R) (u v : vec4) : Prop :=
  Rabs (x4 u - x4 v) <= e /\ Rabs (y4 u - y4 v) <= e /\ Rabs (z4 u - z4 v) <= e /\ Rabs (w4 u - w4 v) <= e.
Definition near (e : R) (A B : mat) : Prop :=
  near4 e (row0 A) (row0 B) /\ near4 e (row1 A) (row1 B) /\ near4 e (row2 A) (row2 B) /\ near4 e (row3 A) (row3 B).

(** The vector of length one along [v]. *)
Definition unit (v : vec3) : vec3 := V3 (x3 v / norm v) (y3 v / norm v) (z3 v / norm v).
Definition zero3 : vec3 := V3 0 0 0.

(** [side a b s]: the coordinate of a corner, low or high. *)
Definition pick (a b : R) (s : bool) : R := if s then b else a.
Definition corner (s1 s2 s3 : bool) : vec3 := V3 (pick (-1) 1 s1) (pick (-1) 1 s2) (pick (-1) 1 s3).
Definition in_cube (p : vec3) : Prop :=
  -1 <= x3 p <= 1 /\ -1 <= y3 p <= 1 /\ -1 <= z3 p <= 1.

(** Twice the signed area of a triangle: positive when the corners are in
    anticlockwise order. *)
Definition area2 (t : face) : R :=
  (bx t - ax t) * (cy t - ay t) - (cx t - ax t) * (by_ t - ay t).
Definition reversed (t : face) : face := Tri (ax t) (ay t) (cx t) (cy t) (bx t) (by_ t).
Definition cycled (t : face) : face := Tri (bx t) (by_ t) (cx t) (cy t) (ax t) (ay t).
Definition count (l : list bool) : nat := length (filter (fun b => b) l).

(** A volume whose bounds are distinct. *)
Definition volume (l r b t n f : R) : Prop := l <> r /\ b <> t /\ n <> f.

(** The corners of the viewing volume: those of the far plane are the near ones
    seen from the origin. *)
Definition frustum_corner (l r b t n f : R) (s1 s2 s3 : bool) : vec3 :=
  V3 (pick l r s1 * pick 1 (f / n) s3) (pick b t s2 * pick 1 (f / n) s3) (pick (- n) (- f) s3).

(** [B] is the transpose of [A]. *)
Definition transposed (A B : mat) : Prop := forall u v, dot4 (apply4 A u) v = dot4 u (apply4 B v).

(** A right-handed frame of three directions of length one. *)
Definition frame (e0 e1 e2 : vec3) : Prop :=
  dot e0 e0 = 1 /\ dot e1 e1 = 1 /\ dot e2 e2 = 1 /\
  dot e0 e1 = 0 /\ dot e0 e2 = 0 /\ dot e1 e2 = 0 /\ cross e0 e1 = e2.
