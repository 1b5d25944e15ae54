(** What dragging should do. *)
From Coq Require Import Reals.
From Verif Require Import Base Measure Glm GlmSpec Trackball Camera Picture.
Local Open Scope R_scope.

(** The ball a user turns has radius 0.8 (as a float); what of it is seen at a place. *)
Definition front (x y : R) : vec3 := V3 x y (sqrt (ball_size * ball_size - (x * x + y * y))).
(** Places well within its rim. *)
Definition central (x y : R) : Prop := sqrt (x * x + y * y) < ball_size * half_sqrt2.
(** A path of drags gone back. *)
Definition retraced (l : list (R * R * R * R)) : list (R * R * R * R) :=
  rev (map (fun '(x, y, dx, dy) => (x + dx, y + dy, - dx, - dy)) l).

(** Mouse events over a viewport. *)
Definition press (figure : nat -> nat) (v : nat) (x y : Qc) : mouse := mkMouse Press (figure v) (Some v) x y.
Definition motion (figure : nat -> nat) (v : nat) (x y : Qc) : mouse := mkMouse Motion (figure v) (Some v) x y.
