(** Drags of the trackball in terms of the two places on the ball. *)
From Coq Require Import Reals.
From Verif Require Import Base Glm GlmSpec Trackball.
Local Open Scope R_scope.

(** The axis at right angles to the directions of the new and the old place. *)
Definition drag_axis (x y dx dy : R) : vec3 :=
  cross (V3 (x + dx) (y + dy) (project ball_size (x + dx) (y + dy))) (V3 x y (project ball_size x y)).

(** How far apart the two places are, as a part of the ball's diameter. *)
Definition drag_length (x y dx dy : R) : R :=
  norm (sub3 (V3 x y (project ball_size x y)) (V3 (x + dx) (y + dy) (project ball_size (x + dx) (y + dy)))) / (2 * ball_size).

(** A history of drags only. *)
Definition drags (l : list (R * R * R * R)) : list action := map (fun '(x, y, dx, dy) => Drag x y dx dy) l.
