(** Vocabulary for the scenes of the example programs. *)
From Coq Require Import Reals.
From Verif Require Import Base Glm.
Open Scope R_scope.

(** The corners of a regular polygon with [m] corners around [(x, y)]. *)
Definition ngon (m : nat) (x y radius : R) : list vec3 :=
  map (fun k => V3 (x + radius * cos (INR k * (2 * PI / INR m))) (y + radius * sin (INR k * (2 * PI / INR m))) 0) (seq 0 m).
(** The square from (-1,-1) to (1,1) in n rows of n cells, from the top left: the middle of
    a cell. *)
Definition middle_x (n column : nat) : R := -1 + (2 * INR column + 1) / INR n.
Definition middle_y (n row : nat) : R := 1 - (2 * INR row + 1) / INR n.
(** A position inside that cell, and inside the square. *)
Definition in_cell (n row column : nat) (p : vec3) : Prop :=
  Rabs (x3 p - middle_x n column) < 1 / INR n /\ Rabs (y3 p - middle_y n row) < 1 / INR n.
Definition in_square (p : vec3) : Prop := -1 < x3 p < 1 /\ -1 < y3 p < 1.
(** Number [i] of [n] numbers spaced evenly from 0 to 1. *)
Definition share (n i : nat) : R := INR i / INR (n - 1).
(** Distances. *)
Definition from_axis (p : vec3) : R := sqrt (x3 p * x3 p + y3 p * y3 p).
Definition from_origin (p : vec3) : R := sqrt (x3 p * x3 p + y3 p * y3 p + z3 p * z3 p).
(** Corners of the cube from (-1,-1,-1) to (1,1,1), and of them those joined by an edge: they
    differ in one coordinate. *)
Definition is_corner (p : vec3) : Prop := Rabs (x3 p) = 1 /\ Rabs (y3 p) = 1 /\ Rabs (z3 p) = 1.
Definition joined (p q : vec3) : Prop :=
  (x3 p <> x3 q /\ y3 p = y3 q /\ z3 p = z3 q) \/ (x3 p = x3 q /\ y3 p <> y3 q /\ z3 p = z3 q) \/ (x3 p = x3 q /\ y3 p = y3 q /\ z3 p <> z3 q).
