(** Elliptical arcs as SVG defines them. *)
From Coq Require Import Reals.
From Verif Require Import Base Arc.
Local Open Scope R_scope.

(** The point at angle [t] (degrees) of the ellipse with the given radii and center,
    turned by [rot] degrees. *)
Definition on_ellipse (rot : R) (c : center) (t : R) : R * R :=
  let x := c_rx c * cos (t * PI / 180) in
  let y := c_ry c * sin (t * PI / 180) in
  (cos (rot * PI / 180) * x - sin (rot * PI / 180) * y + c_x c, sin (rot * PI / 180) * x + cos (rot * PI / 180) * y + c_y c).
(** The flags of a path are 0 and 1. *)
Definition flag (x : R) : Prop := x = 0 \/ x = 1.
(** How far apart the two points are, in radii: an ellipse with these radii joins
    them if this is at most 1. *)
Definition spread (rx ry rot x1 y1 x2 y2 : R) : R :=
  let dx := (x1 - x2) / 2 in let dy := (y1 - y2) / 2 in
  let a := cos (rot * PI / 180) * dx + sin (rot * PI / 180) * dy in
  let b := cos (rot * PI / 180) * dy - sin (rot * PI / 180) * dx in
  (a / rx)² + (b / ry)².
