(** Elliptical arcs of SVG paths: gsp/core/svg.py:60-174 (endpoint_to_center) and
    177-263 (arc_path).

    Simplification: numbers are exact reals, so the clipping of line 164 never acts
    (it is kept).  matplotlib's Path.arc is a parameter of [arc_path]. *)
From Coq Require Import Reals Lra Psatz.
From Verif Require Import Base.
Local Open Scope R_scope.

(** math.radians and math.degrees. svg.py:105-106. *)
Definition radians (x : R) : R := x * PI / 180.
(** math.degrees, svg.py:154 and 166. *)
Definition degrees (x : R) : R := x * 180 / PI.
(** [x % 360]. svg.py:157 and 169. *)
Definition mod360 (x : R) : R := x - 360 * IZR (Int_part (x / 360)).
(** np.clip(d, -1.0, 1.0). svg.py:164. *)
Definition clip (d : R) : R := Rmin (Rmax d (-1)) 1.

(** The center parameterization: radii, center, angles in degrees. svg.py:174. *)
Record center := mkCenter { c_rx : R; c_ry : R; c_x : R; c_y : R; c_from : R; c_to : R }.

(** svg.py:104-110: the half difference turned into the axes of the ellipse, the
    first coordinate. *)
Definition half_x (rot x1 y1 x2 y2 : R) : R := cos (radians rot) * ((x1 - x2) / 2) + sin (radians rot) * ((y1 - y2) / 2).
(** svg.py:104-110, the second coordinate. *)
Definition half_y (rot x1 y1 x2 y2 : R) : R := - sin (radians rot) * ((x1 - x2) / 2) + cos (radians rot) * ((y1 - y2) / 2).
(** svg.py:119-120: how far the radii are too small. *)
Definition scale_of (a b rx ry : R) : R := (a * a) / (rx * rx) + (b * b) / (ry * ry).
(** svg.py:114-130: the radii, made positive and scaled up. *)
Definition corrected (a b rx ry : R) : R * R :=
  let s := scale_of a b (Rabs rx) (Rabs ry) in
  if Rlt_dec 1 s then (Rabs rx * sqrt s, Rabs ry * sqrt s) else (Rabs rx, Rabs ry).
(** svg.py:132-137. *)
Definition factor (a b rx ry large sweep : R) : R :=
  let t := rx * rx * (b * b) + ry * ry * (a * a) in
  let c := sqrt (Rabs ((rx * rx * (ry * ry) - rx * rx * (b * b) - ry * ry * (a * a)) / t)) in
  if Req_EM_T large sweep then - c else c.
(** svg.py:152-157: the angle of a vector. *)
Definition angle_of (ux uy : R) : R :=
  let n := sqrt (ux * ux + uy * uy) in
  let theta := degrees (acos (ux / n)) in
  mod360 (if Rlt_dec uy 0 then - theta else theta).
(** svg.py:159-172: the angle from one vector to another, in the direction of the
    sweep. *)
Definition turn (ux uy vx vy sweep : R) : R :=
  let n := sqrt ((ux * ux + uy * uy) * (vx * vx + vy * vy)) in
  let d := clip ((ux * vx + uy * vy) / n) in
  let delta := degrees (acos d) in
  let delta := mod360 (if Rlt_dec (ux * vy - uy * vx) 0 then - delta else delta) in
  if Req_EM_T sweep 0 then (if Rlt_dec 0 delta then delta - 360 else delta) else delta.
(** endpoint_to_center, svg.py:60-174. *)
Definition endpoint_to_center (x1 y1 rx ry rot large sweep x2 y2 : R) : res center :=
  if Req_EM_T (Rabs rx * Rabs rx) 0 then Err ZeroDivisionError else
  if Req_EM_T (Rabs ry * Rabs ry) 0 then Err ZeroDivisionError else
  let a := half_x rot x1 y1 x2 y2 in
  let b := half_y rot x1 y1 x2 y2 in
  let (rx', ry') := corrected a b rx ry in
  if Req_EM_T (rx' * rx' * (b * b) + ry' * ry' * (a * a)) 0 then Err ZeroDivisionError else
  let c := factor a b rx' ry' large sweep in
  let cx := c * rx' * b / ry' in
  let cy := - c * ry' * a / rx' in
  let ux := (a - cx) / rx' in let uy := (b - cy) / ry' in
  let vx := (- a - cx) / rx' in let vy := (- b - cy) / ry' in
  let theta := angle_of ux uy in
  let delta := turn ux uy vx vy sweep in
  Ok (mkCenter rx' ry'
        (cos (radians rot) * cx - sin (radians rot) * cy + (x1 + x2) / 2)
        (sin (radians rot) * cx + cos (radians rot) * cy + (y1 + y2) / 2)
        theta (theta + delta)).

(** Path.arc of matplotlib: the vertices of an arc of the unit circle between two
    angles in degrees. *)
Section Path.
  Variable arc : R -> R -> list (R * R).
  (** svg.py:240-251: scale, translate, rotate about the center. *)
  Definition place (rot : R) (c : center) (p : R * R) : R * R :=
    let x := c_rx c * fst p + c_x c - c_x c in
    let y := c_ry c * snd p + c_y c - c_y c in
    (cos (radians rot) * x - sin (radians rot) * y + c_x c, sin (radians rot) * x + cos (radians rot) * y + c_y c).
  (** arc_path, svg.py:177-263: the vertices. *)
  Definition arc_path (x1 y1 rx ry rot large sweep x2 y2 : R) : res (list (R * R)) :=
    let* c := endpoint_to_center x1 y1 rx ry rot large sweep x2 y2 in
    if Rlt_dec (c_from c) (c_to c) then Ok (map (place rot c) (arc (c_from c) (c_to c)))
    else Ok (rev (map (place rot c) (arc (c_to c) (c_from c)))).
End Path.
