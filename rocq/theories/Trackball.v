(** The virtual trackball: gsp_matplotlib/glm/trackball.py.

    Numbers are real numbers; the rounding of float64 operations and of the
    float32 model matrix is not modelled.  The decimal constants of the source
    are the binary64 numbers Python reads them as. *)
From Coq Require Import Reals Lra.
From Verif Require Import Base Glm.
Local Open Scope R_scope.

(** trackball.py lines 80-91. *)
Definition v_add (a b : vec3) : vec3 := V3 (x3 a + x3 b) (y3 a + y3 b) (z3 a + z3 b).
(** trackball.py:82-83. *)
Definition v_sub (a b : vec3) : vec3 := V3 (x3 a - x3 b) (y3 a - y3 b) (z3 a - z3 b).
(** trackball.py:84-85. *)
Definition v_mul (v : vec3) (s : R) : vec3 := V3 (x3 v * s) (y3 v * s) (z3 v * s).
(** trackball.py:86-87. *)
Definition v_dot (a b : vec3) : R := x3 a * x3 b + y3 a * y3 b + z3 a * z3 b.
(** trackball.py:88-91. *)
Definition v_cross (a b : vec3) : vec3 :=
  V3 (y3 a * z3 b - z3 a * y3 b) (z3 a * x3 b - x3 a * z3 b) (x3 a * y3 b - y3 a * x3 b).
(** trackball.py lines 92-96; the except clause gives back [v]. *)
Definition v_length (v : vec3) : R := sqrt (v_dot v v).
(** trackball.py:94-96. *)
Definition v_normalize (v : vec3) : vec3 :=
  if Req_EM_T (v_length v) 0 then v else v_mul v (1 / v_length v).

(** A quaternion is a list of four numbers, the scalar part last; the functions
    on three numbers only look at the first three. trackball.py:100-106. *)
Definition vec (q : vec4) : vec3 := V3 (x4 q) (y4 q) (z4 q).
(** tf.append and q.append, trackball.py:106 and 119. *)
Definition append (v : vec3) (w : R) : vec4 := V4 (x3 v) (y3 v) (z3 v) w.

(** trackball.py lines 100-107. *)
Definition q_add (q1 q2 : vec4) : vec4 :=
  let t1 := v_mul (vec q1) (w4 q2) in
  let t2 := v_mul (vec q2) (w4 q1) in
  let t3 := v_cross (vec q2) (vec q1) in
  let tf := v_add t1 t2 in
  let tf := v_add t3 tf in
  append tf (w4 q1 * w4 q2 - v_dot (vec q1) (vec q2)).
(** trackball.py lines 108-116. *)
Definition q_mul (q : vec4) (s : R) : vec4 := V4 (x4 q * s) (y4 q * s) (z4 q * s) (w4 q * s).
(** trackball.py:110-111. *)
Definition q_dot (a b : vec4) : R := x4 a * x4 b + y4 a * y4 b + z4 a * z4 b + w4 a * w4 b.
(** trackball.py:112-113. *)
Definition q_length (q : vec4) : R := sqrt (q_dot q q).
(** trackball.py:114-116. *)
Definition q_normalize (q : vec4) : vec4 :=
  if Req_EM_T (q_length q) 0 then q else q_mul q (1 / q_length q).
(** trackball.py lines 117-120. *)
Definition q_from_axis_angle (v : vec3) (phi : R) : vec4 :=
  append (v_mul (v_normalize v) (sin (phi / 2))) (cos (phi / 2)).
(** trackball.py lines 121-135. *)
Definition q_rotmatrix (q : vec4) : mat :=
  let '(q0, q1, q2, q3) := (x4 q, y4 q, z4 q, w4 q) in
  Mat (V4 (1 - 2 * (q1 * q1 + q2 * q2)) (2 * (q0 * q1 - q2 * q3)) (2 * (q2 * q0 + q1 * q3)) 0)
      (V4 (2 * (q0 * q1 + q2 * q3)) (1 - 2 * (q2 * q2 + q0 * q0)) (2 * (q1 * q2 - q0 * q3)) 0)
      (V4 (2 * (q2 * q0 - q1 * q3)) (2 * (q1 * q2 + q0 * q3)) (1 - 2 * (q1 * q1 + q0 * q0)) 0)
      (V4 0 0 0 1).

(** trackball.py lines 145-149, 202-203: the attributes. *)
Record trackball := mkBall {
  t_rotation : vec4;
  t_count : nat;
  t_model : mat;
  t_theta : R;
  t_phi : R }.
(** trackball.py lines 148-149; [0.8] as binary64. *)
Definition renorm_count : nat := 97.
(** _TRACKBALLSIZE, trackball.py:149. *)
Definition ball_size : R := 3602879701896397 / 4503599627370496.
(** The two decimal literals of lines 220 and 223 as binary64. *)
Definition half_sqrt2 : R := 6369051672525773 / 9007199254740992.
(** The constant of trackball.py:223. *)
Definition sqrt_2 : R := 6369051672525773 / 4503599627370496.

(** trackball.py lines 199-211. *)
Definition set_orientation (b : trackball) (theta phi : R) : trackball :=
  let angle := theta * (PI / 180) in
  let sine := sin (/ 2 * angle) in
  let xrot := V4 (1 * sine) 0 0 (cos (/ 2 * angle)) in
  let angle := phi * (PI / 180) in
  let sine := sin (/ 2 * angle) in
  let zrot := V4 0 0 sine (cos (/ 2 * angle)) in
  let q := q_add xrot zrot in
  mkBall q (t_count b) (q_rotmatrix q) theta phi.

(** trackball.py lines 142-150. *)
Definition new_trackball (theta phi : R) : trackball :=
  let z := V4 0 0 0 0 in
  set_orientation (mkBall (V4 0 0 0 1) 0 (Mat z z z z) 0 0) theta phi.

(** trackball.py lines 214-225.  In the second branch [d] is not zero. *)
Definition project (r x y : R) : R :=
  let d := sqrt (x * x + y * y) in
  if Rlt_dec d (r * half_sqrt2) then sqrt (r * r - d * d)
  else let t := r / sqrt_2 in t * t / d.

(** trackball.py lines 228-250. *)
Definition rotate_by (x y dx dy : R) : vec4 :=
  if Req_EM_T dx 0 then
    if Req_EM_T dy 0 then V4 0 0 0 1
    else
      let last := V3 x y (project ball_size x y) in
      let new := V3 (x + dx) (y + dy) (project ball_size (x + dx) (y + dy)) in
      let a := v_cross new last in
      let d := v_sub last new in
      let t := v_length d / (2 * ball_size) in
      let t := if Rlt_dec 1 t then 1 else t in
      let t := if Rlt_dec t (-1) then -1 else t in
      q_from_axis_angle a (2 * asin t)
  else
    let last := V3 x y (project ball_size x y) in
    let new := V3 (x + dx) (y + dy) (project ball_size (x + dx) (y + dy)) in
    let a := v_cross new last in
    let d := v_sub last new in
    let t := v_length d / (2 * ball_size) in
    let t := if Rlt_dec 1 t then 1 else t in
    let t := if Rlt_dec t (-1) then -1 else t in
    q_from_axis_angle a (2 * asin t).

(** trackball.py lines 152-161. *)
Definition drag_to (b : trackball) (x y dx dy : R) : trackball :=
  let q := rotate_by x y dx dy in
  let rotation := q_add q (t_rotation b) in
  let count := S (t_count b) in
  if (renorm_count <? count)%nat then
    let rotation := q_normalize rotation in
    mkBall rotation 0 (q_rotmatrix rotation) (t_theta b) (t_phi b)
  else mkBall rotation count (q_rotmatrix rotation) (t_theta b) (t_phi b).

(** math.fmod(x, 360.0) trackball.py:176-177 and 187-188. *)
Definition fmod360 (x : R) : R :=
  x - 360 * IZR (if Rle_dec 0 x then Int_part (x / 360) else - Int_part (- x / 360)).

(** trackball.py lines 191-197; division by zero is an error. *)
Definition get_orientation (b : trackball) : res (R * R) :=
  let q := t_rotation b in
  let '(q0, q1, q2, q3) := (x4 q, y4 q, z4 q, w4 q) in
  let* r1 := div (2 * (q0 * q1 + q2 * q3)) (1 - 2 * (q1 * q1 + q2 * q2)) in
  let ax := atan r1 * 180 / PI in
  let* r2 := div (2 * (q0 * q3 + q1 * q2)) (1 - 2 * (q2 * q2 + q3 * q3)) in
  let az := atan r2 * 180 / PI in
  Ok (- az, ax).

(** trackball.py lines 168-172 and 179-183: reading an angle stores it. *)
Definition get_theta (b : trackball) : trackball * res R :=
  match get_orientation b with
  | Ok (th, _) => (mkBall (t_rotation b) (t_count b) (t_model b) th (t_phi b), Ok th)
  | Err e => (b, Err e)
  end.
(** Reading phi, trackball.py:179-183. *)
Definition get_phi (b : trackball) : trackball * res R :=
  match get_orientation b with
  | Ok (_, ph) => (mkBall (t_rotation b) (t_count b) (t_model b) (t_theta b) ph, Ok ph)
  | Err e => (b, Err e)
  end.
(** trackball.py lines 174-177 and 185-188. *)
Definition set_theta (b : trackball) (theta : R) : trackball :=
  set_orientation b (fmod360 theta) (fmod360 (t_phi b)).
(** Setting phi, trackball.py:185-188. *)
Definition set_phi (b : trackball) (phi : R) : trackball :=
  set_orientation b (fmod360 (t_theta b)) (fmod360 phi).

(** What a user can do. trackball.py:152-188. *)
Inductive action :=
| Drag (x y dx dy : R)
| SetTheta (v : R)
| SetPhi (v : R)
| ReadTheta
| ReadPhi.
(** One of them, trackball.py:152-188. *)
Definition act (b : trackball) (a : action) : trackball :=
  match a with
  | Drag x y dx dy => drag_to b x y dx dy
  | SetTheta v => set_theta b v
  | SetPhi v => set_phi b v
  | ReadTheta => fst (get_theta b)
  | ReadPhi => fst (get_phi b)
  end.
(** Several of them, trackball.py:152-188. *)
Definition acts (b : trackball) (l : list action) : trackball := fold_left act l b.
