(** Matrices of the bundled mathematics library: gsp_matplotlib/glm/glm.py.

    Numbers are the real numbers of the standard library: rounding to [dtype]
    (float32 by default) and to float64 is not modelled.  The constant [1e-16]
    that [normalize] adds to lengths is kept.  A division by zero is
    [Err ZeroDivisionError], which is what Python's own numbers raise; numpy's
    scalars give infinities or nan and a warning instead. *)
From Verif Require Import Base.
From Coq Require Import Reals Lra.
Local Open Scope R_scope.

(** Arrays of shape (3,), (4,) and (4,4).
    numpy, used throughout gsp_matplotlib/glm/glm.py:40-572. *)
Record vec3 := V3 { x3 : R; y3 : R; z3 : R }.
(** An array of shape (4,): a row of the matrices of glm.py:52-540. *)
Record vec4 := V4 { x4 : R; y4 : R; z4 : R; w4 : R }.
(** An array of shape (4,4), glm.py:52-540. *)
Record mat := Mat { row0 : vec4; row1 : vec4; row2 : vec4; row3 : vec4 }.

(** np.transpose on a (4,4) array. glm.py:87-88. *)
Definition transpose (m : mat) : mat :=
  Mat (V4 (x4 (row0 m)) (x4 (row1 m)) (x4 (row2 m)) (x4 (row3 m)))
      (V4 (y4 (row0 m)) (y4 (row1 m)) (y4 (row2 m)) (y4 (row3 m)))
      (V4 (z4 (row0 m)) (z4 (row1 m)) (z4 (row2 m)) (z4 (row3 m)))
      (V4 (w4 (row0 m)) (w4 (row1 m)) (w4 (row2 m)) (w4 (row3 m))).

(** [if transpose: return np.transpose(M) else: return M], the last lines of
    every function below except [lookat].
    glm.py:87-90, 138-141, 220-223, 292-295, 343-346, 392-395, 424-427, 456-459, 496-499, 537-540. *)
Definition finish (t : bool) (m : mat) : mat := if t then transpose m else m.

(** np.dot and np.cross on (3,) arrays; np.linalg.norm. glm.py:225-264 and 503-540. *)
Definition dot (u v : vec3) : R := x3 u * x3 v + y3 u * y3 v + z3 u * z3 v.
(** np.cross on (3,) arrays, glm.py:225-264 and 503-540. *)
Definition cross (u v : vec3) : vec3 :=
  V3 (y3 u * z3 v - z3 u * y3 v) (z3 u * x3 v - x3 u * z3 v) (x3 u * y3 v - y3 u * x3 v).
(** np.linalg.norm, glm.py:225-264 and 503-540. *)
Definition norm (u : vec3) : R := sqrt (dot u u).
(** Difference of (3,) arrays, glm.py:225-264. *)
Definition sub3 (u v : vec3) : vec3 := V3 (x3 u - x3 v) (y3 u - y3 v) (z3 u - z3 v).
(** Product of a number and a (3,) array, glm.py:503-540. *)
Definition scale3 (k : R) (u : vec3) : vec3 := V3 (k * x3 u) (k * y3 u) (k * z3 u).

(** np.radians glm.py:366-459. *)
Definition radians (t : R) : R := t * (PI / 180).

(** glm.py lines 40-43, on a (3,) array. *)
Definition tiny : R := / 10000000000000000.
(** glm.py:40-43. *)
Definition normalize (v : vec3) : vec3 :=
  V3 (x3 v / (tiny + norm v)) (y3 v / (tiny + norm v)) (z3 v / (tiny + norm v)).

(** glm.py lines 46-49, on one number. *)
Definition clamp (v vmin vmax : R) : R := Rmin (Rmax v vmin) vmax.

(** glm.py lines 52-90. *)
Definition viewport (x y w h d : R) (t : bool) : mat :=
  finish t (Mat (V4 (w / 2) 0 0 (x + w / 2))
                (V4 0 (h / 2) 0 (y + h / 2))
                (V4 0 0 (d / 2) (d / 2))
                (V4 0 0 0 1)).

(** [a / b] for Python numbers. glm.py:94-223. *)
Definition div (a b : R) : res R :=
  if Req_EM_T b 0 then Err ZeroDivisionError else Ok (a / b).

(** glm.py lines 94-141. *)
Definition frustum (left right bottom top znear zfar : R) (t : bool) : res mat :=
  let* m00 := div (2 * znear) (right - left) in
  let* m11 := div (2 * znear) (top - bottom) in
  let* m22 := div (- (zfar + znear)) (zfar - znear) in
  let* m02 := div (right + left) (right - left) in
  let* m21 := div (top + bottom) (top - bottom) in
  let* m23 := div (- 2 * znear * zfar) (zfar - znear) in
  Ok (finish t (Mat (V4 m00 0 m02 0)
                    (V4 0 m11 0 0)
                    (V4 0 m21 m22 m23)
                    (V4 0 0 (-1) 0))).

(** glm.py lines 144-174. *)
Definition perspective (fovy aspect znear zfar : R) (t : bool) : res mat :=
  let h := tan (/ 2 * radians fovy) * znear in
  let w := h * aspect in
  frustum (- w) w (- h) h znear zfar t.

(** glm.py lines 177-223. *)
Definition ortho (left right bottom top znear zfar : R) (t : bool) : res mat :=
  let* m00 := div 2 (right - left) in
  let* m11 := div 2 (top - bottom) in
  let* m22 := div (- 2) (zfar - znear) in
  let* m02 := div (- (right + left)) (right - left) in
  let* m13 := div (- (top + bottom)) (top - bottom) in
  let* m23 := div (- (zfar + znear)) (zfar - znear) in
  Ok (finish t (Mat (V4 m00 0 m02 0)
                    (V4 0 m11 0 m13)
                    (V4 0 0 m22 m23)
                    (V4 0 0 0 1))).

(** glm.py lines 225-264; the argument [transpose] is not used. *)
Definition lookat (eye center up : vec3) (t : bool) : mat :=
  let Z := normalize (sub3 eye center) in
  let X := normalize (cross up Z) in
  let Y := normalize (cross Z X) in
  Mat (V4 (x3 X) (y3 X) (z3 X) (- dot X eye))
      (V4 (x3 Y) (y3 Y) (z3 Y) (- dot Y eye))
      (V4 (x3 Z) (y3 Z) (z3 Z) (- dot Z eye))
      (V4 0 0 0 1).

(** glm.py lines 267-295. *)
Definition scale (s : vec3) (t : bool) : mat :=
  finish t (Mat (V4 (x3 s) 0 0 0) (V4 0 (y3 s) 0 0) (V4 0 0 (z3 s) 0) (V4 0 0 0 1)).

(** glm.py lines 317-346. *)
Definition translate (v : vec3) (t : bool) : mat :=
  finish t (Mat (V4 1 0 0 (x3 v)) (V4 0 1 0 (y3 v)) (V4 0 0 1 (z3 v)) (V4 0 0 0 1)).

(** glm.py lines 366-395. *)
Definition xrotate (theta : R) (t : bool) : mat :=
  let c := cos (radians theta) in
  let s := sin (radians theta) in
  finish t (Mat (V4 1 0 0 0) (V4 0 c (- s) 0) (V4 0 s c 0) (V4 0 0 0 1)).

(** glm.py lines 398-427. *)
Definition yrotate (theta : R) (t : bool) : mat :=
  let c := cos (radians theta) in
  let s := sin (radians theta) in
  finish t (Mat (V4 c 0 s 0) (V4 0 1 0 0) (V4 (- s) 0 c 0) (V4 0 0 0 1)).

(** glm.py lines 430-459. *)
Definition zrotate (theta : R) (t : bool) : mat :=
  let c := cos (radians theta) in
  let s := sin (radians theta) in
  finish t (Mat (V4 c (- s) 0 0) (V4 s c 0 0) (V4 0 0 1 0) (V4 0 0 0 1)).

(** glm.py lines 486-494 once the axis is normalised. *)
Definition rotate_about (tr : R) (axis : vec3) : mat :=
  let a := cos (tr / 2) in
  let b := - x3 axis * sin (tr / 2) in
  let c := - y3 axis * sin (tr / 2) in
  let d := - z3 axis * sin (tr / 2) in
  let aa := a * a in let bb := b * b in let cc := c * c in let dd := d * d in
  let bc := b * c in let ad := a * d in let ac := a * c in
  let ab := a * b in let bd := b * d in let cd := c * d in
  Mat (V4 (aa + bb - cc - dd) (2 * (bc + ad)) (2 * (bd - ac)) 0)
      (V4 (2 * (bc - ad)) (aa + cc - bb - dd) (2 * (cd + ab)) 0)
      (V4 (2 * (bd + ac)) (2 * (cd - ab)) (aa + dd - bb - cc) 0)
      (V4 0 0 0 1).

(** glm.py lines 462-499. *)
Definition rotate (theta : R) (axis : vec3) (t : bool) : mat :=
  finish t (rotate_about (radians theta) (normalize axis)).

(** glm.py lines 503-540, for (3,) arrays.  [c] and [s] are numpy scalars, so a
    zero [s] makes every entry of the upper block nan instead of raising:
    [None] stands for that matrix. *)
Definition align (U V : vec3) (t : bool) : option mat :=
  let a := normalize U in
  let b := normalize V in
  let v := cross a b in
  let c := dot a b in
  let s := norm v in
  if Req_EM_T (s ^ 2) 0 then None
  else
    let k := (1 - c) / s ^ 2 in
    let '(p, q, r) := (x3 v, y3 v, z3 v) in
    (* K = [[0,-r,q],[r,0,-p],[-q,p,0]] and K@K by rows *)
    Some (finish t
      (Mat (V4 (1 + 0 + (- (r * r) - q * q) * k) (0 - r + p * q * k) (0 + q + p * r * k) 0)
           (V4 (0 + r + p * q * k) (1 + 0 + (- (r * r) - p * p) * k) (0 - p + q * r * k) 0)
           (V4 (0 - q + p * r * k) (0 + p + q * r * k) (1 + 0 + (- (q * q) - p * p) * k) 0)
           (V4 0 0 0 1))).

(** A triangle of the (n,3,2) or (n,3,3) array given to [frontback]: the first
    two coordinates of its three corners. glm.py:543-559. *)
Record face := Tri { ax : R; ay : R; bx : R; by_ : R; cx : R; cy : R }.

(** glm.py lines 556-558, one row of [Z]. *)
Definition facing (t : face) : R :=
  (bx t - ax t) * (by_ t + ay t) + (cx t - bx t) * (cy t + by_ t) + (ax t - cx t) * (ay t + cy t).

(** glm.py lines 543-559: two arrays of booleans. *)
Definition frontback (T : list face) : list bool * list bool :=
  (map (fun t => if Rlt_dec (facing t) 0 then true else false) T,
   map (fun t => if Rle_dec 0 (facing t) then true else false) T).

(** What [x, y, z = np.array(v)] accepts: an array of three numbers.  A plain
    number gives a 0-d array, which cannot be iterated (TypeError); any other
    count is a ValueError.  glm.py lines 286, 337. *)
Inductive given := Number (r : R) | Numbers (l : list R).
(** glm.py:286 and 337. *)
Definition unpack3 (g : given) : res vec3 :=
  match g with
  | Number _ => Err TypeError
  | Numbers [a; b; c] => Ok (V3 a b c)
  | Numbers _ => Err ValueError
  end.

(** [translate] and [scale] as called, glm.py lines 286 and 337: the argument is
    unpacked first. *)
Definition translate_given (g : given) (transpose : bool) : res mat := let* v := unpack3 g in Ok (translate v transpose).
(** scale as called, glm.py:286. *)
Definition scale_given (g : given) (transpose : bool) : res mat := let* v := unpack3 g in Ok (scale v transpose).

(** The product [A @ B] of (4,4) arrays. glm.py:572. *)
Definition matmul (A B : mat) : mat :=
  let row r := V4 (x4 r * x4 (row0 B) + y4 r * x4 (row1 B) + z4 r * x4 (row2 B) + w4 r * x4 (row3 B))
                  (x4 r * y4 (row0 B) + y4 r * y4 (row1 B) + z4 r * y4 (row2 B) + w4 r * y4 (row3 B))
                  (x4 r * z4 (row0 B) + y4 r * z4 (row1 B) + z4 r * z4 (row2 B) + w4 r * z4 (row3 B))
                  (x4 r * w4 (row0 B) + y4 r * w4 (row1 B) + z4 r * w4 (row2 B) + w4 r * w4 (row3 B)) in
  Mat (row (row0 A)) (row (row1 A)) (row (row2 A)) (row (row3 A)).

(** glm.py lines 562-572.  [scale(zoom,zoom,zoom)] passes a number where a
    vector is expected, and [translate(0, 0, -4.5)] likewise; the second and
    third arguments go to [dtype] and [transpose].  The order of evaluation is
    that of the source. *)
Definition camera (xrotation yrotation zoom : R) (is_ortho : bool) : res mat :=
  let xr := Rmin (Rmax xrotation 0) 90 in
  let yr := Rmin (Rmax yrotation 0) 90 in
  let zm := Rmax (/ 10) zoom in
  let* s := unpack3 (Number zm) in
  let model := matmul (matmul (scale s true) (xrotate xr false)) (yrotate yr false) in
  let* v := unpack3 (Number 0) in
  let view := translate v true in
  let* proj := if is_ortho then ortho (-1) 1 (-1) 1 1 100 false else perspective 25 1 1 100 false in
  Ok (matmul (matmul proj view) model).
