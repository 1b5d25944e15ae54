(** The virtual trackball in floating point: gsp_matplotlib/glm/trackball.py with every operation
    rounded as Python's floats are, and the matrix stored with numpy's float32.

    Trackball.v is the same code over the real numbers.  Simplifications: no number is too large
    (the largest ones here are below 2^540), and so there are no infinities and no nan;
    math.sin, math.cos, math.asin and math.atan are parameters, since they are those of the C library. *)
From Coq Require Import Reals ZArith.
From Flocq Require Import Core.
From Verif Require Import Base Glm Trackball.
Local Open Scope R_scope.

(** A number rounded to binary64, to nearest, ties to even: all arithmetic of trackball.py:80-250. *)
Definition rnd (x : R) : R := round radix2 (FLT_exp (-1074) 53) ZnearestE x.
(** To binary32, for the items of np.zeros(16, np.float32), trackball.py:122. *)
Definition rnd32 (x : R) : R := round radix2 (FLT_exp (-149) 24) ZnearestE x.
(** The operators of floats, used throughout trackball.py:80-250. *)
Definition fadd (x y : R) : R := rnd (x + y).
(** Subtraction, trackball.py:83. *)
Definition fsub (x y : R) : R := rnd (x - y).
(** Multiplication, trackball.py:85. *)
Definition fmul (x y : R) : R := rnd (x * y).
(** Division, trackball.py:95. *)
Definition fdiv (x y : R) : res R := if Req_EM_T y 0 then Err ZeroDivisionError else Ok (rnd (x / y)).
(** math.sqrt, trackball.py:93. *)
Definition fsqrt (x : R) : res R := if Rlt_dec x 0 then Err ValueError else Ok (rnd (sqrt x)).
(** math.pi, trackball.py:195, as binary64. *)
Definition fpi : R := 884279719003555 / 281474976710656.
(** The functions of the C library that module math gives, trackball.py:117-119, 195-208 and 249. *)
Record libm := mkLibm { m_sin : R -> R; m_cos : R -> R; m_asin : R -> R; m_atan : R -> R }.

(** trackball.py:80-81. *)
Definition fv_add (a b : vec3) : vec3 := V3 (fadd (x3 a) (x3 b)) (fadd (y3 a) (y3 b)) (fadd (z3 a) (z3 b)).
(** trackball.py:82-83. *)
Definition fv_sub (a b : vec3) : vec3 := V3 (fsub (x3 a) (x3 b)) (fsub (y3 a) (y3 b)) (fsub (z3 a) (z3 b)).
(** trackball.py:84-85. *)
Definition fv_mul (v : vec3) (s : R) : vec3 := V3 (fmul (x3 v) s) (fmul (y3 v) s) (fmul (z3 v) s).
(** trackball.py:86-87. *)
Definition fv_dot (a b : vec3) : R := fadd (fadd (fmul (x3 a) (x3 b)) (fmul (y3 a) (y3 b))) (fmul (z3 a) (z3 b)).
(** trackball.py:88-91. *)
Definition fv_cross (a b : vec3) : vec3 :=
  V3 (fsub (fmul (y3 a) (z3 b)) (fmul (z3 a) (y3 b)))
     (fsub (fmul (z3 a) (x3 b)) (fmul (x3 a) (z3 b)))
     (fsub (fmul (x3 a) (y3 b)) (fmul (y3 a) (x3 b))).
(** trackball.py:92-93. *)
Definition fv_length (v : vec3) : res R := fsqrt (fv_dot v v).
(** trackball.py:94-96. *)
Definition fv_normalize (v : vec3) : res vec3 :=
  let* l := fv_length v in
  match fdiv 1 l with Ok i => Ok (fv_mul v i) | Err _ => Ok v end.

(** trackball.py:100-107. *)
Definition fq_add (q1 q2 : vec4) : vec4 :=
  let t1 := fv_mul (vec q1) (w4 q2) in
  let t2 := fv_mul (vec q2) (w4 q1) in
  let t3 := fv_cross (vec q2) (vec q1) in
  let tf := fv_add t1 t2 in
  let tf := fv_add t3 tf in
  append tf (fsub (fmul (w4 q1) (w4 q2)) (fv_dot (vec q1) (vec q2))).
(** trackball.py:108-109. *)
Definition fq_mul (q : vec4) (s : R) : vec4 := V4 (fmul (x4 q) s) (fmul (y4 q) s) (fmul (z4 q) s) (fmul (w4 q) s).
(** trackball.py:110-111. *)
Definition fq_dot (a b : vec4) : R := fadd (fadd (fadd (fmul (x4 a) (x4 b)) (fmul (y4 a) (y4 b))) (fmul (z4 a) (z4 b))) (fmul (w4 a) (w4 b)).
(** trackball.py:112-113. *)
Definition fq_length (q : vec4) : res R := fsqrt (fq_dot q q).
(** trackball.py:114-116. *)
Definition fq_normalize (q : vec4) : res vec4 :=
  let* l := fq_length q in
  match fdiv 1 l with Ok i => Ok (fq_mul q i) | Err _ => Ok q end.
(** trackball.py:121-135: computed in binary64, stored in binary32. *)
Definition fq_rotmatrix (q : vec4) : mat :=
  let '(q0, q1, q2, q3) := (x4 q, y4 q, z4 q, w4 q) in
  let diag a b := rnd32 (fsub 1 (fmul 2 (fadd (fmul a a) (fmul b b)))) in
  let plus a b c d := rnd32 (fmul 2 (fadd (fmul a b) (fmul c d))) in
  let minus a b c d := rnd32 (fmul 2 (fsub (fmul a b) (fmul c d))) in
  Mat (V4 (diag q1 q2) (minus q0 q1 q2 q3) (plus q2 q0 q1 q3) 0)
      (V4 (plus q0 q1 q2 q3) (diag q2 q0) (minus q1 q2 q0 q3) 0)
      (V4 (minus q2 q0 q1 q3) (plus q1 q2 q0 q3) (diag q1 q0) 0)
      (V4 0 0 0 1).

(** trackball.py:214-225. *)
Definition fproject (r x y : R) : res R :=
  let* d := fsqrt (fadd (fmul x x) (fmul y y)) in
  if Rlt_dec d (fmul r half_sqrt2) then fsqrt (fsub (fmul r r) (fmul d d))
  else let* t := fdiv r sqrt_2 in fdiv (fmul t t) d.

Section Library.
Variable L : libm.

(** math.asin, trackball.py:249. *)
Definition fasin (t : R) : res R := if Rle_dec (Rabs t) 1 then Ok (m_asin L t) else Err ValueError.
(** trackball.py:117-120. *)
Definition fq_from_axis_angle (v : vec3) (phi : R) : res vec4 :=
  let* n := fv_normalize v in
  let* h := fdiv phi 2 in
  Ok (append (fv_mul n (m_sin L h)) (m_cos L h)).

(** trackball.py:228-250. *)
Definition frotate (x y dx dy : R) : res vec4 :=
  if (if Req_EM_T dx 0 then if Req_EM_T dy 0 then true else false else false) then Ok (V4 0 0 0 1)
  else
    let* z := fproject ball_size x y in
    let last := V3 x y z in
    let* z' := fproject ball_size (fadd x dx) (fadd y dy) in
    let new := V3 (fadd x dx) (fadd y dy) z' in
    let a := fv_cross new last in
    let d := fv_sub last new in
    let* l := fv_length d in
    let* t := fdiv l (fmul 2 ball_size) in
    let t := if Rlt_dec 1 t then 1 else t in
    let t := if Rlt_dec t (-1) then -1 else t in
    let* p := fasin t in
    fq_from_axis_angle a (fmul 2 p).

(** trackball.py:152-161. *)
Definition fdrag_to (b : trackball) (x y dx dy : R) : res trackball :=
  let* q := frotate x y dx dy in
  let rotation := fq_add q (t_rotation b) in
  let count := S (t_count b) in
  if (renorm_count <? count)%nat then
    let* rotation := fq_normalize rotation in
    Ok (mkBall rotation 0 (fq_rotmatrix rotation) (t_theta b) (t_phi b))
  else Ok (mkBall rotation count (fq_rotmatrix rotation) (t_theta b) (t_phi b)).

(** trackball.py:199-211. *)
Definition fset_orientation (b : trackball) (theta phi : R) : res trackball :=
  let* degree := fdiv fpi 180 in
  let angle := fmul theta degree in
  let sine := m_sin L (fmul (/ 2) angle) in
  let xrot := V4 (fmul 1 sine) 0 0 (m_cos L (fmul (/ 2) angle)) in
  let angle := fmul phi degree in
  let sine := m_sin L (fmul (/ 2) angle) in
  let zrot := V4 0 0 sine (m_cos L (fmul (/ 2) angle)) in
  let q := fq_add xrot zrot in
  Ok (mkBall q (t_count b) (fq_rotmatrix q) theta phi).
(** trackball.py:142-150. *)
Definition fnew (theta phi : R) : res trackball :=
  let z := V4 0 0 0 0 in
  fset_orientation (mkBall (V4 0 0 0 1) 0 (Mat z z z z) 0 0) theta phi.

(** trackball.py:191-197. *)
Definition fget_orientation (b : trackball) : res (R * R) :=
  let q := t_rotation b in
  let '(q0, q1, q2, q3) := (x4 q, y4 q, z4 q, w4 q) in
  let* r1 := fdiv (fmul 2 (fadd (fmul q0 q1) (fmul q2 q3))) (fsub 1 (fmul 2 (fadd (fmul q1 q1) (fmul q2 q2)))) in
  let* ax := fdiv (fmul (m_atan L r1) 180) fpi in
  let* r2 := fdiv (fmul 2 (fadd (fmul q0 q3) (fmul q1 q2))) (fsub 1 (fmul 2 (fadd (fmul q2 q2) (fmul q3 q3)))) in
  let* az := fdiv (fmul (m_atan L r2) 180) fpi in
  Ok (- az, ax).

(** What a user does, trackball.py:152-188; a read that raises changes nothing, and math.fmod is exact. *)
Definition fact (b : trackball) (a : action) : res trackball :=
  match a with
  | Drag x y dx dy => fdrag_to b x y dx dy
  | SetTheta v => fset_orientation b (fmod360 v) (fmod360 (t_phi b))
  | SetPhi v => fset_orientation b (fmod360 (t_theta b)) (fmod360 v)
  | ReadTheta => match fget_orientation b with
                 | Ok (th, _) => Ok (mkBall (t_rotation b) (t_count b) (t_model b) th (t_phi b))
                 | Err _ => Ok b end
  | ReadPhi => match fget_orientation b with
               | Ok (_, ph) => Ok (mkBall (t_rotation b) (t_count b) (t_model b) (t_theta b) ph)
               | Err _ => Ok b end
  end.
(** Several of them, trackball.py:152-188. *)
Fixpoint facts (b : trackball) (l : list action) : res trackball :=
  match l with [] => Ok b | a :: r => let* b' := fact b a in facts b' r end.
End Library.
