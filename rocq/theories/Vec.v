(** Vector conversions.  Models gsp_matplotlib/glm/vec234.py (as_vec2/3/4 and
    to_vec2/3/4) and the way the visuals use them.

    Simplifications: numbers are exact reals, and an infinity or a nan is the
    single value [NonFinite]; the kinds of numbers are integers (of unbounded
    size) and floats; whether the result of as_vecN shares memory with its
    argument is left out. *)
From Coq Require Import Reals.
From Verif Require Import Base Glm.
Local Open Scope nat_scope.

(** V.dtype, vec234.py:56. *)
Inductive kind := KInt | KFloat.
(** An element of an array, vec234.py:55. *)
Inductive num := Num (r : R) | NonFinite.

(** Arrays with one axis, with two axes ([c] columns) and any others (shape and
    contents in C order). vec234.py:28, 55, 58 and 62. *)
Inductive data := Flat (l : list num) | Rows (c : nat) (l : list (list num)) | Other (shape : list nat) (l : list num).
(** np.array(other), vec234.py:55. *)
Record arr := mkA { a_kind : kind; a_data : data }.

(** Casting on assignment and by astype: floats are truncated towards zero.
    vec234.py:32, 60 and 64. *)
Definition trunc (r : R) : R :=
  if Rlt_dec r 0 then (- IZR (Int_part (- r)))%R else IZR (Int_part r).
(** An element stored in an array of the given kind, vec234.py:32, 60 and 64. *)
Definition store (k : kind) (x : num) : num :=
  match k, x with KInt, Num r => Num (trunc r) | _, _ => x end.
(** The division of vec234.py:70. *)
Definition quot (x w : num) : num :=
  match x, w with
  | Num a, Num b => if Req_EM_T b 0 then NonFinite else Num (a / b)
  | _, _ => NonFinite
  end.

(** Contents in groups of [n], C order. vec234.py:28 and 60. *)
Definition chunks (n : nat) (l : list num) : list (list num) :=
  map (fun i => firstn n (skipn (i * n) l)) (seq 0 (length l / n)).
(** The elements in C order, vec234.py:28 and 60. *)
Definition elements (d : data) : list num :=
  match d with Flat l => l | Rows _ l => concat l | Other _ l => l end.

(** vec234.py:56. *)
Definition chosen (dt : option kind) (V : arr) : kind := match dt with Some k => k | None => a_kind V end.
(** The assignment of a whole array, vec234.py:60 and 64. *)
Definition stored (k : kind) (l : list (list num)) : list (list num) := map (map (store k)) l.
(** [V[:, j]] in row [r]. vec234.py:70. *)
Definition col (r : list num) (j : nat) : num := nth j r NonFinite.

(** as_vec2, as_vec3, as_vec4: lines 28-32, 215-219, 359-363. *)
Definition as_vec (n : nat) (dt : option kind) (V : arr) : res arr :=
  let l := elements (a_data V) in
  if length l mod n =? 0
  then Ok (mkA (chosen dt V) (Rows n (match dt with Some k => stored k (chunks n l) | None => chunks n l end)))
  else Err ValueError.

(** Lines 58-61, 245-248, 389-392: an array with one axis. *)
Definition from_flat (n : nat) (k : kind) (l : list num) : res arr :=
  if length l mod n =? 0 then Ok (mkA k (Rows n (stored k (chunks n l)))) else Err TypeError.

(** to_vec2, lines 34-73.  The first two columns are assigned before the number
    of columns is looked at: none cannot be broadcast (ValueError), one can.  The
    division is done in place, which numpy refuses for integers (TypeError). *)
Definition to_vec2 (dt : option kind) (V : arr) : res arr :=
  let k := chosen dt V in
  match a_data V with
  | Flat l => from_flat 2 k l
  | Rows c l =>
      if c =? 0 then Err ValueError else
      let v := stored k (map (firstn 2) l) in
      if c =? 2 then Ok (mkA k (Rows 2 v))
      else if c =? 3 then Ok (mkA k (Rows 2 v))
      else if c =? 4 then
        match k with
        | KInt => Err TypeError
        | KFloat => Ok (mkA k (Rows 2 (map (fun rv => map (fun x => quot x (col (fst rv) 3)) (snd rv)) (combine l v))))
        end
      else Err TypeError
  | Other _ _ => Err TypeError
  end.

(** to_vec3, lines 221-262. *)
Definition to_vec3 (dt : option kind) (V : arr) : res arr :=
  let k := chosen dt V in
  match a_data V with
  | Flat l => from_flat 3 k l
  | Rows c l =>
      if c =? 2 then Ok (mkA k (Rows 3 (stored k (map (fun r => (r ++ [Num 0])%list) l))))
      else if c =? 3 then Ok (mkA k (Rows 3 (stored k l)))
      else if c =? 4 then Ok (mkA k (Rows 3 (stored k (map (fun r => map (fun x => quot x (col r 3)) (firstn 3 r)) l))))
      else Err TypeError
  | Other _ _ => Err TypeError
  end.

(** to_vec4, lines 365-408. *)
Definition to_vec4 (dt : option kind) (V : arr) : res arr :=
  let k := chosen dt V in
  match a_data V with
  | Flat l => from_flat 4 k l
  | Rows c l =>
      if c =? 2 then Ok (mkA k (Rows 4 (stored k (map (fun r => (r ++ [Num 0; Num 1])%list) l))))
      else if c =? 3 then Ok (mkA k (Rows 4 (stored k (map (fun r => (r ++ [Num 1])%list) l))))
      else if c =? 4 then Ok (mkA k (Rows 4 (stored k l)))
      else Err TypeError
  | Other _ _ => Err TypeError
  end.

(** Products and sums with an infinity or a nan are taken to be such.
    A product in gsp_matplotlib/visual/points.py:65. *)
Definition times (x : num) (a : R) : num := match x with Num r => Num (r * a) | NonFinite => NonFinite end.
(** A sum in gsp_matplotlib/visual/points.py:65. *)
Definition plus (x y : num) : num := match x, y with Num a, Num b => Num (a + b) | _, _ => NonFinite end.
(** One element of the matrix product of gsp_matplotlib/visual/points.py:65. *)
Definition row_dot (r : list num) (v : vec4) : num :=
  plus (plus (plus (times (col r 0) (x4 v)) (times (col r 1) (y4 v))) (times (col r 2) (z4 v))) (times (col r 3) (w4 v)).
(** [V @ M.T] for a matrix M of floats. gsp_matplotlib/visual/points.py:65. *)
Definition matmul_T (V : arr) (m : mat) : res arr :=
  match a_data V with
  | Rows c l =>
      if c =? 4 then
        Ok (mkA KFloat (Rows 4 (map (fun r => [row_dot r (row0 m); row_dot r (row1 m); row_dot r (row2 m); row_dot r (row3 m)]) l)))
      else Err ValueError
  | _ => Err ValueError
  end.

(** [glm.to_vec3(glm.to_vec4(positions) @ self._transform.T)]:
    gsp_matplotlib/visual/points.py 65, pixels.py 71, paths.py 79, polygons.py 75,
    segments.py 64, markers.py 115 and 118. *)
Definition placed (V : arr) (m : mat) : res arr :=
  let* v := to_vec4 None V in
  let* w := matmul_T v m in
  to_vec3 None w.

(** [positions.reshape(-1, 3)] and then the above: points.py 64-65, paths.py
    78-79, polygons.py 74-75, segments.py 63-64 (not pixels.py, where line 70 is a
    comment). *)
Definition placed_points (V : arr) (m : mat) : res arr :=
  let* v := as_vec 3 None V in placed v m.
