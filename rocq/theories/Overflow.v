(** The arithmetic of Single.v with its exceptions: gsp/visual/visual.py:119,
    gsp_matplotlib/visual/points.py:65-69 and segments.py:69.

    A number too large for the type becomes infinite, and so does, or becomes not-a-number, what is
    divided by zero and whatever is computed from such a value: all these are [NonFinite].
    Simplification: infinity divided by itself and a finite number divided by infinity are not told
    apart from it. *)
From Coq Require Import Reals List Permutation.
From Verif Require Import Base Glm GlmSpec Vec Drift Single.
Import ListNotations.
Local Open Scope R_scope.

(** An operation whose exact value is [x]: from 2^127 on, float32 may not hold the result (its limit is
    just below 2^128) and float64 may.  points.py:65. *)
Definition outcome (x : R) (y : num) : Prop :=
  exists z, result x z /\ (y = Num z \/ (2 ^ 127 <= Rabs z /\ y = NonFinite)).
(** Sums of products as [@] may compute them, visual.py:119. *)
Definition fused (x a b : num) (r : num) : Prop :=
  match x, a, b with Num x, Num a, Num b => outcome (x + a * b) r | _, _, _ => r = NonFinite end.
(** A product alone, visual.py:119. *)
Definition times (a b : num) (r : num) : Prop :=
  match a, b with Num a, Num b => outcome (a * b) r | _, _ => r = NonFinite end.
(** Two partial sums, visual.py:119. *)
Definition added (x y : num) (r : num) : Prop :=
  match x, y with Num x, Num y => outcome (x + y) r | _, _ => r = NonFinite end.
(** As [summed] of Single.v, visual.py:119. *)
Inductive sums : list (num * num) -> num -> Prop :=
| sums_one a b r : times a b r -> sums [(a, b)] r
| sums_fused a b l x r : sums l x -> fused x a b r -> sums ((a, b) :: l) r
| sums_parts l m x y r : sums l x -> sums m y -> added x y r -> sums (l ++ m) r
| sums_order l m r : sums l r -> Permutation l m -> sums m r.

(** Four computed numbers, visual.py:119. *)
Record nvec := NV { n0 : num; n1 : num; n2 : num; n3 : num }.
(** A computed matrix, by rows. visual.py:119. *)
Record nmat := NM { r0 : nvec; r1 : nvec; r2 : nvec; r3 : nvec }.
(** Exact numbers among them, visual.py:119. *)
Definition exactly (v : vec4) : nvec := NV (Num (x4 v)) (Num (y4 v)) (Num (z4 v)) (Num (w4 v)).
(** visual.py:119. *)
Definition exactly_all (A : mat) : nmat := NM (exactly (row0 A)) (exactly (row1 A)) (exactly (row2 A)) (exactly (row3 A)).
(** The factors of an item of [A @ B], visual.py:119. *)
Definition factors (a b : nvec) : list (num * num) := [(n0 a, n0 b); (n1 a, n1 b); (n2 a, n2 b); (n3 a, n3 b)].
(** A row of [A @ B] for a [B] that was given, visual.py:119. *)
Definition row_computed (a : nvec) (B : mat) (c : nvec) : Prop :=
  sums (factors a (exactly (row0 (transpose B)))) (n0 c) /\ sums (factors a (exactly (row1 (transpose B)))) (n1 c) /\
  sums (factors a (exactly (row2 (transpose B)))) (n2 c) /\ sums (factors a (exactly (row3 (transpose B)))) (n3 c).
(** [A @ B], visual.py:119. *)
Definition matrix_computed (A : nmat) (B : mat) (C : nmat) : Prop :=
  row_computed (r0 A) B (r0 C) /\ row_computed (r1 A) B (r1 C) /\ row_computed (r2 A) B (r2 C) /\ row_computed (r3 A) B (r3 C).
(** [self._proj @ self._view @ self._model], visual.py:119. *)
Definition transforms (model view proj : mat) (T : nmat) : Prop :=
  exists PV, matrix_computed (exactly_all proj) view PV /\ matrix_computed PV model T.
(** A row of [glm.to_vec4(positions) @ self._transform.T], points.py:65. *)
Definition moves (T : nmat) (p : vec3) (c : nvec) : Prop :=
  sums (factors (r0 T) (exactly (point p))) (n0 c) /\ sums (factors (r1 T) (exactly (point p))) (n1 c) /\
  sums (factors (r2 T) (exactly (point p))) (n2 c) /\ sums (factors (r3 T) (exactly (point p))) (n3 c).
(** A division of gsp_matplotlib/glm/vec234.py:259. *)
Definition quotient_of (a b : num) (r : num) : Prop :=
  match a, b with
  | Num a, Num b => (b = 0 /\ r = NonFinite) \/ (b <> 0 /\ outcome (a / b) r)
  | _, _ => r = NonFinite
  end.
(** points.py:65 for one vertex: its three coordinates. *)
Definition places (model view proj : mat) (p : vec3) (x y z : num) : Prop :=
  exists T c, transforms model view proj T /\ moves T p c /\
    quotient_of (n0 c) (n3 c) x /\ quotient_of (n1 c) (n3 c) y /\ quotient_of (n2 c) (n3 c) z.
(** [1 - positions[:,2]], points.py:69. *)
Definition keyed (z : num) (k : num) : Prop := match z with Num z => outcome (1 - z) k | NonFinite => k = NonFinite end.
(** [-positions[:,:,2].mean(axis=1)], segments.py:69, and [-p[...,2].mean()], paths.py:108 and
    polygons.py:104, of at least one depth. *)
Definition averaged (zs : list num) (k : num) : Prop :=
  exists t, sums (map (fun z => (z, Num 1)) zs) t /\
    match t with
    | Num t => exists m, outcome (t / INR (length zs)) m /\ k = match m with Num m => Num (- m) | NonFinite => NonFinite end
    | NonFinite => k = NonFinite
    end.
