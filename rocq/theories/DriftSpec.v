(** Vocabulary for the trackball in floating point. *)
From Coq Require Import Reals.
From Flocq Require Import Core.
From Verif Require Import Base Glm GlmSpec Trackball TrackballSpec Drift.
Local Open Scope R_scope.

(** A value as good as C libraries give: within two units in the last place (four times the
    error of a rounding), or the smallest number there is. *)
Definition good (exact given : R) : Prop := Rabs (given - exact) <= / 2 ^ 51 * Rabs exact + bpow radix2 (-1074).
Definition good_library (L : libm) : Prop :=
  (forall x, good (sin x) (m_sin L x)) /\ (forall x, good (cos x) (m_cos L x)) /\
  (forall t, -1 <= t <= 1 -> good (asin t) (m_asin L t)).

(** The pointer is and comes within a hundred units of the centre of the view. *)
Definition on_screen (a : action) : Prop :=
  match a with
  | Drag x y dx dy => Rabs x <= 100 /\ Rabs y <= 100 /\ Rabs (x + dx) <= 100 /\ Rabs (y + dy) <= 100
  | _ => True
  end.
(** A drag that stays inside the view, across at most nine tenths of the ball's diameter, or an
    angle that is assigned. *)
Definition inside (a : action) : Prop :=
  match a with
  | Drag x y dx dy => Rabs x <= 1 /\ Rabs y <= 1 /\ Rabs (x + dx) <= 1 /\ Rabs (y + dy) <= 1 /\ drag_length x y dx dy <= 9 / 10
  | SetTheta _ | SetPhi _ => True
  | ReadTheta | ReadPhi => False
  end.
(** A matrix that turns what it is given, up to [e]. *)
Definition nearly_rotation (e : R) (m : mat) : Prop := exists m', rotation m' /\ near e m m'.
(** How far a matrix sends a point. *)
Definition image (m : mat) (p : vec3) : vec3 :=
  let v := apply4 m (point p) in V3 (x4 v) (y4 v) (z4 v).

(** A library whose results are the nearest binary64 numbers. *)
Definition correct_library : libm := mkLibm (fun x => rnd (sin x)) (fun x => rnd (cos x)) (fun x => rnd (asin x)) (fun x => rnd (atan x)).
