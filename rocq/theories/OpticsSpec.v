(** Vocabulary for the matrices in floating point. *)
From Coq Require Import Reals.
From Verif Require Import Base Drift DriftSpec.
Local Open Scope R_scope.

(** A tangent as good as C libraries give, on half the angles that views open. *)
Definition good_tangent (tangent : R -> R) : Prop := forall x, 0 <= x <= 1 -> good (tan x) (tangent x).
(** Limits of a view along an axis: apart, and around zero or around something that is not tiny. *)
Definition sides (a b : R) : Prop :=
  / 10 ^ 6 <= Rabs (b - a) <= 10 ^ 6 /\ (b + a = 0 \/ / 10 ^ 6 <= Rabs (b + a)).
