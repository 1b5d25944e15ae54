(** Vocabulary for sizes that follow the zoom in floating point. *)
From Coq Require Import Reals List.
Local Open Scope R_scope.

(** The square of the C library is right but for the last digit, for any zoom there may be. *)
Definition good_square (square : R -> R) : Prop := forall z, / 100 <= z <= 10 -> Rabs (square z - z * z) <= / 2 ^ 52 * (z * z).
(** It does not turn the order of numbers around. *)
Definition rising (square : R -> R) : Prop := forall a b, 0 < a -> a <= b -> square a <= square b.
(** A size or a width one would give to points. *)
Definition sensible (b : R) : Prop := / 1000 <= b <= 1000000.
(** As near as single precision allows, but for a factor of two. *)
Definition beside (x y : R) : Prop := Rabs (y - x) <= / 2 ^ 23 * x.
