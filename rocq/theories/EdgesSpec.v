(** Vocabulary for the place of viewports in floating point. *)
From Coq Require Import Reals ZArith.
Local Open Scope R_scope.

(** A canvas from one pixel to a million, with a resolution from 1 to 10000. *)
Definition usual (width dpi : R) : Prop := 1 <= width <= 1000000 /\ 1 <= dpi <= 10000.
(** [f] of the canvas is [n] pixels, but for a hundred millionth of a pixel. *)
Definition at_pixel (width f : R) (n : Z) : Prop := Rabs (f * width - IZR n) <= / 10 ^ 8.
