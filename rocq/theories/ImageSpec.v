(** What a 64-bit floating-point number is, and which resolutions are safe. *)
From Verif Require Import Base.
Local Open Scope Z_scope.

(** p/q is m times a power of two, with m below 2^53. *)
Definition double (p q : Z) : Prop :=
  exists m f g, 0 <= m < 2 ^ 53 /\ 0 <= f /\ 0 <= g /\ p * 2 ^ g = q * (m * 2 ^ f).
(** a/b is at least as close to n/d as p/q is. *)
Definition as_close (n d a b p q : Z) : Prop := Z.abs (a * d - n * b) * q <= Z.abs (p * d - n * q) * b.

(** Powers of two and sums of two of them: 64, 72, 96, 128, 144, 160, 192, 288... *)
Definition safe_dpi (dpi : Z) : Prop :=
  (exists i, 0 <= i /\ dpi = 2 ^ i) \/ (exists i j, 0 <= j < i /\ dpi = 2 ^ i + 2 ^ j).
