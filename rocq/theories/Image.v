(** The raw image of a canvas.  Models gsp_matplotlib/core/canvas.py: __init__
    (16-37), size (40-45), render (48-58), and what matplotlib makes of a figure
    so many inches wide: as many pixels as the whole part of inches times dpi.

    Simplifications: sizes and dpi are positive, and whole numbers unless the size
    comes from a measure; arithmetic is that of 64-bit floating-point numbers
    without overflow or underflow; a picture is its shape. *)
From Verif Require Import Base.
Local Open Scope Z_scope.

(** The nearest whole number to n/d, the even one of two.
    IEEE 754 rounding, for the divisions and products of canvas.py:33-34 and 45. *)
Definition near (n d : Z) : Z :=
  let q := n / d in let r := n mod d in
  if 2 * r <? d then q else if d <? 2 * r then q + 1 else if Z.even q then q else q + 1.

(** How many places to shift n/d to the left (to the right when negative) to get a
    whole part of 53 bits. For [fl] below. *)
Definition up (s : Z) : Z := 2 ^ Z.max 0 s.
(** The shift to the right, for [fl] below. *)
Definition down (s : Z) : Z := 2 ^ Z.max 0 (- s).
(** How far to shift n/d for a whole part of 53 bits, for [fl] below. *)
Definition places (n d : Z) : Z :=
  let s := 52 + Z.log2 d - Z.log2 n in
  if n * up s <? 2 ^ 52 * (d * down s) then s + 1 else s.
(** The floating-point number nearest to n/d, as a fraction.
    One floating-point operation of canvas.py:33-34 and 45. *)
Definition fl (n d : Z) : Z * Z :=
  let s := places n d in (near (n * up s) (d * down s) * down s, up s).

(** canvas.py:33-34, [width / dpi]. *)
Definition inches (width dpi : Z) : Z * Z := fl width dpi.
(** size, canvas.py:40-45: [get_size_inches() * dpi]. *)
Definition size (width dpi : Z) : Z * Z := let '(n, d) := inches width dpi in fl (n * dpi) d.
(** The columns (or rows) of pixels of the figure.
    What savefig writes at the canvas's dpi, canvas.py:48-57. *)
Definition pixels (width dpi : Z) : Z := let '(n, d) := size width dpi in n / d.

(** A length: a whole number of pixels or the value of a measure, canvas.py:22-25. *)
Inductive extent := Whole (n : Z) | Measured (n d : Z).
(** canvas.py:22-34 and 48-57. *)
Definition figure_pixels (x : extent) (dpi : Z) : Z :=
  match x with
  | Whole n => pixels n dpi
  | Measured n d => let '(a, b) := fl n (d * dpi) in let '(a, b) := fl (a * dpi) b in a / b
  end.
(** [data.reshape(height, width, -1)], canvas.py:55, for four bytes per pixel. *)
Definition raw_image (width height : extent) (dpi : Z) : res (Z * Z * Z) :=
  let bytes := 4 * figure_pixels width dpi * figure_pixels height dpi in
  match width, height with
  | Whole w, Whole h => if bytes mod (h * w) =? 0 then Ok (h, w, bytes / (h * w)) else Err ValueError
  | _, _ => Err TypeError
  end.
