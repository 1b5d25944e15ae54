(** Vocabulary for lengths in units on the screen. *)
From Coq Require Import Reals.
From Verif Require Import Base Slice Measure Viewport ViewportSpec Camera Glm Vec Render Trackball Picture PictureSpec Outline Drag Live LiveSpec Fixed.
Local Open Scope R_scope.

(** Positions as given, each three numbers, and their rows. *)
Definition triples (qs : list (Qc * Qc * Qc)) : list (list Qc) := map (fun '(x, y, z) => [x; y; z]) qs.
(** How many pixels long a unit is on the canvas of a viewport. *)
Definition long (u : unit_of) (v : Viewport.viewport) : R := inR (pixels_per u (f_dpi (p_fig v))).
(** So many units to the right of the middle of the viewport, and so many above it. *)
Definition fixed (u : unit_of) (v : Viewport.viewport) (q : Qc * Qc * Qc) : option (R * R) :=
  let '(x, y, _) := q in Some (fst (middle v) + long u v * inR x, snd (middle v) + long u v * inR y).
(** [k] times as far. *)
Definition fixed_times (k : R) (u : unit_of) (v : Viewport.viewport) (q : Qc * Qc * Qc) : option (R * R) :=
  let '(x, y, _) := q in Some (fst (middle v) + k * (long u v * inR x), snd (middle v) + k * (long u v * inR y)).
(** Where in the scene this is: as many units of the scene as take these pixels in this viewport, at depth 0. *)
Definition in_scene (u : unit_of) (v : Viewport.viewport) (q : Qc * Qc * Qc) : vec3 :=
  let '(x, y, _) := q in V3 (long u v * inR x / unit_x v) (long u v * inR y / unit_y v) 0.
(** Units whose length is right. *)
Definition right_length (u : unit_of) : Prop := u <> Meter.
(** The second square of that example, 256 pixels wide and high: examples/segments-fixed-size.py:38-41. *)
Definition square_of (n : Z) : list (list (Qc * Qc * Qc)) :=
  let a := zq n in let b := zq (- n) in let o := zq 0 in
  [[(b, b, o); (b, a, o)]; [(b, a, o); (a, a, o)]; [(a, a, o); (a, b, o)]; [(a, b, o); (b, b, o)]].
