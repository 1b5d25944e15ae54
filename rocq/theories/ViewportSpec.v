(** Vocabulary for the properties of viewports and of the camera's zoom. *)
From Verif Require Import Base Measure Viewport.
Local Open Scope Qc_scope.

(** The size of the canvas now, in pixels. *)
Definition canvas_w (v : viewport) : Qc := fst (size (p_fig v)).
Definition canvas_h (v : viewport) : Qc := snd (size (p_fig v)).
(** Where the viewport is: fractions of the canvas, from the bottom left. *)
Definition left (v : viewport) : Qc := let '(x, _, _, _) := p_pos v in x.
Definition bottom (v : viewport) : Qc := let '(_, y, _, _) := p_pos v in y.
Definition wide (v : viewport) : Qc := let '(_, _, w, _) := p_pos v in w.
Definition high (v : viewport) : Qc := let '(_, _, _, h) := p_pos v in h.
(** What a coordinate asks for, in pixels, along a side of [s] pixels. *)
Definition asks (f : fig) (s : Qc) (c : coord) (px : Qc) : Prop :=
  match c with
  | CInt n => px = zq n
  | CFloat x => px = x * s
  | CTrans g => exists r, g (mkVars None None (Some (mkCanvas (f_dpi f) (size f))) (Some (s, s))) = Ok r /\ px = r * s
  end.
Definition zero (c : coord) : Prop := c = CInt 0 \/ c = CFloat 0.
(** A measure [n * unit()], and [a + n * unit()]. *)
Definition measure (u : unit_of) (n : Qc) : coord :=
  CTrans (fun v => match evaluate u v (Some (Num n)) with
                   | Ok (Num r) => Ok r
                   | Ok _ => Err TypeError
                   | Err e => Err e
                   end).
Definition plus_measure (a : Qc) (u : unit_of) (n : Qc) : coord :=
  CTrans (fun v => match evaluate u v (Some (Num n)) with
                   | Ok (Num r) => Ok (a + r)
                   | Ok _ => Err TypeError
                   | Err e => Err e
                   end).
(** What is seen of a viewport: where it is and which part of the scene it shows. *)
Definition seen (v : viewport) := (p_pos v, p_xlim v, p_ylim v).
(** How many units of the scene it shows in each direction. *)
Definition span_x (v : viewport) : Qc := snd (p_xlim v) - fst (p_xlim v).
Definition span_y (v : viewport) : Qc := snd (p_ylim v) - fst (p_ylim v).
(** One unit is as many pixels long in both directions. *)
Definition square_units (v : viewport) : Prop :=
  span_x v * (high v * canvas_h v) = span_y v * (wide v * canvas_w v).
(** The scene's origin is in the middle. *)
Definition centred (v : viewport) : Prop :=
  fst (p_xlim v) = - snd (p_xlim v) /\ fst (p_ylim v) = - snd (p_ylim v).
Definition landscape (v : viewport) : Prop := high v * canvas_h v < wide v * canvas_w v.
Definition positive (v : viewport) : Prop := 0 < wide v * canvas_w v /\ 0 < high v * canvas_h v.

Definition is_resize (e : event) : bool := match e with Resize _ => true | _ => false end.
Definition is_scroll (e : event) : bool := match e with Scroll _ _ => true | _ => false end.
(** Resizes keep the canvas larger than nothing. *)
Definition proper (e : event) : Prop := match e with Resize (a, b) => 0 < a /\ 0 < b | _ => True end.
(** A length greater than nothing, in pixels or as a fraction. *)
Definition some_length (c : coord) : Prop :=
  match c with CInt n => (0 < n)%Z | CFloat x => 0 < x | CTrans _ => False end.
Definition plain (c : coord) : Prop := match c with CTrans _ => False | _ => True end.
Definition within_limits (z : Qc) : Prop := zoom_min <= z /\ z <= zoom_max.
(** The same place said in pixels and as a fraction. *)
Definition same_spot (s : Qc) (c c' : coord) : Prop := c = c' \/ exists n, c = CInt n /\ c' = CFloat (zq n / s).
(** What is seen, or the error. *)
Definition outcome (r : res viewport) : res ((Qc * Qc * Qc * Qc) * (Qc * Qc) * (Qc * Qc)) :=
  match r with Ok v => Ok (seen v) | Err e => Err e end.
(** How many pixels long a unit is. *)
Definition pixels_per (u : unit_of) (dpi : Qc) : Qc :=
  match u with
  | Pixel => 1
  | Inch => dpi
  | Point => dpi / zq 72
  | Centimeter => dpi / q 254 100
  | Millimeter => dpi / q 254 10
  | Meter => dpi / q 254 10000
  | Kilometer => dpi / q 254 10000000
  end.
(** The number written in the program, up to its rounding. *)
Definition tenth_off (c x : Qc) : Prop := c - x <= q 1 1000000000000000 /\ x - c <= q 1 1000000000000000.
