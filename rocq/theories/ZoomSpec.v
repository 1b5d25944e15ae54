(** Vocabulary for the zoom in floating point. *)
From Coq Require Import Reals List.
From Verif Require Import Base Zoom.
From Verif Require Viewport.
Import ListNotations.
Local Open Scope R_scope.

(** Between the limits. *)
Definition limited (z : R) : Prop := least <= z <= most.
(** A viewport has from a thousandth of a pixel to a million of them in each direction. *)
Definition sizes_ok (e : happening) : Prop :=
  match e with Resized w h => / 1000 <= w <= 1000000 /\ / 1000 <= h <= 1000000 | _ => True end.
(** The height of the viewport as a multiple of its width, as of the last resize. *)
Definition proportion (s : R) (e : happening) : R := match e with Resized w h => h / w | _ => s end.
(** How often the limits have been set since the last resize. *)
Definition settings (n : nat) (e : happening) : nat := match e with Resized _ _ => 0 | _ => S n end.
(** The zoom without rounding: a factor for each turn of the wheel inside the axes of a connected
    camera, never beyond the limits. *)
Definition turn (z : R) (b : Viewport.button) : R :=
  match b with Viewport.Up => Rmax (inward * z) least | Viewport.Down => Rmin (outward * z) most | Viewport.OtherButton => z end.
Fixpoint turns (c : bool) (z : R) (l : list happening) : R :=
  match l with
  | [] => z
  | Connected :: l => turns true z l
  | Wheel true b :: l => turns c (if c then turn z b else z) l
  | _ :: l => turns c z l
  end.
(** No resize, or no connection either. *)
Definition no_resize (e : happening) : Prop := match e with Resized _ _ => False | _ => True end.
(** The camera has been connected. *)
Definition connects (e : happening) : bool := match e with Connected => true | _ => false end.
(** How far the axes reach after an event: a resize shows the zoom on the shorter side of the
    viewport, connecting and zooming show it from left to right. *)
Definition reach (zoom : R) (connected : bool) (x y : R) (e : happening) : Prop :=
  match e with
  | Resized w h => (h < w -> y = if connected then zoom else 1) /\ (w <= h -> x = if connected then zoom else 1)
  | Connected => x = zoom
  | Wheel inside _ => inside = true -> connected = true -> x = zoom
  end.
