(** Vocabulary for points whose sizes follow the zoom. *)
From Coq Require Import Reals.
From Verif Require Import Base Slice Measure Viewport Camera Glm Vec Render Trackball Picture PictureSpec Outline Drag Live LiveSpec Sized.
Local Open Scope R_scope.

(** A place becomes another one [k] times as far from the middle, in its direction. *)
Definition magnified (k : R) (m : R * R) (p q : option (R * R)) : Prop :=
  match p, q with
  | Some (a, b), Some (a', b') => a' - fst m = k * (a - fst m) /\ b' - snd m = k * (b - snd m)
  | None, None => True
  | _, _ => False
  end.
(** The diameter of a point of matplotlib, whose size is the square of it. *)
Definition diameter (size : R) : R := sqrt size.
(** From the middle of the viewport to its right side is as far as the zoom says. *)
Definition aligned (t : Viewport.scene) : Prop := p_xlim (s_view t) = lim (s_zoom t).
(** What a point is drawn with when the zoom is [z]. *)
Definition drawn_with (code : R -> Z) (z base line : R) (face edge : option (list Z)) : list (option (list Z)) :=
  [face; edge; Some [code (line / z)]; Some [code (base / (z * z))]].
(** One size and one width for each base size. *)
Definition as_many (base : list R) (d : tables) : Prop := length (t_sizes d) = length base /\ length (t_widths d) = length base.
