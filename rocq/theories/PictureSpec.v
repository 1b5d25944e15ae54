(** Vocabulary for where vertices appear. *)
From Coq Require Import Reals Permutation.
From Verif Require Import Base Measure Viewport ViewportSpec Glm GlmSpec Vec VecSpec Render RenderSpec Picture.
Local Open Scope R_scope.

(** What numpy promises of argsort: a permutation of the indices that puts the
    finite numbers in order. *)
Definition sorts_numbers (argsort : list num -> list nat) : Prop :=
  forall l, Permutation (argsort l) (seq 0 (length l)) /\
    forall i j a b x y, (i < j)%nat -> nth_error (argsort l) i = Some a -> nth_error (argsort l) j = Some b ->
      nth_error l a = Some (Num x) -> nth_error l b = Some (Num y) -> x <= y.

(** An array holds these points: the numbers in order, in any shape. *)
Definition holds (V : arr) (ps : list vec3) : Prop :=
  exists l, elements (a_data V) = map Num (concat l) /\ Forall2 triple l ps /\ suits (a_kind V) l.
(** The same with three columns. *)
Definition lists (V : arr) (ps : list vec3) : Prop :=
  exists k l, V = table k 3 l /\ Forall2 triple l ps /\ suits k l.

(** A vertex seen by the eye, and after the projection, in homogeneous coordinates. *)
Definition eye (model view : mat) (p : vec3) : vec4 := apply4 view (apply4 model (point p)).
Definition clip (model view proj : mat) (p : vec3) : vec4 := apply4 proj (eye model view p).
(** Affine matrices leave the fourth coordinate. *)
Definition affine (m : mat) : Prop := row3 m = V4 0 0 0 1.

(** The middle of a viewport and its sides, in pixels from the bottom left of the canvas;
    the pixels one unit of the scene takes in each direction. *)
Definition side_x (v : Viewport.viewport) : R := inR (wide v * canvas_w v)%Qc.
Definition side_y (v : Viewport.viewport) : R := inR (high v * canvas_h v)%Qc.
Definition middle (v : Viewport.viewport) : R * R :=
  (inR (left v * canvas_w v)%Qc + side_x v / 2, inR (bottom v * canvas_h v)%Qc + side_y v / 2).
Definition unit_x (v : Viewport.viewport) : R := side_x v / inR (span_x v).
Definition unit_y (v : Viewport.viewport) : R := side_y v / inR (span_y v).
(** Where homogeneous coordinates are drawn: perspective division, and as many units from
    the middle.  Nowhere when at infinity. *)
Definition spot (v : Viewport.viewport) (c : vec4) : option (R * R) :=
  if Req_EM_T (w4 c) 0 then None
  else Some (fst (middle v) + unit_x v * (x4 c / w4 c), snd (middle v) + unit_y v * (y4 c / w4 c)).
(** A viewport that shows something. *)
Definition usable (v : Viewport.viewport) : Prop := centred v /\ span_x v <> Q2Qc 0 /\ span_y v <> Q2Qc 0.

(** In [order], everything drawn later is not farther (not nearer): [z] is the depth of
    an item, for those that have one. *)
Definition covers (z : nat -> option R) (order : list nat) : Prop :=
  forall i j a b x y, (i < j)%nat -> nth_error order i = Some a -> nth_error order j = Some b ->
    z a = Some x -> z b = Some y -> y <= x.
(** The depth after the division, for vertices not at infinity. *)
Definition depth (c : vec4) : option R := if Req_EM_T (w4 c) 0 then None else Some (z4 c / w4 c).
(** The distance from the eye, along the line of sight, of the vertices in front of it. *)
Definition ahead (c : vec4) : option R := if Rlt_dec (z4 c) 0 then Some (- z4 c) else None.
Definition depth_in (f : vec3 -> option R) (ps : list vec3) (j : nat) : option R :=
  match nth_error ps j with Some p => f p | None => None end.
Definition mirrored (c d : vec4) : Prop := x4 d = - x4 c /\ y4 d = - y4 c /\ z4 d = - z4 c /\ w4 c = 1 /\ w4 d = 1.

(** Half the angle of view of the camera. *)
Definition half_angle : R := radians 35 / 2.

(** A pixel inside the viewport. *)
Definition in_viewport (v : Viewport.viewport) (s : option (R * R)) : Prop :=
  exists x y, s = Some (x, y) /\
    inR (left v * canvas_w v)%Qc <= x <= inR (left v * canvas_w v)%Qc + side_x v /\
    inR (bottom v * canvas_h v)%Qc <= y <= inR (bottom v * canvas_h v)%Qc + side_y v.
