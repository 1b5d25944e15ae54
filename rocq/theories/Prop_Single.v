(** C121: pictures in floating point. *)
From Coq Require Import Reals Lra List.
From Verif Require Import Base Glm GlmSpec Trackball TrackballSpec Drift DriftSpec DriftRound DriftFacts Viewport Vec Picture PictureSpec Single SingleSpec SingleFacts.
Import ListNotations.
Local Open Scope R_scope.

(** However long the view was turned, and however numpy orders and rounds its sums, a vertex of a
    scene within the cube is placed within a hundred thousandth of where the exact camera, turned
    by an exact rotation, places it. *)
Theorem C121_close L theta phi l : good_library L -> Forall on_screen l ->
  exists b b' m proj, fnew L theta phi = Ok b /\ facts L b l = Ok b' /\ rotation m /\ near (/ 10 ^ 7) (t_model b') m /\
    perspective 35 1 1 100 false = Ok proj /\
    forall s view' proj' p q, / 1000 <= s <= 1000 -> in_cube s p -> stored (camera_view s) view' -> stored proj proj' ->
      placed_computed (transpose (t_model b')) view' proj' p q ->
      within (/ 10 ^ 5) q (exact_place (clip (transpose m) (camera_view s) proj p)).
Proof. exact (picture_close L theta phi l). Qed.
Print Assumptions C121_close.
(** On the canvas: within a hundredth of a pixel, in viewports of up to 2000 pixels. *)
Theorem C121_pixels L theta phi l : good_library L -> Forall on_screen l ->
  exists b b' m proj, fnew L theta phi = Ok b /\ facts L b l = Ok b' /\ rotation m /\ near (/ 10 ^ 7) (t_model b') m /\
    perspective 35 1 1 100 false = Ok proj /\
    forall v s view' proj' p q, usable v -> Rabs (unit_x v) <= 1000 -> Rabs (unit_y v) <= 1000 ->
      / 1000 <= s <= 1000 -> in_cube s p -> stored (camera_view s) view' -> stored proj proj' ->
      placed_computed (transpose (t_model b')) view' proj' p q ->
      exists x y x' y', on_canvas v (Vec.Num (x3 q)) (Vec.Num (y3 q)) = Some (x, y) /\
        spot v (clip (transpose m) (camera_view s) proj p) = Some (x', y') /\ Rabs (x - x') <= / 100 /\ Rabs (y - y') <= / 100.
Proof. exact (picture_pixels L theta phi l). Qed.
Print Assumptions C121_pixels.
(** Of two vertices, the one that is farther from the eye by a thousandth gets the larger depth and
    is sorted first: rounding never puts it in front. *)
Theorem C121_order L theta phi l : good_library L -> Forall on_screen l ->
  exists b b' m proj, fnew L theta phi = Ok b /\ facts L b l = Ok b' /\ rotation m /\ near (/ 10 ^ 7) (t_model b') m /\
    perspective 35 1 1 100 false = Ok proj /\
    forall s view' proj' p p' q q' k k', / 1000 <= s <= 1000 -> in_cube s p -> in_cube s p' -> stored (camera_view s) view' -> stored proj proj' ->
      placed_computed (transpose (t_model b')) view' proj' p q -> placed_computed (transpose (t_model b')) view' proj' p' q' ->
      sort_key q k -> sort_key q' k' ->
      - z4 (eye (transpose m) (camera_view s) p) + / 1000 <= - z4 (eye (transpose m) (camera_view s) p') ->
      z3 q < z3 q' /\ k' < k.
Proof. exact (picture_order L theta phi l). Qed.
Print Assumptions C121_order.
(** The number divided by is never zero, nor negative. *)
Theorem C121_finite L theta phi l : good_library L -> Forall on_screen l -> exists b b', fnew L theta phi = Ok b /\ facts L b l = Ok b' /\
  forall s view proj view' proj' p T c, / 1000 <= s <= 1000 -> in_cube s p -> perspective 35 1 1 100 false = Ok proj ->
    view = camera_view s -> stored view view' -> stored proj proj' ->
    transform_computed (transpose (t_model b')) view' proj' T -> moved T p c -> 0 < w4 c.
Proof. exact (picture_finite L theta phi l). Qed.
Print Assumptions C121_finite.
(** With any matrices, each homogeneous coordinate is off by at most a millionth of what the same
    products give when all signs are dropped. *)
Theorem C121_any_matrices model view proj p T c : mbig 1000 model -> mbig 1000 view -> big 1000 (point p) ->
  transform_computed model view proj T -> moved T p c ->
  let e := clip model view proj p in let w := clip (mabs model) (mabs view) (mabs proj) (pabs p) in
  millionth (x4 c) (x4 e) (x4 w) /\ millionth (y4 c) (y4 e) (y4 w) /\ millionth (z4 c) (z4 e) (z4 w) /\ millionth (w4 c) (w4 e) (w4 w).
Proof. exact (any_matrices model view proj p T c). Qed.
Print Assumptions C121_any_matrices.
(** Any such sum of [n] products is off by at most [(1 + 2^-24)^n - 1] of the sum of their absolute
    values, and what is below the smallest numbers. *)
Theorem C121_sums l r : summed l r -> Rabs (r - total l) <= ((1 + / 16777216) ^ length l - 1) * weight l + 4 ^ length l * / 10 ^ 30.
Proof. exact (summed_err l r). Qed.
Print Assumptions C121_sums.
(** All this is about something: the matrices can be stored, and every product computed. *)
Theorem C121_computed s model view proj p : / 1000 <= s ->
  (stored (camera_view s) (single (camera_view s)) /\ forall proj, perspective 35 1 1 100 false = Ok proj -> stored proj (single proj)) /\
  exists T c, transform_computed model view proj T /\ moved T p c /\ (w4 c <> 0 -> exists q, divided c q).
Proof. intros S. exact (conj (single_stored s S) (always_computed model view proj p)). Qed.
Print Assumptions C121_computed.
Example C121_case b s model view proj : camera_mats b 5 s = Ok (model, view, proj) ->
  view = camera_view s /\ model = transpose (t_model b) /\ perspective 35 1 1 100 false = Ok proj.
Proof. exact (camera_view_mats b s model view proj). Qed.
Example C121_corner : good_library correct_library /\
  Forall on_screen [Trackball.Drag (1 / 2) (-1 / 4) (1 / 64) (3 / 32); SetTheta 400; Trackball.Drag 90 (-100) 0 (1 / 1000)] /\
  in_cube 2 (V3 (1 / 2) (- 1 / 2) (1 / 3)) /\ ~ in_cube 2 (V3 1 0 0) /\
  ~ within (/ 10 ^ 5) (V3 0 0 0) (V3 0 0 (1 / 1000)).
Proof.
  split; [exact correct_good|]. split.
  { repeat apply Forall_cons; try apply Forall_nil; cbn [on_screen]; try exact Logic.I; repeat split; apply Rabs_le; lra. }
  unfold in_cube, within. cbn [x3 y3 z3]. repeat split; try (apply Rabs_le; lra).
  - intros (H & _). apply Rabs_le_iff in H. lra.
  - intros (_ & _ & H). apply Rabs_le_iff in H. cbn [pow] in H. lra.
Qed.
Example C121_any_case : let model := Mat (V4 0 (-1) 0 3) (V4 1 0 0 (-20)) (V4 0 0 2 0) (V4 0 0 0 1) in
  mbig 1000 model /\ mbig 1000 (camera_view 4) /\ big 1000 (point (V3 7 (-8) 900)) /\
  (forall proj, exists T c, transform_computed model (camera_view 4) proj T /\ moved T (V3 7 (-8) 900) c) /\
  x4 (apply4 (mabs model) (point (pabs (V3 7 (-8) 900)))) = 11 /\ x4 (apply4 model (point (V3 7 (-8) 900))) = 11 /\
  ~ millionth 11 (11 + / 1000) 11.
Proof.
  cbv zeta. unfold mbig, big, camera_view, point, mabs, vabs, pabs, apply4, dot4, millionth. cbn [row0 row1 row2 row3 x4 y4 z4 w4 x3 y3 z3].
  split; [repeat split; apply Rabs_le; lra|]. split; [repeat split; apply Rabs_le; lra|]. split; [repeat split; apply Rabs_le; lra|].
  split. { intros proj. destruct (always_computed (Mat (V4 0 (-1) 0 3) (V4 1 0 0 (-20)) (V4 0 0 2 0) (V4 0 0 0 1)) (camera_view 4) proj (V3 7 (-8) 900)) as (T & c & A & B & _). exists T, c. split; [exact A|exact B]. }
  split. { rewrite !Rabs_R0, (Rabs_left (-1)), (Rabs_left (-8)), !Rabs_right by lra. lra. }
  split; [lra|]. intros H. apply Rabs_le_iff in H. cbn [pow] in H. lra.
Qed.
