(** C125: the matrices of glm in floating point. *)
From Coq Require Import Reals Lra List.
From Flocq Require Import Core.
From Verif Require Import Base Glm GlmSpec Trackball TrackballSpec Drift DriftSpec DriftRound DriftFacts Viewport Picture PictureSpec Single SingleSpec SingleFacts Optics OpticsSpec OpticsFacts.
Import ListNotations.
Local Open Scope R_scope.

(** Every entry of a perspective matrix is the exact one up to one part in 2^23, whatever the
    opening between 1 and 110 degrees, the aspect and the distances. *)
Theorem C125_perspective T fovy aspect n f t : good_tangent T -> 1 <= fovy <= 110 -> / 1000 <= aspect <= 1000 -> / 10 ^ 6 <= n -> n + / 10 ^ 6 <= f <= 10 ^ 6 ->
  exists A B, perspective fovy aspect n f t = Ok A /\ fperspective T fovy aspect n f t = Ok B /\ stored A B.
Proof. exact (perspective_stored T fovy aspect n f t). Qed.
Print Assumptions C125_perspective.
(** So is every entry of an orthographic one. *)
Theorem C125_ortho l r b t n f tr : sides l r -> sides b t -> sides n f ->
  exists A B, ortho l r b t n f tr = Ok A /\ fortho l r b t n f tr = Ok B /\ stored A B.
Proof. exact (ortho_stored l r b t n f tr). Qed.
Print Assumptions C125_ortho.
(** And those of scalings and translations. *)
Theorem C125_scale_translate v t : (forall x, In x [x3 v; y3 v; z3 v] -> x = 0 \/ / 10 ^ 20 <= Rabs x) ->
  stored (scale v t) (fscale v t) /\ stored (translate v t) (ftranslate v t).
Proof. exact (scale_translate_stored v t). Qed.
Print Assumptions C125_scale_translate.
(** Rotations about the axes, by up to a million degrees, differ from the exact ones by at most
    0.00000011. *)
Theorem C125_rotations L t tr : good_library L -> Rabs t <= 10 ^ 6 ->
  near (11 / 10 ^ 8) (fxrotate L t tr) (xrotate t tr) /\ near (11 / 10 ^ 8) (fyrotate L t tr) (yrotate t tr) /\ near (11 / 10 ^ 8) (fzrotate L t tr) (zrotate t tr).
Proof. exact (rotations_near L t tr). Qed.
Print Assumptions C125_rotations.
(** The view of the camera holds its scale and its distance as stored, exactly: no order of
    summation in the product changes a bit of it. *)
Theorem C125_view zdist s V : camera_view_computed zdist s V ->
  V = Mat (V4 (rnd32 s) 0 0 0) (V4 0 (rnd32 s) 0 0) (V4 0 0 (rnd32 s) (rnd32 (- zdist))) (V4 0 0 0 1).
Proof. exact (view_exact zdist s V). Qed.
Print Assumptions C125_view.
(** So the view and the projection that the camera computes are stored in the sense that C121 to
    C124 ask for. *)
Theorem C125_camera T s V : good_tangent T -> / 1000 <= s -> camera_view_computed 5 s V ->
  stored (camera_view s) V /\ exists A B, perspective 35 1 1 100 false = Ok A /\ camera_proj_computed T = Ok B /\ stored A B.
Proof. exact (camera_stored T s V). Qed.
Print Assumptions C125_camera.
(** With the matrices that the camera computes, after any history, every vertex is placed within a
    hundred thousandth of where the exact camera places it. *)
Theorem C125_close L T theta phi l : good_library L -> good_tangent T -> Forall on_screen l ->
  exists b b' m proj proj', fnew L theta phi = Ok b /\ facts L b l = Ok b' /\ rotation m /\ near (/ 10 ^ 7) (t_model b') m /\
    perspective 35 1 1 100 false = Ok proj /\ camera_proj_computed T = Ok proj' /\
    forall s view' p q, / 1000 <= s <= 1000 -> in_cube s p -> camera_view_computed 5 s view' ->
      placed_computed (transpose (t_model b')) view' proj' p q ->
      within (/ 10 ^ 5) q (exact_place (clip (transpose m) (camera_view s) proj p)).
Proof. exact (optics_close L T theta phi l). Qed.
Print Assumptions C125_close.
(** On the canvas: within a hundredth of a pixel, in viewports of up to 2000 pixels. *)
Theorem C125_pixels L T theta phi l : good_library L -> good_tangent T -> Forall on_screen l ->
  exists b b' m proj proj', fnew L theta phi = Ok b /\ facts L b l = Ok b' /\ rotation m /\ near (/ 10 ^ 7) (t_model b') m /\
    perspective 35 1 1 100 false = Ok proj /\ camera_proj_computed T = Ok proj' /\
    forall v s view' p q, usable v -> Rabs (unit_x v) <= 1000 -> Rabs (unit_y v) <= 1000 ->
      / 1000 <= s <= 1000 -> in_cube s p -> camera_view_computed 5 s view' ->
      placed_computed (transpose (t_model b')) view' proj' p q ->
      exists x y x' y', on_canvas v (Vec.Num (x3 q)) (Vec.Num (y3 q)) = Some (x, y) /\
        spot v (clip (transpose m) (camera_view s) proj p) = Some (x', y') /\ Rabs (x - x') <= / 100 /\ Rabs (y - y') <= / 100.
Proof. exact (optics_pixels L T theta phi l). Qed.
Print Assumptions C125_pixels.
(** The limits matter: when the near distance is 2^-160, the entry that tells depths apart is
    stored as zero. *)
Theorem C125_any_near_refuted : exists n A B, 0 < n < 1 /\ frustum (-1) 1 (-1) 1 n 1 false = Ok A /\ ffrustum (-1) 1 (-1) 1 n 1 false = Ok B /\
  w4 (row2 A) < 0 /\ w4 (row2 B) = 0 /\ ~ stored A B.
Proof. exact near_refuted. Qed.
Print Assumptions C125_any_near_refuted.

(** Correctly rounded libraries are good, the limits of the cameras are within those above, views
    can be computed, and being stored is not trivial. *)
Example C125_case : good_tangent (fun x => rnd (tan x)) /\ good_library correct_library /\ sides (-1) 1 /\ sides 1 100 /\
  (exists A B, ortho (-1) 1 (-1) 1 1 100 false = Ok A /\ fortho (-1) 1 (-1) 1 1 100 false = Ok B /\ stored A B) /\
  (exists V, camera_view_computed 5 2 V) /\ ~ held 1 (1 + / 10 ^ 6) /\ held 1 (1 + / 2 ^ 23).
Proof.
  assert (S1 : sides (-1) 1) by (unfold sides; rewrite Rabs_pos_eq by lra; cbn [pow]; lra).
  assert (S2 : sides 1 100) by (unfold sides; rewrite !Rabs_pos_eq by lra; cbn [pow]; lra).
  split; [exact rounded_tangent|]. split; [exact correct_good|]. split; [exact S1|]. split; [exact S2|].
  split; [exact (ortho_stored _ _ _ _ _ _ false S1 S1 S2)|]. split; [apply product_exists|]. unfold held. rewrite Rabs_R1. split.
  - intros H. apply DriftRound.Rabs_le_iff in H. cbn [pow] in H. lra.
  - apply Rabs_le. cbn [pow]. lra.
Qed.
