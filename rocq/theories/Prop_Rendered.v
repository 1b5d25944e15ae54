(** C122: whole pictures in floating point. *)
From Coq Require Import Reals Lra List.
From Verif Require Import Base Glm GlmSpec Trackball TrackballSpec Drift DriftSpec DriftRound DriftFacts Viewport Vec VecSpec Render RenderSpec Picture PictureSpec PictureFacts Single SingleSpec Rendered RenderedSpec RenderedFacts.
Import ListNotations.
Local Open Scope R_scope.

(** Every vertex of Points is drawn once, with its own attributes, within a hundredth of a pixel of
    where exact arithmetic draws it, and nothing is covered by what is farther by a thousandth. *)
Theorem C122_points L theta phi l : good_library L -> Forall on_screen l ->
  exists b b' m proj, fnew L theta phi = Ok b /\ facts L b l = Ok b' /\ rotation m /\ near (/ 10 ^ 7) (t_model b') m /\
    perspective 35 1 1 100 false = Ok proj /\
    forall argsort v s view' proj' ps face edge width size out, sorts_numbers argsort ->
      usable v -> Rabs (unit_x v) <= 1000 -> Rabs (unit_y v) <= 1000 -> / 1000 <= s <= 1000 -> Forall (in_cube s) ps ->
      stored (camera_view s) view' -> stored proj proj' ->
      let n := length ps in
      fits n face -> clear n face -> fits n edge -> clear n edge -> fits n width -> clear n width -> fits_size n size ->
      points_computed argsort v ps (transpose (t_model b')) view' proj' face edge width size out ->
      exists order, visits n order /\ covers_but (/ 1000) (fun p => - z4 (eye (transpose m) (camera_view s) p)) ps order /\
        drawn_beside (/ 100) (fun p => spot v (clip (transpose m) (camera_view s) proj p)) (fun j => [own face j; own edge j; own width j; own size j]) ps order out.
Proof. exact (whole_pictures L theta phi l). Qed.
Print Assumptions C122_points.
(** The same for Pixels, drawn the other way around as C104_pixels_refuted says. *)
Theorem C122_pixels L theta phi l : good_library L -> Forall on_screen l ->
  exists b b' m proj, fnew L theta phi = Ok b /\ facts L b l = Ok b' /\ rotation m /\ near (/ 10 ^ 7) (t_model b') m /\
    perspective 35 1 1 100 false = Ok proj /\
    forall argsort v s view' proj' ps color out, sorts_numbers argsort ->
      usable v -> Rabs (unit_x v) <= 1000 -> Rabs (unit_y v) <= 1000 -> / 1000 <= s <= 1000 -> Forall (in_cube s) ps ->
      stored (camera_view s) view' -> stored proj proj' ->
      fits (length ps) color -> clear (length ps) color ->
      pixels_computed argsort v ps (transpose (t_model b')) view' proj' color out ->
      exists order, visits (length ps) order /\ covers_but (/ 1000) (fun p => z4 (eye (transpose m) (camera_view s) p)) ps order /\
        drawn_beside (/ 100) (fun p => spot v (clip (transpose m) (camera_view s) proj p)) (fun j => [own color j]) ps order out.
Proof. exact (whole_pixels L theta phi l). Qed.
Print Assumptions C122_pixels.
(** Such pictures are drawn: every vertex has a place. *)
Theorem C122_drawn L theta phi l : good_library L -> Forall on_screen l ->
  exists b b' proj, fnew L theta phi = Ok b /\ facts L b l = Ok b' /\ perspective 35 1 1 100 false = Ok proj /\
    forall argsort v s ps face edge width size color, sorts_numbers argsort -> / 1000 <= s <= 1000 -> Forall (in_cube s) ps -> fits_size (length ps) size ->
      stored (camera_view s) (single (camera_view s)) /\ stored proj (single proj) /\
      (exists out, points_computed argsort v ps (transpose (t_model b')) (single (camera_view s)) (single proj) face edge width size out) /\
      exists out, pixels_computed argsort v ps (transpose (t_model b')) (single (camera_view s)) (single proj) color out.
Proof. exact (whole_exist L theta phi l). Qed.
Print Assumptions C122_drawn.

Definition corners : list vec3 := [V3 1 1 1; V3 (-1) 1 (1 / 2); V3 0 (1 / 3) (-1)].
Example C122_case : good_library correct_library /\ Forall on_screen [Trackball.Drag (1 / 2) (-1 / 4) (1 / 64) (3 / 32); SetPhi 30] /\
  sorts_numbers sort_nums /\ Forall (in_cube 1) corners /\ fits_size (length corners) (Render.Rows [[1%Z]; [2%Z]; [3%Z]]) /\
  ~ covers_but (/ 1000) (fun p => - z3 p) corners [0; 1; 2]%nat /\ covers_but (/ 1000) (fun p => - z3 p) corners [2; 1; 0]%nat.
Proof.
  split; [exact correct_good|]. split.
  { repeat apply Forall_cons; try apply Forall_nil; cbn [on_screen]; try exact Logic.I; repeat split; apply Rabs_le; lra. }
  split; [exact sort_nums_sorts|]. split.
  { unfold corners. repeat apply Forall_cons; try apply Forall_nil; unfold in_cube; cbn [x3 y3 z3]; repeat split; apply Rabs_le; lra. }
  split; [reflexivity|]. split.
  - intros H. specialize (H 0%nat 1%nat 0%nat 1%nat _ _ ltac:(auto) eq_refl eq_refl eq_refl eq_refl). cbn [z3] in H. lra.
  - intros [|[|[|i]]] [|[|[|j]]] a b p q L A B P Q; try (exfalso; inversion L; fail); try discriminate; cbn in A, B; try (destruct i; discriminate); try (destruct j; discriminate);
      injection A as <-; injection B as <-; injection P as <-; injection Q as <-; cbn [z3]; try lra; exfalso; repeat match goal with H : (_ < _)%nat |- _ => inversion H; clear H; subst | H : (_ <= _)%nat |- _ => inversion H; clear H; subst end.
Qed.
