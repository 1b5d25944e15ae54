(** Dragging a scene with the mouse: examples/common/camera.py with the trackball of
    gsp_matplotlib/glm/trackball.py.

    Simplifications: as in Camera.v, Trackball.v and Picture.v. *)
From Coq Require Import Reals.
From Verif Require Import Base Measure Glm GlmSpec Trackball Camera Picture.
Local Open Scope R_scope.

(** The model matrix of a camera with a trackball: [self.trackball.model.T].
    examples/common/camera.py:69, 208. *)
Definition shown (b : trackball) : mat := transpose (t_model b).
(** [self.trackball.drag_to(x, y, dx, dy)], camera.py:207, with coordinates of events. *)
Definition drag_event (b : trackball) (x y dx dy : Qc) : trackball := drag_to b (inR x) (inR y) (inR dx) (inR dy).

Section Camera.
Context {F : Type} `{EqB F}.
(** A camera that is not "ortho", camera.py:48-74. *)
Definition ball_camera (theta phi zdist s : R) : res (@camera F mat trackball) :=
  let b := new_trackball theta phi in
  let* mats := camera_mats b zdist s in
  let '(model, view, proj) := mats in
  Ok (new_camera shown (Some b) (Mat (V4 1 0 0 0) (V4 0 1 0 0) (V4 0 0 1 0) (V4 0 0 0 1)) view proj).
(** An "ortho" one, camera.py:59-63. *)
Definition flat_camera : res (@camera F mat trackball) :=
  let* mats := flat_mats in
  let '(model, view, proj) := mats in
  Ok (new_camera shown None model view proj).
(** What the program and its user do with it, camera.py:76-230. *)
Definition camera_steps (figure : nat -> nat) (c : @camera F mat trackball) (l : list (@op F)) : @camera F mat trackball :=
  steps drag_event shown figure c l.
End Camera.
