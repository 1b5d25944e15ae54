(** Theorems about dragging a scene. *)
From Coq Require Import Reals Lra.
From Verif Require Import Base Measure Viewport ViewportSpec Glm GlmSpec Trackball TrackballSpec Camera CameraSpec Picture PictureSpec Drag DragSpec DragFacts.
Local Open Scope R_scope.

(** ** C106: dragging *)

(** A drag from a place to another takes what of the ball was seen at the first to the
    second, after any history. *)
Theorem C106_drag_follows theta phi h x y dx dy p : let b := acts (new_trackball theta phi) h in
  central x y -> central (x + dx) (y + dy) -> sends (shown b) p (front x y) ->
  sends (shown (drag_to b x y dx dy)) p (front (x + dx) (y + dy)).
Proof. exact (drag_follows theta phi h x y dx dy p). Qed.
Print Assumptions C106_drag_follows.
(** Everything turns together, after the turns before, about the axis at right angles to
    both places, from the first towards the second; the places may be outside the ball. *)
Theorem C106_whole_scene_turns theta phi h x y dx dy : let b := acts (new_trackball theta phi) h in
  dx <> 0 \/ dy <> 0 ->
  let old := V3 x y (project ball_size x y) in
  let new := V3 (x + dx) (y + dy) (project ball_size (x + dx) (y + dy)) in
  cross old new <> zero3 /\
  exists D a, 0 <= a <= PI /\ sin (a / 2) = Rmin 1 (norm (sub3 new old) / (2 * ball_size)) /\
    turns D a (unit (cross old new)) /\ composed D (shown b) (shown (drag_to b x y dx dy)).
Proof. exact (shown_turns theta phi h x y dx dy). Qed.
Print Assumptions C106_whole_scene_turns.
(** Any path of drags gone back step by step restores the view. *)
Theorem C106_retraced theta phi h l : let b := acts (new_trackball theta phi) h in
  t_model (acts b (drags l ++ drags (retraced l))) = t_model b.
Proof. exact (retraced_model theta phi h l). Qed.
Print Assumptions C106_retraced.
Example C106_case : central (1 / 10) 0 /\ central (2 / 10) 0 /\ central (inR tenth + (inR tenth - inR 0%Qc)) 0.
Proof. exact central_case. Qed.

Section Camera.
Context {F : Type} `{EqB F} (figure : nat -> nat).
(** With the mouse it is what was under the pointer at the end that moves, as far again. *)
Theorem C106_mouse_moves_beyond theta phi zdist s (c0 : @camera F mat trackball) h v x0 y0 x y p :
  ball_camera theta phi zdist s = Ok c0 -> plain h -> last_viewport h = Some v ->
  let dx := inR x - inR x0 in let dy := inR y - inR y0 in
  central (inR x) (inR y) -> central (inR x + dx) (inR y + dy) ->
  sends (c_model (camera_steps figure c0 h)) p (front (inR x) (inR y)) ->
  sends (c_model (camera_steps figure c0 (h ++ [Mouse (press figure v x0 y0); Mouse (motion figure v x y)]))) p (front (inR x + dx) (inR y + dy)).
Proof. exact (beyond figure theta phi zdist s c0 h v x0 y0 x y p). Qed.
(** What was under the pointer when the button was pressed does not stay under it. *)
Theorem C106_mouse_follows_refuted theta phi zdist s (c0 : @camera F mat trackball) h v :
  ball_camera theta phi zdist s = Ok c0 -> plain h -> last_viewport h = Some v ->
  exists p, sends (c_model (camera_steps figure c0 h)) p (front 0 0) /\
    ~ sends (c_model (camera_steps figure c0 (h ++ [Mouse (press figure v 0%Qc 0%Qc); Mouse (motion figure v tenth 0%Qc)]))) p (front (1 / 10) 0).
Proof. exact (not_followed figure theta phi zdist s c0 h v). Qed.
(** Moving the pointer away and back does not restore the view. *)
Theorem C106_mouse_back_refuted theta phi zdist s (c0 : @camera F mat trackball) h v :
  ball_camera theta phi zdist s = Ok c0 -> plain h -> last_viewport h = Some v ->
  c_model (camera_steps figure c0 (h ++ [Mouse (press figure v 0%Qc 0%Qc); Mouse (motion figure v tenth 0%Qc); Mouse (motion figure v 0%Qc 0%Qc)])) <>
  c_model (camera_steps figure c0 h).
Proof. exact (not_back figure theta phi zdist s c0 h v). Qed.
(** Whatever the program and its user did, the camera's matrices are those of a
    trackball that was dragged. *)
Theorem C106_matrices theta phi zdist s (c0 : @camera F mat trackball) h : ball_camera theta phi zdist s = Ok c0 ->
  exists l, let b := acts (new_trackball theta phi) (drags l) in
    c_ball (camera_steps figure c0 h) = Some b /\
    camera_mats b zdist s = Ok (c_model (camera_steps figure c0 h), c_view (camera_steps figure c0 h), c_proj (camera_steps figure c0 h)).
Proof. exact (ball_history figure theta phi zdist s c0 h). Qed.
(** A flat camera stays as it is. *)
Theorem C106_flat (c0 : @camera F mat trackball) h : flat_camera = Ok c0 ->
  let c := camera_steps figure c0 h in flat_mats = Ok (c_model c, c_view c, c_proj c).
Proof. exact (flat_history figure c0 h). Qed.
(** ** C105 for cameras, whatever the program and its user did *)
Theorem C105_any_events theta phi zdist s (c0 : @camera F mat trackball) h v i v' p :
  ball_camera theta phi zdist s = Ok c0 -> 0 < zdist -> Rabs s * norm p <= zdist * sin half_angle ->
  resize v i = Ok v' -> (1 <= p_zoom v)%Qc -> ViewportSpec.positive v' ->
  let c := camera_steps figure c0 h in in_viewport v' (spot v' (clip (c_model c) (c_view c) (c_proj c) p)).
Proof. exact (events_in_view figure theta phi zdist s c0 h v i v' p). Qed.
End Camera.
Print Assumptions C106_mouse_moves_beyond.
Print Assumptions C106_mouse_follows_refuted.
Print Assumptions C106_mouse_back_refuted.
Print Assumptions C106_matrices.
Print Assumptions C106_flat.
Print Assumptions C105_any_events.
(** There are such cameras, and histories with a viewport connected. *)
Example C106_camera_case : (exists c : @camera string mat trackball, ball_camera 30 40 5 1 = Ok c) /\
  let h := [@Connect string 7 "motion"%string "f"%string] in plain h /\ last_viewport h = Some 7%nat.
Proof. split; [exact (ball_camera_ok 30 40 5 1)|]. split; [|reflexivity]. constructor; [left; reflexivity|constructor]. Qed.
