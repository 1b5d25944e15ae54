(** C47 and C59: the trackball. *)
From Coq Require Import Reals Lra.
From Verif Require Import Base Glm GlmSpec GlmFacts Trackball TrackballSpec TrackballFacts.
Local Open Scope R_scope.

(** ** C47: always a rotation. *)
Theorem C47_always_a_rotation theta phi l : rotation (t_model (acts (new_trackball theta phi) l)).
Proof. exact (always_rotation theta phi l). Qed.
Print Assumptions C47_always_a_rotation.
(** A drag follows the earlier rotation with a turn about the axis at right
    angles to the two places on the ball; no movement changes nothing. *)
Theorem C47_drags_compose theta phi l x y dx dy :
  let b := acts (new_trackball theta phi) l in
  (dx = 0 /\ dy = 0 -> t_model (drag_to b x y dx dy) = t_model b) /\
  (dx <> 0 \/ dy <> 0 -> drag_axis x y dx dy <> zero3 /\
     exists D a, 0 <= a <= PI /\ sin (a / 2) = Rmin 1 (drag_length x y dx dy) /\
       turns D a (unit (drag_axis x y dx dy)) /\ composed (t_model b) D (t_model (drag_to b x y dx dy))).
Proof. exact (drag_composes theta phi l x y dx dy). Qed.
Print Assumptions C47_drags_compose.
Theorem C47_places_on_the_ball x y :
  let z := project ball_size x y in
  let d := sqrt (x * x + y * y) in
  0 < z /\ (d < ball_size * half_sqrt2 -> x * x + y * y + z * z = ball_size * ball_size) /\
  (ball_size * half_sqrt2 <= d -> z * d = ball_size / sqrt_2 * (ball_size / sqrt_2)).
Proof. exact (on_the_ball x y). Qed.
Print Assumptions C47_places_on_the_ball.
Theorem C47_axis_of_a_drag x y dx dy :
  dot (drag_axis x y dx dy) (V3 x y (project ball_size x y)) = 0 /\
  dot (drag_axis x y dx dy) (V3 (x + dx) (y + dy) (project ball_size (x + dx) (y + dy))) = 0.
Proof. exact (drag_axis_perpendicular x y dx dy). Qed.
Print Assumptions C47_axis_of_a_drag.
(** With no axis at all there is no turn. *)
Theorem C47_null_axis phi : q_from_axis_angle zero3 phi = V4 0 0 0 (cos (phi / 2)).
Proof. exact (null_axis phi). Qed.
Print Assumptions C47_null_axis.
(** Whatever error the stored quaternion has accumulated, enough drags remove it. *)
Theorem C47_errors_do_not_last l b :
  q_dot (t_rotation b) (t_rotation b) <> 0 -> (t_count b <= 97)%nat ->
  (97 < t_count b + length l)%nat -> rotation (t_model (acts b (drags l))).
Proof. exact (drags_recover l b). Qed.
Print Assumptions C47_errors_do_not_last.
Theorem C47_count_bounded theta phi l : (t_count (acts (new_trackball theta phi) l) <= 97)%nat.
Proof. exact (count_bounded theta phi l). Qed.
Print Assumptions C47_count_bounded.
Example C47_example :
  q_dot (V4 0 0 0 2) (V4 0 0 0 2) <> 1 /\ ~ rotation (q_rotmatrix (V4 1 0 0 1)) /\
  t_count (drag_to (new_trackball 30 40) 0 0 1 1) = 1%nat.
Proof.
  split; [unfold q_dot; cbn [x4 y4 z4 w4]; lra|]. split; [|reflexivity].
  intros (_ & _ & H & _). revert H. unfold dot4, q_rotmatrix. cbn [x4 y4 z4 w4 row0 row1 row2 row3]. lra.
Qed.

(** ** C59: angles of the trackball. *)
Theorem C59_initial_angles theta phi :
  composed (zrotate phi false) (xrotate theta false) (t_model (new_trackball theta phi)).
Proof. exact (set_orientation_model _ theta phi). Qed.
Print Assumptions C59_initial_angles.
Theorem C59_assigned_angles_shown b v w :
  composed (zrotate w false) (xrotate v false) (t_model (set_phi (set_theta b v) w)) /\
  composed (zrotate w false) (xrotate v false) (t_model (set_theta (set_phi b w) v)).
Proof. exact (assigned_shown b v w). Qed.
Print Assumptions C59_assigned_angles_shown.
(** Reading back works below a right angle. *)
Theorem C59_read_back_partial b v w :
  -90 < v < 90 -> -90 < w < 90 ->
  let b' := set_phi (set_theta b v) w in
  snd (get_theta b') = Ok v /\ snd (get_phi b') = Ok w /\ t_model (fst (get_theta b')) = t_model b'.
Proof. exact (assigned_read b v w). Qed.
Print Assumptions C59_read_back_partial.
(** Reading an angle does not turn the view; assigning the other angle then keeps the
    angle read. *)
Theorem C59_read_is_kept b v w :
  (snd (get_theta b) = Ok v -> composed (zrotate w false) (xrotate v false) (t_model (set_phi (fst (get_theta b)) w))) /\
  (snd (get_phi b) = Ok v -> composed (zrotate v false) (xrotate w false) (t_model (set_theta (fst (get_phi b)) w))) /\
  t_model (fst (get_theta b)) = t_model b /\ t_model (fst (get_phi b)) = t_model b.
Proof. exact (read_then_assigned b v w). Qed.
Print Assumptions C59_read_is_kept.
(** A half turn reads as none, and a right angle cannot be read. *)
Theorem C59_read_back_refuted :
  get_orientation (new_trackball 180 0) = Ok (0, 0) /\
  forall b theta, get_orientation (set_orientation b theta 90) = Err ZeroDivisionError.
Proof. exact (conj half_turn_read_zero right_angle_unreadable). Qed.
Print Assumptions C59_read_back_refuted.
(** Assigning one angle does not keep the other as it stands: all the drags
    since the last assignment are thrown away. *)
Theorem C59_keeps_the_other_angle_refuted l b v :
  t_model (set_theta (acts b (drags l)) v) = t_model (set_theta b v) /\
  t_model (set_phi (acts b (drags l)) v) = t_model (set_phi b v).
Proof. exact (drags_forgotten l b v). Qed.
Print Assumptions C59_keeps_the_other_angle_refuted.
Example C59_example : snd (get_theta (set_phi (set_theta (new_trackball 1 2) (-30)) 45)) = Ok (-30).
Proof. apply (assigned_read (new_trackball 1 2) (-30) 45); lra. Qed.
