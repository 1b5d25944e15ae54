(** C44-C46, C49 and C58: matrices and triangles of glm. *)
From Coq Require Import Reals Lra.
From Verif Require Import Base Glm GlmSpec GlmFacts.
Local Open Scope R_scope.

(** ** C44: rotations are rotations. *)
Theorem C44_axes_turn t :
  turns (xrotate t false) (radians t) (V3 1 0 0) /\ turns (yrotate t false) (radians t) (V3 0 1 0) /\
  turns (zrotate t false) (radians t) (V3 0 0 1).
Proof. exact (axes_turn t). Qed.
Print Assumptions C44_axes_turn.
Theorem C44_axes_rotations t :
  rotation (xrotate t false) /\ rotation (yrotate t false) /\ rotation (zrotate t false) /\
  (forall k, sends (xrotate t false) (V3 k 0 0) (V3 k 0 0)) /\
  (forall k, sends (yrotate t false) (V3 0 k 0) (V3 0 k 0)) /\
  (forall k, sends (zrotate t false) (V3 0 0 k) (V3 0 0 k)).
Proof. exact (axis_rotations t). Qed.
Print Assumptions C44_axes_rotations.
Theorem C44_axes_compose a b :
  composed (xrotate a false) (xrotate b false) (xrotate (a + b) false) /\
  composed (yrotate a false) (yrotate b false) (yrotate (a + b) false) /\
  composed (zrotate a false) (zrotate b false) (zrotate (a + b) false).
Proof. exact (axis_compose a b). Qed.
Print Assumptions C44_axes_compose.
(** With [transpose] the opposite turn. *)
Theorem C44_transpose :
  (forall t, xrotate t true = xrotate (- t) false) /\ (forall t, yrotate t true = yrotate (- t) false) /\
  (forall t, zrotate t true = zrotate (- t) false) /\ (forall t a, rotate t a true = rotate (- t) a false).
Proof. exact transposes_are_inverses. Qed.
Print Assumptions C44_transpose.
(** Any matrix that turns is a rotation: what the word means. *)
Theorem C44_turns_are_rotations M t u :
  dot u u = 1 -> turns M t u ->
  rotation M /\ (forall k, sends M (scale3 k u) (scale3 k u)) /\
  (forall p q p' q', sends M p p' -> sends M q q' -> dot p' q' = dot p q).
Proof. exact (turns_rotation M t u). Qed.
Print Assumptions C44_turns_are_rotations.
(** About an arbitrary axis: within [3e-16 / |axis|] of the rotation, because
    1e-16 is added to the axis' length. *)
Theorem C44_rotate_partial theta axis :
  axis <> zero3 ->
  exists T, turns T (radians theta) (unit axis) /\ rotation T /\ (forall k, sends T (scale3 k axis) (scale3 k axis)) /\
    near (3 * (tiny / norm axis)) (rotate theta axis false) T.
Proof. exact (rotate_turn theta axis). Qed.
Print Assumptions C44_rotate_partial.
Theorem C44_rotate_composes_partial a b axis :
  axis <> zero3 ->
  exists A B C, composed A B C /\ near (3 * (tiny / norm axis)) (rotate a axis false) A /\
    near (3 * (tiny / norm axis)) (rotate b axis false) B /\ near (3 * (tiny / norm axis)) (rotate (a + b) axis false) C /\
    rotation A /\ rotation B.
Proof. exact (rotate_compose a b axis). Qed.
Print Assumptions C44_rotate_composes_partial.
Theorem C44_rotate_axis_partial theta axis :
  axis <> zero3 -> exists n, 1 - 2 * (tiny / norm axis) <= n <= 1 /\
    sends (rotate theta axis false) axis (scale3 n axis).
Proof. exact (rotate_axis theta axis). Qed.
Print Assumptions C44_rotate_axis_partial.
Theorem C44_rotate_refuted :
  exists theta axis, axis <> zero3 /\ ~ rotation (rotate theta axis false) /\
    sends (rotate theta axis false) (V3 0 1 0) (V3 0 (- / 4) 0).
Proof. exact rotate_witness. Qed.
Print Assumptions C44_rotate_refuted.

(** A quarter turn about z takes x to y, and an axis that meets the hypotheses. *)
Example C44_quarter : sends (zrotate 90 false) (V3 1 0 0) (V3 0 1 0).
Proof.
  unfold sends, zrotate, finish, apply4, dot4, point. replace (radians 90) with (PI / 2) by (unfold radians; field).
  rewrite cos_PI2, sin_PI2. cbn [x3 y3 z3 x4 y4 z4 w4 row0 row1 row2 row3]. f_equal; ring.
Qed.
Example C44_axis : V3 0 3 4 <> zero3 /\ norm (V3 0 3 4) = 5.
Proof.
  split; [intros E; unfold zero3 in E; injection E; lra|]. unfold norm, dot. cbn [x3 y3 z3].
  replace (0 * 0 + 3 * 3 + 4 * 4) with (5 * 5) by ring. apply sqrt_square. lra.
Qed.

(** ** C45: projections. *)
Theorem C45_ortho_exactly_when_centred l r b t n f m :
  volume l r b t n f -> ortho l r b t n f false = Ok m ->
  ((forall s1 s2 s3, projects m (V3 (pick l r s1) (pick b t s2) (pick (- n) (- f) s3)) (corner s1 s2 s3)) <-> l + r = 0).
Proof. exact (ortho_corners l r b t n f m). Qed.
Print Assumptions C45_ortho_exactly_when_centred.
Theorem C45_ortho_yz l r b t n f m p :
  volume l r b t n f -> ortho l r b t n f false = Ok m ->
  y4 (apply4 m (point p)) = (2 * y3 p - (t + b)) / (t - b) /\
  z4 (apply4 m (point p)) = (- 2 * z3 p - (f + n)) / (f - n) /\
  w4 (apply4 m (point p)) = 1.
Proof. exact (ortho_yz l r b t n f m p). Qed.
Print Assumptions C45_ortho_yz.
Theorem C45_ortho_refuted :
  exists l r b t n f m, volume l r b t n f /\ l < r /\ b < t /\ 0 < n < f /\ ortho l r b t n f false = Ok m /\
  ~ (forall s1 s2 s3, projects m (V3 (pick l r s1) (pick b t s2) (pick (- n) (- f) s3)) (corner s1 s2 s3)).
Proof. exact ortho_witness. Qed.
Print Assumptions C45_ortho_refuted.
Theorem C45_frustum_exactly_when_level l r b t n f m :
  volume l r b t n f -> n <> 0 -> f <> 0 -> frustum l r b t n f false = Ok m ->
  ((forall s1 s2 s3, projects m (frustum_corner l r b t n f s1 s2 s3) (corner s1 s2 s3)) <-> b + t = 0).
Proof. exact (frustum_corners l r b t n f m). Qed.
Print Assumptions C45_frustum_exactly_when_level.
Theorem C45_frustum_refuted :
  exists l r b t n f m, volume l r b t n f /\ l < r /\ b < t /\ 0 < n < f /\ frustum l r b t n f false = Ok m /\
  ~ (forall s1 s2 s3, projects m (frustum_corner l r b t n f s1 s2 s3) (corner s1 s2 s3)).
Proof. exact frustum_witness. Qed.
Print Assumptions C45_frustum_refuted.
Theorem C45_flat_volumes l r b t n f tr :
  ~ volume l r b t n f ->
  ortho l r b t n f tr = Err ZeroDivisionError /\ frustum l r b t n f tr = Err ZeroDivisionError.
Proof. exact (fun H => conj (ortho_flat l r b t n f tr H) (frustum_flat l r b t n f tr H)). Qed.
Print Assumptions C45_flat_volumes.
Theorem C45_perspective_corners fovy aspect n f m :
  tan (radians fovy / 2) <> 0 -> aspect <> 0 -> n <> 0 -> f <> 0 -> n <> f ->
  perspective fovy aspect n f false = Ok m ->
  let h := tan (radians fovy / 2) * n in
  forall s1 s2 s3, projects m (frustum_corner (- (h * aspect)) (h * aspect) (- h) h n f s1 s2 s3) (corner s1 s2 s3).
Proof. exact (perspective_corners fovy aspect n f m). Qed.
Print Assumptions C45_perspective_corners.
(** A point in front of the eye lands in the cube exactly when it is between
    the planes and within the angles of view. *)
Theorem C45_perspective_shows fovy aspect n f :
  0 < fovy < 180 -> 0 < aspect -> 0 < n < f ->
  exists m, perspective fovy aspect n f false = Ok m /\
  forall p, z3 p < 0 -> exists q, projects m p q /\
    (in_cube q <-> - f <= z3 p <= - n /\ Rabs (y3 p) <= - z3 p * tan (radians fovy / 2) /\
                   Rabs (x3 p) <= - z3 p * (tan (radians fovy / 2) * aspect)).
Proof. exact (perspective_shows fovy aspect n f). Qed.
Print Assumptions C45_perspective_shows.

Example C45_ortho_example : volume (-2) 2 1 3 1 100 /\ is_ok (ortho (-2) 2 1 3 1 100 false) = true /\ -2 + 2 = 0.
Proof.
  assert (V : volume (-2) 2 1 3 1 100) by (unfold volume; lra).
  split; [exact V|]. rewrite (ortho_ok _ _ _ _ _ _ V). split; [reflexivity|lra].
Qed.
Example C45_frustum_example : volume (-1) 3 (-1) 1 1 100 /\ is_ok (frustum (-1) 3 (-1) 1 1 100 false) = true.
Proof.
  assert (V : volume (-1) 3 (-1) 1 1 100) by (unfold volume; lra).
  split; [exact V|]. rewrite (frustum_ok _ _ _ _ _ _ V). reflexivity.
Qed.
Example C45_perspective_example : tan (radians 90 / 2) = 1.
Proof. replace (radians 90 / 2) with (PI / 4) by (unfold radians; field). apply tan_PI4. Qed.

(** ** C46: the other matrices. *)
(** A translation and a scale are given by exactly three numbers. *)
Theorem C46_three_numbers g t :
  (forall a b c, g = Numbers [a; b; c] ->
     translate_given g t = Ok (translate (V3 a b c) t) /\ scale_given g t = Ok (scale (V3 a b c) t)) /\
  (forall l, g = Numbers l -> length l <> 3%nat -> translate_given g t = Err ValueError /\ scale_given g t = Err ValueError) /\
  (forall r, g = Number r -> translate_given g t = Err TypeError /\ scale_given g t = Err TypeError).
Proof. exact (given_three g t). Qed.
Print Assumptions C46_three_numbers.
Theorem C46_translate v :
  (forall p, sends (translate v false) p (V3 (x3 p + x3 v) (y3 p + y3 v) (z3 p + z3 v))) /\
  (forall p, apply4 (translate v false) (direction p) = direction p) /\
  undoes (translate (scale3 (-1) v) false) (translate v false) /\
  (forall u, composed (translate u false) (translate v false) (translate (V3 (x3 u + x3 v) (y3 u + y3 v) (z3 u + z3 v)) false)).
Proof. exact (conj (translate_sends v) (conj (translate_direction v) (conj (translate_undo v) (fun u => translate_plus u v)))). Qed.
Print Assumptions C46_translate.
Theorem C46_scale s :
  (forall p, sends (scale s false) p (V3 (x3 s * x3 p) (y3 s * y3 p) (z3 s * z3 p))) /\
  (x3 s <> 0 -> y3 s <> 0 -> z3 s <> 0 -> undoes (scale (V3 (/ x3 s) (/ y3 s) (/ z3 s)) false) (scale s false)).
Proof. exact (conj (scale_sends s) (scale_undo s)). Qed.
Print Assumptions C46_scale.
Theorem C46_viewport x y w h d :
  (forall p, sends (viewport x y w h d false) p (V3 (x + w * (x3 p + 1) / 2) (y + h * (y3 p + 1) / 2) (d * (z3 p + 1) / 2))) /\
  (forall s1 s2 s3, sends (viewport x y w h d false) (corner s1 s2 s3) (V3 (pick x (x + w) s1) (pick y (y + h) s2) (pick 0 d s3))).
Proof. exact (conj (viewport_sends x y w h d) (viewport_corners x y w h d)). Qed.
Print Assumptions C46_viewport.
Theorem C46_transpose :
  (forall v, transposed (translate v false) (translate v true)) /\
  (forall v, transposed (scale v false) (scale v true)) /\
  (forall x y w h d, transposed (viewport x y w h d false) (viewport x y w h d true)) /\
  (forall l r b t n f m m', ortho l r b t n f false = Ok m -> ortho l r b t n f true = Ok m' -> transposed m m') /\
  (forall l r b t n f m m', frustum l r b t n f false = Ok m -> frustum l r b t n f true = Ok m' -> transposed m m') /\
  (forall o a n f m m', perspective o a n f false = Ok m -> perspective o a n f true = Ok m' -> transposed m m') /\
  (forall t, transposed (xrotate t false) (xrotate t true)) /\
  (forall t, transposed (yrotate t false) (yrotate t true)) /\
  (forall t, transposed (zrotate t false) (zrotate t true)) /\
  (forall t a, transposed (rotate t a false) (rotate t a true)) /\
  (forall u v m m', align u v false = Some m -> align u v true = Some m' -> transposed m m').
Proof. exact transpose_flag. Qed.
Print Assumptions C46_transpose.
(** lookat ignores its [transpose] argument. *)
Theorem C46_lookat_transpose_refuted :
  exists eye center up, ~ transposed (lookat eye center up false) (lookat eye center up true).
Proof. exact lookat_transpose_ignored. Qed.
Print Assumptions C46_lookat_transpose_refuted.
Theorem C46_lookat_eye eye center up t : sends (lookat eye center up t) eye zero3.
Proof. exact (lookat_eye eye center up t). Qed.
Print Assumptions C46_lookat_eye.
Theorem C46_lookat_target eye center up t :
  eye <> center ->
  exists l, norm (sub3 eye center) - tiny <= l <= norm (sub3 eye center) /\ 0 < l /\
    sends (lookat eye center up t) center (V3 0 0 (- l)).
Proof. exact (lookat_center eye center up t). Qed.
Print Assumptions C46_lookat_target.
(** Rigid up to factors that tend to one: coordinates along a right-handed frame
    with the line of sight as third and the up vector above the first. *)
Theorem C46_lookat_rigid_partial eye center up t :
  cross up (sub3 eye center) <> zero3 ->
  exists e0 e1 k0 k1 k2,
    frame e0 e1 (unit (sub3 eye center)) /\ dot e0 up = 0 /\ 0 < dot e1 up /\
    (forall p, sends (lookat eye center up t) p
       (V3 (k0 * dot e0 (sub3 p eye)) (k1 * dot e1 (sub3 p eye)) (k2 * dot (unit (sub3 eye center)) (sub3 p eye)))) /\
    (0 < k2 < 1 /\ 1 - k2 <= tiny / norm (sub3 eye center)) /\
    (0 < k0 < 1 /\ 1 - k0 <= tiny / (k2 * norm (cross up (unit (sub3 eye center))))) /\
    (0 < k1 < 1 /\ 1 - k1 <= tiny / (k0 * k2)).
Proof. exact (lookat_frame eye center up t). Qed.
Print Assumptions C46_lookat_rigid_partial.
(** Looking along the up vector, as the default arguments do, flattens space
    onto a line. *)
Theorem C46_lookat_rigid_refuted :
  exists eye center up, eye <> center /\ up <> zero3 /\ forall t p, exists c, sends (lookat eye center up t) p (V3 0 0 c).
Proof. exact lookat_flat_witness. Qed.
Print Assumptions C46_lookat_rigid_refuted.
Theorem C46_lookat_defaults_refuted :
  forall t p, exists c, sends (lookat (V3 0 0 (45 / 10)) (V3 0 0 0) (V3 0 0 1) t) p (V3 0 0 c).
Proof. exact lookat_default. Qed.
Print Assumptions C46_lookat_defaults_refuted.
Theorem C46_align_partial U V :
  cross U V <> zero3 ->
  exists M A, align U V false = Some M /\ rotation A /\ sends A (unit U) (unit V) /\
    sends A (cross U V) (cross U V) /\
    near (2 * (tiny / norm U + tiny / norm V)) M A.
Proof. exact (align_near U V). Qed.
Print Assumptions C46_align_partial.
(** Parallel vectors, even equal ones, give a matrix of nan. *)
Theorem C46_align_refuted U V t : align U V t = None <-> cross U V = zero3.
Proof. exact (align_none U V t). Qed.
Print Assumptions C46_align_refuted.

(** Numbers in range are kept, the others are replaced by the nearest end. *)
Theorem C46_clamp v lo hi : lo <= hi ->
  lo <= clamp v lo hi <= hi /\ (lo <= v <= hi -> clamp v lo hi = v) /\ (v <= lo -> clamp v lo hi = lo) /\ (hi <= v -> clamp v lo hi = hi).
Proof. exact (clamp_ok v lo hi). Qed.
Print Assumptions C46_clamp.
Theorem C46_clamp_crossed v lo hi : hi <= lo -> clamp v lo hi = hi.
Proof. exact (clamp_crossed v lo hi). Qed.
Print Assumptions C46_clamp_crossed.
(** A normalized vector keeps its direction, but is always shorter than one, by a
    part that grows as the vector gets shorter. *)
Theorem C46_normalize_partial v : v <> zero3 ->
  dot (normalize v) (normalize v) < 1 /\ exists a, 0 < a < 1 /\ 1 - a <= tiny / norm v /\ normalize v = scale3 a (unit v).
Proof. exact (normalize_short v). Qed.
Print Assumptions C46_normalize_partial.
Example C46_clamp_example : 0 <= 1 /\ clamp 2 0 1 = 1 /\ V3 1 2 3 <> zero3.
Proof. split; [lra|]. split; [apply (C46_clamp 2 0 1); lra|intros E; injection E; lra]. Qed.

Example C46_lookat_example : cross (V3 0 1 0) (sub3 (V3 1 2 3) (V3 0 0 0)) <> zero3.
Proof. intros E. unfold cross, sub3, zero3 in E. cbn [x3 y3 z3] in E. injection E. lra. Qed.
Example C46_align_example : cross (V3 1 0 0) (V3 1 2 0) <> zero3 /\ cross (V3 1 2 3) (V3 1 2 3) = zero3.
Proof.
  split; [intros E|]; unfold cross, zero3 in *; cbn [x3 y3 z3] in *; [injection E; lra|f_equal; ring].
Qed.

(** ** C49: front and back faces. *)
Theorem C49_one_or_the_other T i :
  (i < length T)%nat ->
  exists f, nth_error (fst (frontback T)) i = Some f /\ nth_error (snd (frontback T)) i = Some (negb f).
Proof. exact (frontback_one T i). Qed.
Print Assumptions C49_one_or_the_other.
Theorem C49_order T :
  (length (fst (frontback T)) = length T /\ length (snd (frontback T)) = length T) /\
  (count (fst (frontback T)) + count (snd (frontback T)))%nat = length T.
Proof. exact (conj (frontback_length T) (frontback_count T)). Qed.
Print Assumptions C49_order.
Theorem C49_front_is_anticlockwise T i t :
  nth_error T i = Some t ->
  (nth_error (fst (frontback T)) i = Some true <-> 0 < area2 t) /\
  (nth_error (snd (frontback T)) i = Some true <-> area2 t <= 0).
Proof. exact (frontback_nth T i t). Qed.
Print Assumptions C49_front_is_anticlockwise.
Theorem C49_reversing_swaps T i t :
  nth_error T i = Some t -> area2 t <> 0 ->
  nth_error (fst (frontback (map reversed T))) i = nth_error (snd (frontback T)) i /\
  nth_error (snd (frontback (map reversed T))) i = nth_error (fst (frontback T)) i.
Proof. exact (frontback_reversed T i t). Qed.
Print Assumptions C49_reversing_swaps.
Theorem C49_first_corner_irrelevant T : frontback (map cycled T) = frontback T.
Proof. exact (frontback_cycled T). Qed.
Print Assumptions C49_first_corner_irrelevant.
Example C49_example : area2 (Tri 0 0 1 0 0 1) = 1 /\ area2 (reversed (Tri 0 0 1 0 0 1)) = -1.
Proof. unfold area2, reversed. cbn. split; ring. Qed.

(** ** C58: the ready-made camera matrix cannot be obtained. *)
Theorem C58_camera_refuted xrotation yrotation zoom is_ortho :
  camera xrotation yrotation zoom is_ortho = Err TypeError.
Proof. exact (camera_fails xrotation yrotation zoom is_ortho). Qed.
Print Assumptions C58_camera_refuted.
