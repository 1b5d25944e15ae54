(** Proofs about the trackball. *)
From Coq Require Import Reals Lra Psatz Nsatz.
From Verif Require Import Base Glm GlmSpec GlmFacts Trackball TrackballSpec.
Local Open Scope R_scope.

Ltac quat := unfold q_add, q_dot, q_mul, append, vec, v_add, v_mul, v_cross, v_dot; cbn [x3 y3 z3 x4 y4 z4 w4].

Lemma q_add_norm p q : q_dot (q_add p q) (q_add p q) = q_dot p p * q_dot q q.
Proof. quat. ring. Qed.

Lemma rotmatrix_rotation q : q_dot q q = 1 -> rotation (q_rotmatrix q).
Proof.
  destruct q as [a b c d]. unfold q_dot, rotation, only_block, det3, q_rotmatrix. cbn [x4 y4 z4 w4]. mats. intros H.
  repeat split; try reflexivity; nsatz.
Qed.

(** The order of composition. *)
Lemma rotmatrix_add p q :
  q_dot p p = 1 -> q_dot q q = 1 -> composed (q_rotmatrix q) (q_rotmatrix p) (q_rotmatrix (q_add p q)).
Proof.
  destruct p as [a b c d], q as [a' b' c' d']. unfold q_dot. cbn [x4 y4 z4 w4]. intros P Q [x y z w].
  unfold q_rotmatrix. quat. mats. entries; nsatz.
Qed.

(** The half-angle quaternion turns. *)
Lemma axis_angle_turns u phi :
  dot u u = 1 -> turns (q_rotmatrix (append (v_mul u (sin (phi / 2))) (cos (phi / 2)))) phi u.
Proof.
  destruct u as [x y z]. unfold dot. cbn [x3 y3 z3]. intros U [p q r].
  unfold sends, turned, q_rotmatrix, append, v_mul. cbn [x3 y3 z3 x4 y4 z4 w4].
  replace (cos phi) with (cos (phi / 2) * cos (phi / 2) - sin (phi / 2) * sin (phi / 2))
    by (rewrite <- cos_2a; f_equal; field).
  replace (sin phi) with (2 * sin (phi / 2) * cos (phi / 2)) by (rewrite <- sin_2a; f_equal; field).
  pose proof (sc2 (phi / 2)) as SC. set (c := cos (phi / 2)) in *. set (s := sin (phi / 2)) in *. clearbody c s.
  mats. entries; nsatz.
Qed.

Lemma v_length_norm v : v_length v = norm v.
Proof. reflexivity. Qed.

Lemma v_normalize_unit v : v <> zero3 -> v_normalize v = unit v.
Proof.
  intros H. pose proof (norm_pos v H). unfold v_normalize. rewrite v_length_norm.
  destruct (Req_EM_T (norm v) 0); [lra|]. unfold v_mul, unit. f_equal; field; lra.
Qed.

Lemma from_axis_angle_unit v phi : v <> zero3 -> q_dot (q_from_axis_angle v phi) (q_from_axis_angle v phi) = 1.
Proof.
  intros H. unfold q_from_axis_angle. rewrite v_normalize_unit by assumption. pose proof (unit_dot v H) as U.
  unfold dot in U. set (u := unit v) in *. clearbody u. pose proof (sc2 (phi / 2)) as SC.
  set (c := cos (phi / 2)) in *. set (s := sin (phi / 2)) in *. clearbody c s. quat. nsatz.
Qed.

(** ** The projection onto the ball *)
Lemma half_sqrt2_bounds : / 2 <= half_sqrt2 * half_sqrt2 <= 3 / 4 /\ 0 < half_sqrt2 /\ sqrt_2 = 2 * half_sqrt2.
Proof. unfold half_sqrt2, sqrt_2. lra. Qed.
Lemma ball_size_pos : 0 < ball_size.
Proof. unfold ball_size. lra. Qed.

Definition height (r d : R) : R :=
  if Rlt_dec d (r * half_sqrt2) then sqrt (r * r - d * d) else let t := r / sqrt_2 in t * t / d.
Lemma project_height r x y : project r x y = height r (sqrt (x * x + y * y)).
Proof. reflexivity. Qed.

Lemma height_pos r d : 0 < r -> 0 <= d -> 0 < height r d.
Proof.
  intros R0 D. destruct half_sqrt2_bounds as (B & C & E). unfold height.
  destruct (Rlt_dec d (r * half_sqrt2)) as [L|L].
  - apply sqrt_lt_R0. assert (d * d <= r * half_sqrt2 * (r * half_sqrt2)) by nra. nra.
  - rewrite E. cbv zeta. assert (0 < d) by nra. apply Rdiv_lt_0_compat; [|assumption].
    assert (0 < r / (2 * half_sqrt2)) by (apply Rdiv_lt_0_compat; lra). nra.
Qed.

Lemma on_the_ball x y :
  let z := project ball_size x y in
  let d := sqrt (x * x + y * y) in
  0 < z /\ (d < ball_size * half_sqrt2 -> x * x + y * y + z * z = ball_size * ball_size) /\
  (ball_size * half_sqrt2 <= d -> z * d = ball_size / sqrt_2 * (ball_size / sqrt_2)).
Proof.
  cbv zeta. pose proof ball_size_pos as P. assert (D : 0 <= sqrt (x * x + y * y)) by apply sqrt_pos.
  assert (DD : sqrt (x * x + y * y) * sqrt (x * x + y * y) = x * x + y * y) by (apply sqrt_sqrt; nra).
  split; [rewrite project_height; apply height_pos; assumption|].
  rewrite project_height. destruct half_sqrt2_bounds as (B & C & E). unfold height. set (d := sqrt (x * x + y * y)) in *.
  split; intros L; destruct (Rlt_dec d (ball_size * half_sqrt2)) as [M|M]; try lra.
  - rewrite sqrt_sqrt; [lra|]. set (r := ball_size) in *. set (c := half_sqrt2) in *. clearbody r c d.
    assert (d * d <= r * c * (r * c)) by nra. nra.
  - cbv zeta. assert (0 < ball_size * half_sqrt2) by nra. unfold Rdiv at 1. rewrite Rmult_assoc, Rinv_l by lra. ring.
Qed.

Lemma height_decreasing r d1 d2 : 0 < r -> 0 <= d1 <= d2 -> height r d2 <= height r d1.
Proof.
  intros R0 D. destruct half_sqrt2_bounds as (B & C & E). unfold height. rewrite E. cbv zeta.
  set (c := half_sqrt2) in *. clearbody c.
  destruct (Rlt_dec d2 (r * c)) as [L2|L2], (Rlt_dec d1 (r * c)) as [L1|L1]; try (exfalso; lra).
  - apply sqrt_le_1_alt. nra.
  - (* across the junction *)
    assert (P2 : 0 < d2) by nra. assert (RC : 0 < r * c) by nra.
    apply Rle_trans with (r / (2 * c) * (r / (2 * c)) / (r * c)).
    + unfold Rdiv at 1 4. apply Rmult_le_compat_l.
      * assert (0 < r / (2 * c)) by (apply Rdiv_lt_0_compat; lra). nra.
      * apply Rinv_le_contravar; lra.
    + replace (r / (2 * c) * (r / (2 * c)) / (r * c)) with (r * / (4 * (c * c * c))) by (field; lra).
      assert (PC : 0 < 4 * (c * c * c)) by nra.
      assert (PI' : 0 < / (4 * (c * c * c))) by (apply Rinv_0_lt_compat; lra).
      rewrite <- (sqrt_square (r * / (4 * (c * c * c)))) by nra.
      apply sqrt_le_1_alt.
      assert (H1 : d1 * d1 <= r * r * (c * c)) by nra.
      assert (H2 : / (4 * (c * c * c)) * / (4 * (c * c * c)) <= 1 - c * c).
      { rewrite <- Rinv_mult. apply Rmult_le_reg_l with (4 * (c * c * c) * (4 * (c * c * c))); [nra|].
        rewrite Rinv_r by nra. set (u := c * c) in *.
        replace (4 * (u * c) * (4 * (u * c)) * (1 - u)) with (16 * (u * u * u) * (1 - u)) by (unfold u; ring).
        clearbody u.
        assert (F : 16 * (u * u * u) * (1 - u) - 1 = (2 * u - 1) * (1 + 2 * u - 4 * (u * u) * (2 * u - 1))) by ring.
        assert (G : 0 <= 1 + 2 * u - 4 * (u * u) * (2 * u - 1)) by nra.
        assert (0 <= (2 * u - 1) * (1 + 2 * u - 4 * (u * u) * (2 * u - 1))) by (apply Rmult_le_pos; lra).
        lra. }
      nra.
  - unfold Rdiv at 1 4. assert (P1 : 0 < d1) by nra. apply Rmult_le_compat_l.
    + assert (0 < r / (2 * c)) by (apply Rdiv_lt_0_compat; lra). nra.
    + apply Rinv_le_contravar; lra.
Qed.

Lemma sum_sq_nonneg a b : 0 <= a * a + b * b.
Proof. nra. Qed.

(** Two different places are never in line with the centre. *)
Lemma moved_not_parallel r x y X Y :
  0 < r -> v_cross (V3 X Y (project r X Y)) (V3 x y (project r x y)) = zero3 -> X = x /\ Y = y.
Proof.
  intros R0 H. rewrite !project_height in H.
  set (d := sqrt (x * x + y * y)) in *. set (D := sqrt (X * X + Y * Y)) in *.
  assert (d0 : 0 <= d) by apply sqrt_pos. assert (D0 : 0 <= D) by apply sqrt_pos.
  assert (dd : d * d = x * x + y * y) by (apply sqrt_sqrt, sum_sq_nonneg).
  assert (DD : D * D = X * X + Y * Y) by (apply sqrt_sqrt, sum_sq_nonneg).
  pose proof (height_pos r d R0 d0) as Z. pose proof (height_pos r D R0 D0) as Z'.
  assert (MD : D <= d -> height r d <= height r D) by (intros; apply height_decreasing; lra).
  assert (MD' : d <= D -> height r D <= height r d) by (intros; apply height_decreasing; lra).
  assert (EQ : d = D -> height r d = height r D) by (intros ->; reflexivity).
  set (z := height r d) in *. set (z' := height r D) in *. clearbody z z' d D.
  unfold v_cross, zero3 in H. cbn [x3 y3 z3] in H. injection H as H1 H2 H3.
  assert (Q : (D * z) * (D * z) = (d * z') * (d * z')).
  { assert (E1 : X * z = z' * x) by lra. assert (E2 : Y * z = z' * y) by lra.
    replace (D * z * (D * z)) with (D * D * (z * z)) by ring. rewrite DD.
    replace (d * z' * (d * z')) with (d * d * (z' * z')) by ring. rewrite dd.
    replace ((X * X + Y * Y) * (z * z)) with ((X * z) * (X * z) + (Y * z) * (Y * z)) by ring. rewrite E1, E2. ring. }
  assert (Q' : D * z = d * z').
  { apply Rsqr_inj; [nra|nra|]. unfold Rsqr. exact Q. }
  assert (E : d = D).
  { destruct (Rtotal_order d D) as [L|[E|L]]; [|exact E|].
    - exfalso. assert (z' <= z) by (apply MD'; lra). nra.
    - exfalso. assert (z <= z') by (apply MD; lra). nra. }
  rewrite (EQ E) in *. split; apply Rmult_eq_reg_r with z'; lra.
Qed.

Lemma drag_length_nonneg x y dx dy : 0 <= drag_length x y dx dy.
Proof.
  unfold drag_length. pose proof ball_size_pos.
  apply Rmult_le_pos; [apply norm_nonneg|]. left. apply Rinv_0_lt_compat. lra.
Qed.

Lemma clipped t : 0 <= t -> (if Rlt_dec (if Rlt_dec 1 t then 1 else t) (-1) then -1 else if Rlt_dec 1 t then 1 else t) = Rmin 1 t.
Proof.
  intros H. unfold Rmin. destruct (Rlt_dec 1 t), (Rle_dec 1 t); repeat destruct (Rlt_dec _ _); try lra.
Qed.

Lemma rotate_by_moved x y dx dy :
  dx <> 0 \/ dy <> 0 ->
  rotate_by x y dx dy = q_from_axis_angle (drag_axis x y dx dy) (2 * asin (Rmin 1 (drag_length x y dx dy))).
Proof.
  intros H. rewrite <- (clipped _ (drag_length_nonneg x y dx dy)). unfold rotate_by.
  destruct (Req_EM_T dx 0) as [E1|E1]; [destruct (Req_EM_T dy 0) as [E2|E2]|]; [exfalso; destruct H; contradiction|reflexivity|reflexivity].
Qed.

Lemma asin_half t : 0 <= t -> let a := 2 * asin (Rmin 1 t) in 0 <= a <= PI /\ sin (a / 2) = Rmin 1 t.
Proof.
  intros H. cbv zeta. assert (B : 0 <= Rmin 1 t <= 1) by (split; [apply Rmin_glb; lra|apply Rmin_l]).
  replace (2 * asin (Rmin 1 t) / 2) with (asin (Rmin 1 t)) by field. split; [|apply sin_asin; lra].
  pose proof (asin_bound (Rmin 1 t)). assert (0 <= asin (Rmin 1 t)); [|lra].
  destruct (Rle_lt_or_eq_dec 0 (Rmin 1 t)) as [L|E]; [lra| |].
  - destruct (Rle_or_lt 0 (asin (Rmin 1 t))) as [G|G]; [exact G|].
    exfalso. assert (sin (asin (Rmin 1 t)) < 0); [|rewrite sin_asin in *; lra].
    pose proof PI_RGT_0. apply sin_lt_0_var; lra.
  - rewrite <- E, asin_0. lra.
Qed.

Lemma rotate_by_cases x y dx dy :
  (dx = 0 /\ dy = 0 /\ rotate_by x y dx dy = V4 0 0 0 1) \/
  ((dx <> 0 \/ dy <> 0) /\ drag_axis x y dx dy <> zero3 /\
   exists phi, rotate_by x y dx dy = q_from_axis_angle (drag_axis x y dx dy) phi /\
     0 <= phi <= PI /\ sin (phi / 2) = Rmin 1 (drag_length x y dx dy)).
Proof.
  assert (G : dx <> 0 \/ dy <> 0 -> (dx <> 0 \/ dy <> 0) /\ drag_axis x y dx dy <> zero3 /\
   exists phi, rotate_by x y dx dy = q_from_axis_angle (drag_axis x y dx dy) phi /\
     0 <= phi <= PI /\ sin (phi / 2) = Rmin 1 (drag_length x y dx dy)).
  { intros H. split; [exact H|]. split.
    - intros Z. apply moved_not_parallel in Z; [|exact ball_size_pos]. destruct H; lra.
    - exists (2 * asin (Rmin 1 (drag_length x y dx dy))). split; [apply rotate_by_moved; exact H|].
      apply asin_half, drag_length_nonneg. }
  destruct (Req_EM_T dx 0) as [E1|E1]; [destruct (Req_EM_T dy 0) as [E2|E2]|].
  - left. split; [exact E1|]. split; [exact E2|]. unfold rotate_by.
    destruct (Req_EM_T dx 0); [|contradiction]. destruct (Req_EM_T dy 0); [reflexivity|contradiction].
  - right. apply G. auto.
  - right. apply G. auto.
Qed.

Lemma rotate_by_unit x y dx dy : q_dot (rotate_by x y dx dy) (rotate_by x y dx dy) = 1.
Proof.
  destruct (rotate_by_cases x y dx dy) as [(_ & _ & ->)|(_ & N & phi & -> & _)].
  - quat. ring.
  - apply from_axis_angle_unit. exact N.
Qed.

Lemma q_length_sq q : q_length q * q_length q = q_dot q q.
Proof. apply sqrt_sqrt. unfold q_dot. nra. Qed.
Lemma q_normalize_unit q : q_dot q q <> 0 -> q_dot (q_normalize q) (q_normalize q) = 1.
Proof.
  intros H. pose proof (q_length_sq q) as L. unfold q_normalize. destruct (Req_EM_T (q_length q) 0) as [Z|Z].
  - exfalso. rewrite Z in L. lra.
  - replace (q_dot (q_mul q (1 / q_length q)) (q_mul q (1 / q_length q)))
      with (q_dot q q / (q_length q * q_length q)) by (quat; field; exact Z).
    rewrite L. field. exact H.
Qed.
Lemma q_normalize_id q : q_dot q q = 1 -> q_normalize q = q.
Proof.
  intros H. unfold q_normalize, q_length. rewrite H, sqrt_1. destruct (Req_EM_T 1 0); [reflexivity|].
  destruct q as [q0 q1 q2 q3]. unfold q_mul. cbn [x4 y4 z4 w4]. f_equal; field.
Qed.

(** ** The invariant *)
Definition ok (b : trackball) : Prop := q_dot (t_rotation b) (t_rotation b) = 1 /\ t_model b = q_rotmatrix (t_rotation b).

Lemma set_orientation_unit b theta phi : ok (set_orientation b theta phi).
Proof.
  unfold ok, set_orientation. cbn [t_rotation t_model]. split; [|reflexivity]. rewrite q_add_norm.
  pose proof (sc2 (/ 2 * (theta * (PI / 180)))) as S1. pose proof (sc2 (/ 2 * (phi * (PI / 180)))) as S2.
  unfold q_dot. cbn [x4 y4 z4 w4].
  set (a := sin (/ 2 * (theta * (PI / 180)))) in *. set (b' := cos (/ 2 * (theta * (PI / 180)))) in *.
  set (c := sin (/ 2 * (phi * (PI / 180)))) in *. set (d := cos (/ 2 * (phi * (PI / 180)))) in *. clearbody a b' c d. nsatz.
Qed.
Lemma drag_ok b x y dx dy : ok b -> ok (drag_to b x y dx dy).
Proof.
  intros [H _]. unfold ok, drag_to.
  assert (U : q_dot (q_add (rotate_by x y dx dy) (t_rotation b)) (q_add (rotate_by x y dx dy) (t_rotation b)) = 1).
  { rewrite q_add_norm, rotate_by_unit, H. ring. }
  destruct (renorm_count <? S (t_count b))%nat; cbn [t_rotation t_model]; split; try reflexivity; [|exact U].
  rewrite q_normalize_id by exact U. exact U.
Qed.
Lemma act_ok b a : ok b -> ok (act b a).
Proof.
  intros H. destruct a as [x y dx dy|v|v| |]; cbn [act].
  - apply drag_ok. exact H.
  - apply set_orientation_unit.
  - apply set_orientation_unit.
  - unfold get_theta. destruct (get_orientation b) as [[th ph]|e]; exact H.
  - unfold get_phi. destruct (get_orientation b) as [[th ph]|e]; exact H.
Qed.
Lemma acts_ok l b : ok b -> ok (acts b l).
Proof. revert b. induction l as [|a l IH]; intros b H; [exact H|]. apply IH, act_ok, H. Qed.
Lemma new_ok theta phi : ok (new_trackball theta phi).
Proof. apply set_orientation_unit. Qed.

Lemma always_rotation theta phi l : rotation (t_model (acts (new_trackball theta phi) l)).
Proof.
  destruct (acts_ok l _ (new_ok theta phi)) as [H E]. rewrite E. apply rotmatrix_rotation, H.
Qed.

(** ** One drag *)
Lemma drag_composes theta phi l x y dx dy :
  let b := acts (new_trackball theta phi) l in
  (dx = 0 /\ dy = 0 -> t_model (drag_to b x y dx dy) = t_model b) /\
  (dx <> 0 \/ dy <> 0 -> drag_axis x y dx dy <> zero3 /\
     exists D a, 0 <= a <= PI /\ sin (a / 2) = Rmin 1 (drag_length x y dx dy) /\
       turns D a (unit (drag_axis x y dx dy)) /\ composed (t_model b) D (t_model (drag_to b x y dx dy))).
Proof.
  cbv zeta. set (b := acts _ _). destruct (acts_ok l _ (new_ok theta phi)) as [H E]. fold b in H, E. clearbody b.
  assert (M : t_model (drag_to b x y dx dy) = q_rotmatrix (q_add (rotate_by x y dx dy) (t_rotation b))).
  { unfold drag_to. destruct (renorm_count <? S (t_count b))%nat; cbn [t_model]; [|reflexivity].
    rewrite q_normalize_id; [reflexivity|]. rewrite q_add_norm, rotate_by_unit, H. ring. }
  rewrite M. destruct (rotate_by_cases x y dx dy) as [(E1 & E2 & Q)|(N & A & ang & Q & B & SA)].
  - split; [|intros [C|C]; contradiction]. intros _. rewrite Q, E. f_equal. destruct (t_rotation b) as [a1 a2 a3 a4]. quat. f_equal; ring.
  - split; [intros [C1 C2]; exfalso; destruct N; contradiction|]. intros _. split; [exact A|].
    pose proof (rotate_by_unit x y dx dy) as U. rewrite Q in *.
    exists (q_rotmatrix (q_from_axis_angle (drag_axis x y dx dy) ang)), ang. split; [exact B|]. split; [exact SA|]. split.
    + unfold q_from_axis_angle. rewrite v_normalize_unit by exact A. apply axis_angle_turns, unit_dot, A.
    + rewrite E. apply rotmatrix_add; assumption.
Qed.

Lemma drag_axis_perpendicular x y dx dy :
  dot (drag_axis x y dx dy) (V3 x y (project ball_size x y)) = 0 /\
  dot (drag_axis x y dx dy) (V3 (x + dx) (y + dy) (project ball_size (x + dx) (y + dy))) = 0.
Proof. unfold drag_axis, cross, dot. cbn [x3 y3 z3]. split; ring. Qed.

(** ** Recovery from a quaternion of the wrong length *)
Lemma drag_norm b x y dx dy :
  q_dot (t_rotation b) (t_rotation b) <> 0 -> (t_count b <= renorm_count)%nat ->
  let b' := drag_to b x y dx dy in
  t_model b' = q_rotmatrix (t_rotation b') /\ (t_count b' <= renorm_count)%nat /\
  ((t_count b = renorm_count /\ t_count b' = 0%nat /\ ok b') \/
   (t_count b < renorm_count /\ t_count b' = S (t_count b))%nat /\
    q_dot (t_rotation b') (t_rotation b') = q_dot (t_rotation b) (t_rotation b)).
Proof.
  intros H C. cbv zeta. unfold drag_to.
  assert (U : q_dot (q_add (rotate_by x y dx dy) (t_rotation b)) (q_add (rotate_by x y dx dy) (t_rotation b)) = q_dot (t_rotation b) (t_rotation b)).
  { rewrite q_add_norm, rotate_by_unit. ring. }
  destruct (renorm_count <? S (t_count b))%nat eqn:L; cbn [t_model t_rotation t_count].
  - apply Nat.ltb_lt in L. split; [reflexivity|]. split; [lia|]. left. split; [lia|]. split; [reflexivity|].
    split; [|reflexivity]. cbn [t_rotation]. apply q_normalize_unit. rewrite U. exact H.
  - apply Nat.ltb_ge in L. split; [reflexivity|]. split; [lia|]. right. split; [lia|exact U].
Qed.

Lemma drags_recover l b :
  q_dot (t_rotation b) (t_rotation b) <> 0 -> (t_count b <= renorm_count)%nat ->
  (renorm_count < t_count b + length l)%nat -> rotation (t_model (acts b (drags l))).
Proof.
  revert b. induction l as [|[[[x y] dx] dy] l IH]; intros b H C L; [cbn in L; lia|].
  change (acts b (drags ((x, y, dx, dy) :: l))) with (acts (drag_to b x y dx dy) (drags l)).
  destruct (drag_norm b x y dx dy H C) as (M & C' & D). destruct D as [(E & Z & K)|((E & Z) & N)].
  - destruct (acts_ok (drags l) _ K) as [H' E']. rewrite E'. apply rotmatrix_rotation, H'.
  - cbn [length] in L. apply IH; [rewrite N; exact H|exact C'|lia].
Qed.

Lemma count_bounded theta phi l : (t_count (acts (new_trackball theta phi) l) <= renorm_count)%nat.
Proof.
  assert (G : forall l b, (t_count b <= renorm_count)%nat -> (t_count (acts b l) <= renorm_count)%nat).
  { clear. induction l as [|a l IH]; intros b H; [exact H|]. apply (IH (act b a)).
    destruct a as [x y dx dy|v|v| |]; cbn [act].
    - unfold drag_to. destruct (renorm_count <? S (t_count b))%nat eqn:L; cbn [t_count]; [lia|]. apply Nat.ltb_ge in L. exact L.
    - exact H.
    - exact H.
    - unfold get_theta. destruct (get_orientation b) as [[th ph]|e]; exact H.
    - unfold get_phi. destruct (get_orientation b) as [[th ph]|e]; exact H. }
  apply G. cbn [t_count new_trackball set_orientation]. lia.
Qed.

(** ** Angles *)
Lemma half_x_turns theta :
  turns (q_rotmatrix (V4 (1 * sin (/ 2 * (theta * (PI / 180)))) 0 0 (cos (/ 2 * (theta * (PI / 180)))))) (radians theta) (V3 1 0 0).
Proof.
  replace (V4 (1 * sin (/ 2 * (theta * (PI / 180)))) 0 0 (cos (/ 2 * (theta * (PI / 180)))))
    with (append (v_mul (V3 1 0 0) (sin (radians theta / 2))) (cos (radians theta / 2))).
  - apply axis_angle_turns. mats. ring.
  - replace (/ 2 * (theta * (PI / 180))) with (radians theta / 2) by (unfold radians; field).
    unfold append, v_mul. cbn [x3 y3 z3]. f_equal; ring.
Qed.
Lemma half_z_turns phi :
  turns (q_rotmatrix (V4 0 0 (sin (/ 2 * (phi * (PI / 180)))) (cos (/ 2 * (phi * (PI / 180)))))) (radians phi) (V3 0 0 1).
Proof.
  replace (V4 0 0 (sin (/ 2 * (phi * (PI / 180)))) (cos (/ 2 * (phi * (PI / 180)))))
    with (append (v_mul (V3 0 0 1) (sin (radians phi / 2))) (cos (radians phi / 2))).
  - apply axis_angle_turns. mats. ring.
  - replace (/ 2 * (phi * (PI / 180))) with (radians phi / 2) by (unfold radians; field).
    unfold append, v_mul. cbn [x3 y3 z3]. f_equal; ring.
Qed.

Lemma set_orientation_model b theta phi :
  composed (zrotate phi false) (xrotate theta false) (t_model (set_orientation b theta phi)).
Proof.
  unfold set_orientation. cbn [t_model].
  rewrite (turns_unique _ _ _ (xrotate_turns theta)), (turns_unique _ _ _ (zrotate_turns phi)).
  rewrite <- (turns_unique _ _ _ (half_x_turns theta)), <- (turns_unique _ _ _ (half_z_turns phi)).
  apply rotmatrix_add; unfold q_dot; cbn [x4 y4 z4 w4].
  - pose proof (sc2 (/ 2 * (theta * (PI / 180)))). lra.
  - pose proof (sc2 (/ 2 * (phi * (PI / 180)))). lra.
Qed.

Lemma sin_shift x k : sin (x + 2 * IZR k * PI) = sin x.
Proof.
  destruct k as [|p|p].
  - f_equal. ring.
  - replace (IZR (Zpos p)) with (INR (Pos.to_nat p)); [apply sin_period|]. rewrite INR_IZR_INZ. f_equal. lia.
  - rewrite <- (sin_period (x + 2 * IZR (Zneg p) * PI) (Pos.to_nat p)). f_equal.
    replace (INR (Pos.to_nat p)) with (- IZR (Zneg p)); [ring|].
    rewrite INR_IZR_INZ, <- opp_IZR. f_equal. lia.
Qed.
Lemma cos_shift x k : cos (x + 2 * IZR k * PI) = cos x.
Proof.
  destruct k as [|p|p].
  - f_equal. ring.
  - replace (IZR (Zpos p)) with (INR (Pos.to_nat p)); [apply cos_period|]. rewrite INR_IZR_INZ. f_equal. lia.
  - rewrite <- (cos_period (x + 2 * IZR (Zneg p) * PI) (Pos.to_nat p)). f_equal.
    replace (INR (Pos.to_nat p)) with (- IZR (Zneg p)); [ring|].
    rewrite INR_IZR_INZ, <- opp_IZR. f_equal. lia.
Qed.

Lemma fmod360_turns x : exists k, x = fmod360 x + 360 * IZR k.
Proof.
  unfold fmod360. exists (if Rle_dec 0 x then Int_part (x / 360) else - Int_part (- x / 360))%Z. ring.
Qed.
Lemma fmod360_range x : -360 < fmod360 x < 360 /\ (0 <= x -> 0 <= fmod360 x) /\ (x <= 0 -> fmod360 x <= 0).
Proof.
  unfold fmod360. destruct (Rle_dec 0 x) as [L|L].
  - destruct (base_Int_part (x / 360)) as [A B]. assert (E : x = 360 * (x / 360)) by field.
    set (q := x / 360) in *. assert (Q : 0 <= q) by lra.
    split; [split; lra|]. split; intros; [lra|]. assert (q = 0) by lra. assert (I : Int_part q = 0%Z).
    { rewrite H0 in *. apply eq_IZR. assert (IZR (Int_part 0) <= 0) by lra. assert (-1 < IZR (Int_part 0)) by lra.
      assert (-1 < Int_part 0 <= 0)%Z by (split; [apply lt_IZR|apply le_IZR]; lra). f_equal. lia. }
    rewrite I. lra.
  - destruct (base_Int_part (- x / 360)) as [A B]. assert (E : x = - (360 * (- x / 360))) by field.
    rewrite opp_IZR. set (q := - x / 360) in *. split; [split; lra|]. split; intros; lra.
Qed.
Lemma xrotate_fmod t : xrotate (fmod360 t) false = xrotate t false.
Proof.
  destruct (fmod360_turns t) as [k E].
  assert (Q : radians t = radians (fmod360 t) + 2 * IZR k * PI) by (rewrite E at 1; unfold radians; field).
  unfold xrotate. rewrite Q, sin_shift, cos_shift. reflexivity.
Qed.
Lemma zrotate_fmod t : zrotate (fmod360 t) false = zrotate t false.
Proof.
  destruct (fmod360_turns t) as [k E].
  assert (Q : radians t = radians (fmod360 t) + 2 * IZR k * PI) by (rewrite E at 1; unfold radians; field).
  unfold zrotate. rewrite Q, sin_shift, cos_shift. reflexivity.
Qed.

(** Assigning an angle: the last stored value of the other one is used. *)
Lemma set_theta_model b v : composed (zrotate (t_phi b) false) (xrotate v false) (t_model (set_theta b v)).
Proof. unfold set_theta. rewrite <- (xrotate_fmod v), <- (zrotate_fmod (t_phi b)). apply set_orientation_model. Qed.
Lemma set_phi_model b v : composed (zrotate v false) (xrotate (t_theta b) false) (t_model (set_phi b v)).
Proof. unfold set_phi. rewrite <- (xrotate_fmod (t_theta b)), <- (zrotate_fmod v). apply set_orientation_model. Qed.

Lemma drags_keep_angles l b : t_theta (acts b (drags l)) = t_theta b /\ t_phi (acts b (drags l)) = t_phi b.
Proof.
  revert b. induction l as [|[[[x y] dx] dy] l IH]; intros b; [split; reflexivity|].
  change (acts b (drags ((x, y, dx, dy) :: l))) with (acts (drag_to b x y dx dy) (drags l)).
  destruct (IH (drag_to b x y dx dy)) as [-> ->]. unfold drag_to.
  destruct (renorm_count <? S (t_count b))%nat; split; reflexivity.
Qed.
(** So assigning an angle throws away every drag since the angles were last
    assigned or read. *)
Lemma drags_forgotten l b v :
  t_model (set_theta (acts b (drags l)) v) = t_model (set_theta b v) /\
  t_model (set_phi (acts b (drags l)) v) = t_model (set_phi b v).
Proof.
  destruct (drags_keep_angles l b) as [E1 E2]. unfold set_theta, set_phi, set_orientation. cbn [t_model].
  rewrite E1, E2. split; reflexivity.
Qed.

(** Reading angles back. *)
Lemma orientation_read b theta phi :
  cos (radians theta) <> 0 -> cos (radians phi) <> 0 ->
  get_orientation (set_orientation b theta phi) =
  Ok (atan (tan (radians theta)) * 180 / PI, atan (tan (radians phi)) * 180 / PI).
Proof.
  intros CT CP. unfold get_orientation, set_orientation. cbn [t_rotation]. quat.
  replace (/ 2 * (theta * (PI / 180))) with (radians theta / 2) by (unfold radians; field).
  replace (/ 2 * (phi * (PI / 180))) with (radians phi / 2) by (unfold radians; field).
  assert (HT : radians theta = 2 * (radians theta / 2)) by field.
  assert (HP : radians phi = 2 * (radians phi / 2)) by field.
  assert (TT : forall h, tan (2 * h) = 2 * sin h * cos h / (cos h * cos h - sin h * sin h)).
  { intros h. unfold tan. rewrite sin_2a, cos_2a. reflexivity. }
  assert (ET : tan (radians theta) = 2 * sin (radians theta / 2) * cos (radians theta / 2) /
     (cos (radians theta / 2) * cos (radians theta / 2) - sin (radians theta / 2) * sin (radians theta / 2))).
  { rewrite HT at 1. apply TT. }
  assert (EP : tan (radians phi) = 2 * sin (radians phi / 2) * cos (radians phi / 2) /
     (cos (radians phi / 2) * cos (radians phi / 2) - sin (radians phi / 2) * sin (radians phi / 2))).
  { rewrite HP at 1. apply TT. }
  rewrite ET, EP. rewrite HT, cos_2a in CT. rewrite HP, cos_2a in CP. clear ET EP TT.
  pose proof (sc2 (radians theta / 2)) as S1. pose proof (sc2 (radians phi / 2)) as S2.
  set (s := sin (radians theta / 2)) in *. set (c := cos (radians theta / 2)) in *.
  set (s' := sin (radians phi / 2)) in *. set (c' := cos (radians phi / 2)) in *. clearbody s c s' c'. clear HT HP.
  match goal with |- context [div ?n1 ?d1] => replace n1 with (2 * s' * c') by (clear -S1 S2; nsatz);
    replace d1 with (c' * c' - s' * s') by (clear -S1 S2; nsatz) end.
  rewrite div_ok by exact CP. cbn [bind].
  match goal with |- context [div ?n1 ?d1] => replace n1 with (2 * s * c) by (clear -S1 S2; nsatz);
    replace d1 with (- (c * c - s * s)) by (clear -S1 S2; nsatz) end.
  rewrite div_ok by lra. cbn [bind]. f_equal. f_equal.
  replace (2 * s * c / - (c * c - s * s)) with (- (2 * s * c / (c * c - s * s))) by (field; lra).
  rewrite atan_opp. field. apply PI_neq0.
Qed.

Lemma read_back b theta phi :
  -90 < theta < 90 -> -90 < phi < 90 -> get_orientation (set_orientation b theta phi) = Ok (theta, phi).
Proof.
  intros T P. pose proof PI_RGT_0 as PP.
  assert (RT : - (PI / 2) < radians theta < PI / 2) by (unfold radians; split; nra).
  assert (RP : - (PI / 2) < radians phi < PI / 2) by (unfold radians; split; nra).
  rewrite orientation_read.
  - rewrite !atan_tan by lra. unfold radians. f_equal. f_equal; field; lra.
  - pose proof (cos_gt_0 (radians theta)). lra.
  - pose proof (cos_gt_0 (radians phi)). lra.
Qed.

Lemma half_turn_read_zero :
  get_orientation (new_trackball 180 0) = Ok (0, 0).
Proof.
  unfold new_trackball. rewrite orientation_read.
  - replace (radians 180) with (0 + PI) by (unfold radians; field). replace (radians 0) with 0 by (unfold radians; ring).
    assert (E : tan (0 + PI) = 0).
    { unfold tan. rewrite neg_sin, sin_0. unfold Rdiv. ring. }
    rewrite E, tan_0, atan_0. f_equal. f_equal; field; apply PI_neq0.
  - replace (radians 180) with PI by (unfold radians; field). rewrite cos_PI. lra.
  - replace (radians 0) with 0 by (unfold radians; ring). rewrite cos_0. lra.
Qed.

Lemma right_angle_unreadable b phi : get_orientation (set_orientation b phi 90) = Err ZeroDivisionError.
Proof.
  unfold get_orientation, set_orientation. cbn [t_rotation]. quat.
  replace (/ 2 * (90 * (PI / 180))) with (PI / 4) by field.
  rewrite sin_PI4, cos_PI4. pose proof (sc2 (/ 2 * (phi * (PI / 180)))) as S1.
  set (s := sin (/ 2 * (phi * (PI / 180)))) in *. set (c := cos (/ 2 * (phi * (PI / 180)))) in *. clearbody s c.
  assert (Q : 1 / sqrt 2 * (1 / sqrt 2) = / 2).
  { replace (1 / sqrt 2 * (1 / sqrt 2)) with (/ (sqrt 2 * sqrt 2)) by (field; pose proof (sqrt_lt_R0 2); lra).
    rewrite sqrt_sqrt by lra. reflexivity. }
  set (h := 1 / sqrt 2) in *. clearbody h. assert (Q2 : 2 * (h * h) = 1) by lra. unfold div at 1.
  match goal with |- context [Req_EM_T ?e 0] => replace e with 0 by (clear -S1 Q2; nsatz) end.
  destruct (Req_EM_T 0 0) as [_|N]; [reflexivity|contradiction].
Qed.

Lemma Int_part_small q : 0 <= q < 1 -> Int_part q = 0%Z.
Proof.
  intros H. destruct (base_Int_part q) as [A B].
  assert (-1 < Int_part q < 1)%Z by (split; apply lt_IZR; lra). lia.
Qed.
Lemma fmod360_small x : -360 < x < 360 -> fmod360 x = x.
Proof.
  intros H. unfold fmod360. destruct (Rle_dec 0 x).
  - rewrite Int_part_small by lra. ring.
  - rewrite Int_part_small by lra. cbn [Z.opp]. ring.
Qed.

Lemma assigned_shown b v w :
  composed (zrotate w false) (xrotate v false) (t_model (set_phi (set_theta b v) w)) /\
  composed (zrotate w false) (xrotate v false) (t_model (set_theta (set_phi b w) v)).
Proof.
  split.
  - pose proof (set_phi_model (set_theta b v) w) as H. unfold set_theta at 1 in H. cbn [t_theta set_orientation] in H.
    rewrite xrotate_fmod in H. exact H.
  - pose proof (set_theta_model (set_phi b w) v) as H. unfold set_phi at 1 in H. cbn [t_phi set_orientation] in H.
    rewrite zrotate_fmod in H. exact H.
Qed.
Lemma read_then_assigned b v w :
  (snd (get_theta b) = Ok v -> composed (zrotate w false) (xrotate v false) (t_model (set_phi (fst (get_theta b)) w))) /\
  (snd (get_phi b) = Ok v -> composed (zrotate v false) (xrotate w false) (t_model (set_theta (fst (get_phi b)) w))) /\
  t_model (fst (get_theta b)) = t_model b /\ t_model (fst (get_phi b)) = t_model b.
Proof.
  unfold get_theta, get_phi. destruct (get_orientation b) as [[th ph]|e]; cbn [fst snd t_model].
  - split; [|split; [|split; reflexivity]]; intros H; injection H as <-.
    + apply (set_phi_model (mkBall _ _ _ th _)).
    + apply (set_theta_model (mkBall _ _ _ _ ph)).
  - repeat split; discriminate.
Qed.
Lemma null_axis phi : q_from_axis_angle zero3 phi = V4 0 0 0 (cos (phi / 2)).
Proof.
  unfold q_from_axis_angle. assert (E : v_normalize zero3 = zero3).
  { unfold v_normalize. destruct (Req_EM_T _ _) as [_|N]; [reflexivity|]. destruct N. unfold v_length, v_dot, zero3.
    cbn [x3 y3 z3]. replace (0 * 0 + 0 * 0 + 0 * 0) with 0 by ring. apply sqrt_0. }
  rewrite E. unfold append, v_mul, zero3. cbn [x3 y3 z3]. f_equal; ring.
Qed.
Lemma assigned_read b v w :
  -90 < v < 90 -> -90 < w < 90 ->
  let b' := set_phi (set_theta b v) w in
  snd (get_theta b') = Ok v /\ snd (get_phi b') = Ok w /\ t_model (fst (get_theta b')) = t_model b'.
Proof.
  intros V W. cbv zeta.
  assert (E : get_orientation (set_phi (set_theta b v) w) = Ok (v, w)).
  { unfold set_phi, set_theta. cbn [t_theta set_orientation]. rewrite (fmod360_small v), (fmod360_small w) by lra. rewrite (fmod360_small v) by lra.
    apply read_back; assumption. }
  unfold get_theta, get_phi. rewrite E. repeat split.
Qed.
