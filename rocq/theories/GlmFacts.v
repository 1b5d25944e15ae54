(** Proofs about the matrices of glm. *)
From Coq Require Import Reals Lra Psatz Nsatz.
From Verif Require Import Base Glm GlmSpec.
Local Open Scope R_scope.

Ltac mats := unfold finish, transpose, apply4, matmul, dot4, point, direction, sub3, scale3, dot, cross; cbn [x3 y3 z3 x4 y4 z4 w4 row0 row1 row2 row3].

(** ** Rotations about the axes *)
Lemma sc2 t : sin t * sin t + cos t * cos t = 1.
Proof. exact (sin2_cos2 t). Qed.

Lemma radians_plus a b : radians (a + b) = radians a + radians b.
Proof. unfold radians. ring. Qed.
Lemma radians_opp a : radians (- a) = - radians a.
Proof. unfold radians. ring. Qed.

Lemma mat_ext A B : row0 A = row0 B -> row1 A = row1 B -> row2 A = row2 B -> row3 A = row3 B -> A = B.
Proof. destruct A, B; cbn; intros; congruence. Qed.
Lemma vec4_ext u v : x4 u = x4 v -> y4 u = y4 v -> z4 u = z4 v -> w4 u = w4 v -> u = v.
Proof. destruct u, v; cbn; intros; congruence. Qed.
Lemma vec3_ext u v : x3 u = x3 v -> y3 u = y3 v -> z3 u = z3 v -> u = v.
Proof. destruct u, v; cbn; intros; congruence. Qed.

Ltac entries := repeat (apply mat_ext || apply vec4_ext || apply vec3_ext); cbn [x3 y3 z3 x4 y4 z4 w4 row0 row1 row2 row3].

Lemma xrotate_turns t : turns (xrotate t false) (radians t) (V3 1 0 0).
Proof. intros p. unfold sends, xrotate, turned. mats. entries; ring. Qed.
Lemma yrotate_turns t : turns (yrotate t false) (radians t) (V3 0 1 0).
Proof. intros p. unfold sends, yrotate, turned. mats. entries; ring. Qed.
Lemma zrotate_turns t : turns (zrotate t false) (radians t) (V3 0 0 1).
Proof. intros p. unfold sends, zrotate, turned. mats. entries; ring. Qed.

Lemma xrotate_transpose t : xrotate t true = xrotate (- t) false.
Proof. unfold xrotate. rewrite radians_opp, sin_neg, cos_neg. mats. entries; ring. Qed.
Lemma yrotate_transpose t : yrotate t true = yrotate (- t) false.
Proof. unfold yrotate. rewrite radians_opp, sin_neg, cos_neg. mats. entries; ring. Qed.
Lemma zrotate_transpose t : zrotate t true = zrotate (- t) false.
Proof. unfold zrotate. rewrite radians_opp, sin_neg, cos_neg. mats. entries; ring. Qed.

(** A matrix that turns about a unit axis is determined, and is a rotation. *)
Definition turn_matrix (t : R) (u : vec3) : mat :=
  let c := cos t in let s := sin t in
  Mat (V4 (c + (1 - c) * x3 u * x3 u) (- s * z3 u + (1 - c) * x3 u * y3 u) (s * y3 u + (1 - c) * x3 u * z3 u) 0)
      (V4 (s * z3 u + (1 - c) * x3 u * y3 u) (c + (1 - c) * y3 u * y3 u) (- s * x3 u + (1 - c) * y3 u * z3 u) 0)
      (V4 (- s * y3 u + (1 - c) * x3 u * z3 u) (s * x3 u + (1 - c) * y3 u * z3 u) (c + (1 - c) * z3 u * z3 u) 0)
      (V4 0 0 0 1).

Lemma turn_matrix_turns t u : turns (turn_matrix t u) t u.
Proof. intros p. unfold sends, turn_matrix, turned. mats. entries; ring. Qed.

Lemma sends_determined A B :
  (forall p q, sends A p q -> sends B p q) -> (exists f, forall p, sends A p (f p)) -> A = B.
Proof.
  intros H [f F].
  assert (E : forall p, apply4 A (point p) = apply4 B (point p)).
  { intros p. rewrite (F p). symmetry. apply H, F. }
  pose proof (E (V3 0 0 0)) as E0. pose proof (E (V3 1 0 0)) as E1.
  pose proof (E (V3 0 1 0)) as E2. pose proof (E (V3 0 0 1)) as E3.
  destruct A as [[a0 a1 a2 a3] [b0 b1 b2 b3] [c0 c1 c2 c3] [d0 d1 d2 d3]].
  destruct B as [[a0' a1' a2' a3'] [b0' b1' b2' b3'] [c0' c1' c2' c3'] [d0' d1' d2' d3']].
  revert E0 E1 E2 E3. mats. intros E0 E1 E2 E3.
  injection E0; injection E1; injection E2; injection E3. clear. intros.
  entries; lra.
Qed.

Lemma turns_unique A t u : turns A t u -> A = turn_matrix t u.
Proof.
  intros H. apply sends_determined.
  - intros p q E. pose proof (turn_matrix_turns t u p) as T. unfold sends in *.
    rewrite <- E, (H p). exact T.
  - exists (turned t u). exact H.
Qed.

Lemma turn_matrix_rotation t u : dot u u = 1 -> rotation (turn_matrix t u).
Proof.
  destruct u as [x y w]. unfold dot. cbn [x3 y3 z3]. intros U.
  unfold rotation, only_block, det3, turn_matrix. mats.
  pose proof (sc2 t) as SC. set (c := cos t) in *. set (s := sin t) in *. clearbody c s.
  assert (W : w * w = 1 - x * x - y * y) by lra.
  assert (S : s * s = 1 - c * c) by lra.
  repeat split; try reflexivity; nsatz.
Qed.

Lemma turn_matrix_plus a b u :
  dot u u = 1 -> turn_matrix (a + b) u = matmul (turn_matrix a u) (turn_matrix b u).
Proof.
  destruct u as [x y w]. unfold dot. cbn [x3 y3 z3]. intros U.
  unfold turn_matrix. rewrite cos_plus, sin_plus. mats.
  set (ca := cos a). set (sa := sin a). set (cb := cos b). set (sb := sin b). clearbody ca sa cb sb.
  entries; nsatz.
Qed.

Lemma matmul_apply A B v : apply4 (matmul A B) v = apply4 A (apply4 B v).
Proof. destruct v. mats. entries; ring. Qed.

Lemma turned_plus a b u p : dot u u = 1 -> turned (a + b) u p = turned a u (turned b u p).
Proof.
  intros U.
  pose proof (turn_matrix_turns (a + b) u p) as H1.
  pose proof (turn_matrix_turns b u p) as H2.
  pose proof (turn_matrix_turns a u (turned b u p)) as H3.
  unfold sends in *. rewrite turn_matrix_plus in H1 by assumption. rewrite matmul_apply, H2, H3 in H1.
  unfold point in H1. injection H1 as E1 E2 E3. apply vec3_ext; symmetry; assumption.
Qed.

Lemma turned_axis t u k : dot u u = 1 -> turned t u (scale3 k u) = scale3 k u.
Proof.
  intros U. unfold turned, scale3, dot in *. cbn [x3 y3 z3] in *. destruct u as [x y w]. cbn [x3 y3 z3] in *.
  entries; nsatz.
Qed.

(** Turning keeps lengths and angles. *)
Lemma turned_dot t u p q : dot u u = 1 -> dot (turned t u p) (turned t u q) = dot p q.
Proof.
  intros U. unfold turned, dot in *. destruct u as [x y w], p as [p1 p2 p3], q as [q1 q2 q3].
  cbn [x3 y3 z3] in *. pose proof (sc2 t) as SC.
  set (c := cos t) in *. set (s := sin t) in *. clearbody c s. nsatz.
Qed.

(** ** rotate *)
Lemma norm_nonneg v : 0 <= norm v.
Proof. apply sqrt_pos. Qed.
Lemma norm_sq v : norm v * norm v = dot v v.
Proof.
  apply sqrt_sqrt. unfold dot. nra.
Qed.
Lemma norm_pos v : v <> zero3 -> 0 < norm v.
Proof.
  intros H. destruct (Rle_lt_or_eq_dec 0 (norm v) (norm_nonneg v)) as [L|E]; [exact L|].
  exfalso. apply H. pose proof (norm_sq v) as N. rewrite <- E in N. unfold dot in N.
  destruct v as [x y z]. cbn [x3 y3 z3] in N. unfold zero3.
  assert (x = 0) by nra. assert (y = 0) by nra. assert (z = 0) by nra. subst. reflexivity.
Qed.
Lemma tiny_pos : 0 < tiny.
Proof. unfold tiny. lra. Qed.

Lemma unit_dot v : v <> zero3 -> dot (unit v) (unit v) = 1.
Proof.
  intros H. pose proof (norm_pos v H) as P. pose proof (norm_sq v) as N.
  unfold unit, dot in *. cbn [x3 y3 z3].
  replace (x3 v / norm v * (x3 v / norm v) + y3 v / norm v * (y3 v / norm v) + z3 v / norm v * (z3 v / norm v))
    with ((x3 v * x3 v + y3 v * y3 v + z3 v * z3 v) / (norm v * norm v)) by (field; lra).
  rewrite N. field. rewrite <- N. nra.
Qed.

(** How much [normalize] shortens. *)
Definition shrink (v : vec3) : R := norm v / (tiny + norm v).
Lemma normalize_unit v : v <> zero3 -> normalize v = scale3 (shrink v) (unit v).
Proof.
  intros H. pose proof (norm_pos v H). pose proof tiny_pos.
  unfold normalize, scale3, unit, shrink. cbn [x3 y3 z3]. f_equal; field; lra.
Qed.
Lemma shrink_bounds v : v <> zero3 -> 0 < shrink v < 1 /\ 1 - shrink v <= tiny / norm v.
Proof.
  intros H. pose proof (norm_pos v H) as P. pose proof tiny_pos as T. unfold shrink.
  assert (Q : 0 < tiny + norm v) by lra.
  assert (E : 1 - norm v / (tiny + norm v) = tiny / (tiny + norm v)) by (field; lra).
  split.
  - split.
    + apply Rdiv_lt_0_compat; lra.
    + apply Rmult_lt_reg_r with (tiny + norm v); [lra|]. unfold Rdiv. rewrite Rmult_assoc, Rinv_l by lra. lra.
  - rewrite E. unfold Rdiv. apply Rmult_le_compat_l; [lra|]. apply Rinv_le_contravar; lra.
Qed.

Lemma rotate_about_near t u k :
  dot u u = 1 -> 0 <= k <= 1 -> near (3 * (1 - k)) (rotate_about t (scale3 k u)) (turn_matrix t u).
Proof.
  destruct u as [x y z]. unfold dot. cbn [x3 y3 z3]. intros U K.
  unfold rotate_about, turn_matrix, scale3. cbn [x3 y3 z3].
  replace (cos t) with (cos (t / 2) * cos (t / 2) - sin (t / 2) * sin (t / 2))
    by (rewrite <- cos_2a; f_equal; field).
  replace (sin t) with (2 * sin (t / 2) * cos (t / 2)) by (rewrite <- sin_2a; f_equal; field).
  pose proof (sc2 (t / 2)) as SC. set (c := cos (t / 2)) in *. set (s := sin (t / 2)) in *. clearbody c s.
  assert (S2 : 0 <= s * s <= 1) by nra.
  assert (KK : 0 <= 1 - k * k <= 2 * (1 - k)) by (split; nra).
  assert (SK : 0 <= s * s * (1 - k * k) <= 2 * (1 - k)).
  { set (m := 1 - k * k) in *. clearbody m. split; [apply Rmult_le_pos; lra|]. apply Rle_trans with (1 * m); [|lra].
    apply Rmult_le_compat_r; lra. }
  assert (SCB : -1 <= 2 * (s * c) <= 1).
  { pose proof (Rle_0_sqr (s + c)) as Q1. pose proof (Rle_0_sqr (s - c)) as Q2. unfold Rsqr in Q1, Q2. lra. }
  assert (D : forall a, -1 <= a <= 1 -> Rabs (s * s * (k * k - 1) * a) <= 3 * (1 - k)).
  { intros a A. replace (s * s * (k * k - 1) * a) with (- (s * s * (1 - k * k) * a)) by ring.
    rewrite Rabs_Ropp. set (m := s * s * (1 - k * k)) in *. clearbody m. apply Rabs_le. split; nra. }
  assert (O : forall p a, -1 <= 2 * p <= 1 -> -1 <= a <= 1 ->
     Rabs (2 * (s * s) * (k * k - 1) * p + 2 * (1 - k) * (s * c) * a) <= 3 * (1 - k)).
  { intros p a Hp Ha.
    replace (2 * (s * s) * (k * k - 1) * p + 2 * (1 - k) * (s * c) * a)
      with (- (s * s * (1 - k * k) * (2 * p)) + (1 - k) * (2 * (s * c) * a)) by ring.
    set (m := s * s * (1 - k * k)) in *. clearbody m. set (j := 1 - k) in *.
    assert (J : 0 <= j <= 1) by (unfold j; lra). clearbody j.
    set (e := 2 * (s * c)) in *. clearbody e.
    assert (-1 <= e * a <= 1) by (split; nra). set (f := e * a) in *. clearbody f.
    set (g := 2 * p) in *. clearbody g.
    assert (- j <= j * f <= j) by (split; nra).
    assert (- (2 * j) <= m * g <= 2 * j) by (split; nra).
    apply Rabs_le. lra. }
  assert (Hx : -1 <= x <= 1) by nra. assert (Hy : -1 <= y <= 1) by nra. assert (Hz : -1 <= z <= 1) by nra.
  assert (B : forall a b d, a * a + b * b + d * d = 1 -> -1 <= 2 * (a * b) <= 1).
  { intros a b d E. pose proof (Rle_0_sqr (a + b)) as Q1. pose proof (Rle_0_sqr (a - b)) as Q2.
    pose proof (Rle_0_sqr d) as Q3. unfold Rsqr in Q1, Q2, Q3. lra. }
  assert (XY : -1 <= 2 * (x * y) <= 1) by (apply B with z; lra).
  assert (XZ : -1 <= 2 * (x * z) <= 1) by (apply B with y; lra).
  assert (YZ : -1 <= 2 * (y * z) <= 1) by (apply B with x; lra).
  assert (Z0 : Rabs (0 - 0) <= 3 * (1 - k)).
  { rewrite Rminus_0_r, Rabs_R0. lra. }
  unfold near, near4. cbn [x4 y4 z4 w4 row0 row1 row2 row3].
  split; [|split; [|split]].
  - repeat split; try exact Z0.
    + match goal with |- Rabs ?r <= _ => replace r with (s * s * (k * k - 1) * (x * x - y * y - z * z)) by (clear -U SC; nsatz) end. apply D. nra.
    + match goal with |- Rabs ?r <= _ => replace r with (2 * (s * s) * (k * k - 1) * (x * y) + 2 * (1 - k) * (s * c) * z) by (clear -U SC; nsatz) end. apply O; lra.
    + match goal with |- Rabs ?r <= _ => replace r with (2 * (s * s) * (k * k - 1) * (x * z) + 2 * (1 - k) * (s * c) * - y) by (clear -U SC; nsatz) end. apply O; lra.
  - repeat split; try exact Z0.
    + match goal with |- Rabs ?r <= _ => replace r with (2 * (s * s) * (k * k - 1) * (x * y) + 2 * (1 - k) * (s * c) * - z) by (clear -U SC; nsatz) end. apply O; lra.
    + match goal with |- Rabs ?r <= _ => replace r with (s * s * (k * k - 1) * (y * y - x * x - z * z)) by (clear -U SC; nsatz) end. apply D. nra.
    + match goal with |- Rabs ?r <= _ => replace r with (2 * (s * s) * (k * k - 1) * (y * z) + 2 * (1 - k) * (s * c) * x) by (clear -U SC; nsatz) end. apply O; lra.
  - repeat split; try exact Z0.
    + match goal with |- Rabs ?r <= _ => replace r with (2 * (s * s) * (k * k - 1) * (x * z) + 2 * (1 - k) * (s * c) * y) by (clear -U SC; nsatz) end. apply O; lra.
    + match goal with |- Rabs ?r <= _ => replace r with (2 * (s * s) * (k * k - 1) * (y * z) + 2 * (1 - k) * (s * c) * - x) by (clear -U SC; nsatz) end. apply O; lra.
    + match goal with |- Rabs ?r <= _ => replace r with (s * s * (k * k - 1) * (z * z - x * x - y * y)) by (clear -U SC; nsatz) end. apply D. nra.
  - repeat split; try exact Z0. replace (1 - 1) with 0 by ring. rewrite Rabs_R0. lra.
Qed.

Lemma near_weaken e f A B : e <= f -> near e A B -> near f A B.
Proof. unfold near, near4. intros H. intuition lra. Qed.

Lemma rotate_near theta axis :
  axis <> zero3 ->
  exists T, turns T (radians theta) (unit axis) /\ near (3 * (tiny / norm axis)) (rotate theta axis false) T.
Proof.
  intros H. exists (turn_matrix (radians theta) (unit axis)). split; [apply turn_matrix_turns|].
  unfold rotate, finish. rewrite normalize_unit by assumption.
  destruct (shrink_bounds axis H) as [K L].
  apply near_weaken with (3 * (1 - shrink axis)); [lra|].
  apply rotate_about_near; [apply unit_dot; assumption|lra].
Qed.

(** What rotate does exactly: it turns and scales. *)
Definition stretch (theta : R) (axis : vec3) : R :=
  1 - (1 - shrink axis * shrink axis) * (sin (radians theta / 2) * sin (radians theta / 2)).

Lemma rotate_axis theta axis :
  axis <> zero3 -> exists n, 1 - 2 * (tiny / norm axis) <= n <= 1 /\
    sends (rotate theta axis false) axis (scale3 n axis).
Proof.
  intros H. exists (stretch theta axis). destruct (shrink_bounds axis H) as [K L].
  pose proof (sc2 (radians theta / 2)) as SC. unfold stretch.
  split.
  - set (k := shrink axis) in *. clearbody k. set (s := sin (radians theta / 2)) in *. set (c := cos (radians theta / 2)) in *. clearbody s c.
    assert (S2 : 0 <= s * s <= 1) by nra.
    assert (KK : 0 <= 1 - k * k <= 2 * (1 - k)) by (split; nra).
    set (m := 1 - k * k) in *. clearbody m. set (q := s * s) in *. clearbody q. split; nra.
  - pose proof (normalize_unit axis H) as NU. pose proof (unit_dot axis H) as U.
    pose proof (norm_pos axis H) as P.
    assert (E : axis = scale3 (norm axis) (unit axis)).
    { unfold scale3, unit. cbn [x3 y3 z3]. apply vec3_ext; cbn [x3 y3 z3]; field; lra. }
    unfold sends, rotate, finish, rotate_about. rewrite NU. set (k := shrink axis) in *. set (u := unit axis) in *.
    set (n := norm axis) in *. clearbody k u n. subst axis. destruct u as [x y z].
    unfold scale3, dot in *. cbn [x3 y3 z3] in *. mats.
    set (s := sin (radians theta / 2)) in *. set (c := cos (radians theta / 2)) in *. clearbody s c.
    clear -SC U. entries; nsatz.
Qed.

(** A short enough axis defeats the normalisation: a half turn about
    (1e-16, 0, 0) shrinks everything by four. *)
Lemma rotate_short_axis :
  let a := V3 tiny 0 0 in a <> zero3 /\ ~ rotation (rotate 180 a false) /\ sends (rotate 180 a false) (V3 0 1 0) (V3 0 (- / 4) 0).
Proof.
  cbv zeta. pose proof tiny_pos as T.
  assert (N : normalize (V3 tiny 0 0) = V3 (/ 2) 0 0).
  { unfold normalize, norm, dot. cbn [x3 y3 z3].
    replace (tiny * tiny + 0 * 0 + 0 * 0) with (tiny * tiny) by ring.
    rewrite sqrt_square by lra. f_equal; field; lra. }
  assert (A : radians 180 / 2 = PI / 2) by (unfold radians; field).
  assert (M : rotate 180 (V3 tiny 0 0) false =
    Mat (V4 (/ 4) 0 0 0) (V4 0 (- / 4) 0 0) (V4 0 0 (- / 4) 0) (V4 0 0 0 1)).
  { unfold rotate, finish, rotate_about. rewrite N, A, cos_PI2, sin_PI2. cbn [x3 y3 z3]. entries; field. }
  rewrite M. split; [|split].
  - intros E. injection E. lra.
  - intros (_ & E & _). revert E. mats. lra.
  - unfold sends. mats. entries; ring.
Qed.

Lemma rotate_transpose theta axis : rotate theta axis true = rotate (- theta) axis false.
Proof.
  unfold rotate, finish, rotate_about, transpose. rewrite radians_opp.
  replace (- radians theta / 2) with (- (radians theta / 2)) by field.
  rewrite sin_neg, cos_neg. entries; ring.
Qed.

(** ** Projections *)
Lemma div_ok a b : b <> 0 -> div a b = Ok (a / b).
Proof. intros H. unfold div. destruct (Req_EM_T b 0); [contradiction|reflexivity]. Qed.

Lemma ortho_ok l r b t n f :
  volume l r b t n f ->
  ortho l r b t n f false =
  Ok (Mat (V4 (2 / (r - l)) 0 (- (r + l) / (r - l)) 0)
          (V4 0 (2 / (t - b)) 0 (- (t + b) / (t - b)))
          (V4 0 0 (- 2 / (f - n)) (- (f + n) / (f - n)))
          (V4 0 0 0 1)).
Proof.
  intros (H1 & H2 & H3). unfold ortho. repeat (rewrite div_ok by lra; cbn [bind]). reflexivity.
Qed.

Lemma ortho_corners l r b t n f m :
  volume l r b t n f -> ortho l r b t n f false = Ok m ->
  ((forall s1 s2 s3, projects m (V3 (pick l r s1) (pick b t s2) (pick (- n) (- f) s3)) (corner s1 s2 s3)) <-> l + r = 0).
Proof.
  intros V E. rewrite ortho_ok in E by assumption. injection E as <-. destruct V as (H1 & H2 & H3). split.
  - intros H. destruct (H false false false) as (w & W & P). destruct (H false false true) as (w' & W' & P').
    revert P P'. unfold corner, pick. mats. intros P P'. injection P as P1 P2 P3 P4. injection P' as P1' P2' P3' P4'.
    assert (w = 1) by lra. assert (w' = 1) by lra. subst w w'.
    assert (Q : (r + l) / (r - l) * (f - n) = 0) by lra.
    assert (F : r + l = (r + l) / (r - l) * (f - n) * ((r - l) / (f - n))) by (field; lra).
    rewrite Q in F. lra.
  - intros S s1 s2 s3. assert (r = - l) by lra. subst r. exists 1. split; [lra|].
    unfold corner. mats. entries; destruct s1, s2, s3; cbn [pick]; field; lra.
Qed.

(** In its y and z parts ortho is right for every volume. *)
Lemma ortho_yz l r b t n f m p :
  volume l r b t n f -> ortho l r b t n f false = Ok m ->
  y4 (apply4 m (point p)) = (2 * y3 p - (t + b)) / (t - b) /\
  z4 (apply4 m (point p)) = (- 2 * z3 p - (f + n)) / (f - n) /\
  w4 (apply4 m (point p)) = 1.
Proof.
  intros V E. rewrite ortho_ok in E by assumption. injection E as <-. destruct V as (H1 & H2 & H3).
  mats. repeat split; field; lra.
Qed.

Lemma ortho_flat l r b t n f tr : ~ volume l r b t n f -> ortho l r b t n f tr = Err ZeroDivisionError.
Proof.
  intros V. unfold volume in V. unfold ortho, div.
  destruct (Req_EM_T (r - l) 0); [reflexivity|]. cbn [bind].
  destruct (Req_EM_T (t - b) 0); [reflexivity|]. cbn [bind].
  destruct (Req_EM_T (f - n) 0); [reflexivity|]. exfalso. apply V. repeat split; lra.
Qed.

Lemma frustum_ok l r b t n f :
  volume l r b t n f ->
  frustum l r b t n f false =
  Ok (Mat (V4 (2 * n / (r - l)) 0 ((r + l) / (r - l)) 0)
          (V4 0 (2 * n / (t - b)) 0 0)
          (V4 0 ((t + b) / (t - b)) (- (f + n) / (f - n)) (- 2 * n * f / (f - n)))
          (V4 0 0 (-1) 0)).
Proof.
  intros (H1 & H2 & H3). unfold frustum. repeat (rewrite div_ok by lra; cbn [bind]). reflexivity.
Qed.
Lemma frustum_flat l r b t n f tr : ~ volume l r b t n f -> frustum l r b t n f tr = Err ZeroDivisionError.
Proof.
  intros V. unfold volume in V. unfold frustum, div.
  destruct (Req_EM_T (r - l) 0); [reflexivity|]. cbn [bind].
  destruct (Req_EM_T (t - b) 0); [reflexivity|]. cbn [bind].
  destruct (Req_EM_T (f - n) 0); [reflexivity|]. exfalso. apply V. repeat split; lra.
Qed.

Lemma frustum_corners l r b t n f m :
  volume l r b t n f -> n <> 0 -> f <> 0 -> frustum l r b t n f false = Ok m ->
  ((forall s1 s2 s3, projects m (frustum_corner l r b t n f s1 s2 s3) (corner s1 s2 s3)) <-> b + t = 0).
Proof.
  intros V N F E. rewrite frustum_ok in E by assumption. injection E as <-. destruct V as (H1 & H2 & H3). split.
  - intros H. destruct (H false false false) as (w & W & P).
    revert P. unfold corner, frustum_corner, pick. mats. intros P. injection P as P1 P2 P3 P4.
    assert (w = n) by lra. subst w.
    assert (Q : 2 * n / (t - b) * b = - n) by lra.
    assert (Q' : 2 * b = - (t - b)).
    { apply Rmult_eq_reg_l with (n / (t - b)).
      - transitivity (2 * n / (t - b) * b); [field; lra|]. rewrite Q. field; lra.
      - unfold Rdiv. apply Rmult_integral_contrapositive_currified; [assumption|apply Rinv_neq_0_compat; lra]. }
    lra.
  - intros S s1 s2 s3. assert (t = - b) by lra. subst t. exists (pick n f s3). split; [destruct s3; assumption|].
    unfold corner, frustum_corner. mats. entries; destruct s1, s2, s3; cbn [pick]; field; lra.
Qed.

Lemma perspective_ok fovy aspect n f tr :
  perspective fovy aspect n f tr =
  let h := tan (/ 2 * radians fovy) * n in frustum (- (h * aspect)) (h * aspect) (- h) h n f tr.
Proof. reflexivity. Qed.

Lemma perspective_corners fovy aspect n f m :
  tan (radians fovy / 2) <> 0 -> aspect <> 0 -> n <> 0 -> f <> 0 -> n <> f ->
  perspective fovy aspect n f false = Ok m ->
  let h := tan (radians fovy / 2) * n in
  forall s1 s2 s3, projects m (frustum_corner (- (h * aspect)) (h * aspect) (- h) h n f s1 s2 s3) (corner s1 s2 s3).
Proof.
  intros T A N F NF E. cbv zeta.
  replace (radians fovy / 2) with (/ 2 * radians fovy) in * by field.
  rewrite perspective_ok in E. cbv zeta in E.
  set (h := tan (/ 2 * radians fovy) * n) in *.
  assert (Hh : h <> 0) by (apply Rmult_integral_contrapositive_currified; assumption).
  assert (Hw : h * aspect <> 0) by (apply Rmult_integral_contrapositive_currified; assumption).
  apply (frustum_corners (- (h * aspect)) (h * aspect) (- h) h n f m); try assumption; [|lra].
  repeat split; lra.
Qed.

Lemma between_div a w : 0 < w -> (-1 <= a / w <= 1 <-> - w <= a <= w).
Proof.
  intros W. assert (E : a = a / w * w) by (field; lra). split; intros H.
  - rewrite E. split; nra.
  - split; apply Rmult_le_reg_r with w; try assumption; rewrite <- E; lra.
Qed.

(** What perspective shows of the points in front of the eye. *)
Lemma perspective_shows fovy aspect n f :
  0 < fovy < 180 -> 0 < aspect -> 0 < n < f ->
  exists m, perspective fovy aspect n f false = Ok m /\
  forall p, z3 p < 0 -> exists q, projects m p q /\
    (in_cube q <-> - f <= z3 p <= - n /\ Rabs (y3 p) <= - z3 p * tan (radians fovy / 2) /\
                   Rabs (x3 p) <= - z3 p * (tan (radians fovy / 2) * aspect)).
Proof.
  intros V A N.
  assert (T : 0 < tan (radians fovy / 2)).
  { apply tan_gt_0; unfold radians; pose proof PI_RGT_0; nra. }
  rewrite perspective_ok. cbv zeta. replace (/ 2 * radians fovy) with (radians fovy / 2) by field.
  set (k := tan (radians fovy / 2)) in *. clearbody k.
  assert (KN : 0 < k * n) by nra. assert (KA : 0 < k * aspect) by nra.
  assert (KAN : 0 < k * n * aspect) by nra.
  eexists. split; [apply frustum_ok; repeat split; lra|].
  intros p Z. destruct p as [x y z]. cbn [x3 y3 z3] in *.
  exists (V3 (x / (- z * (k * aspect))) (y / (- z * k)) ((- (f + n) * z - 2 * n * f) / ((f - n) * - z))). split.
  - exists (- z). split; [lra|]. mats. entries; field; repeat split; nra.
  - assert (ZA : 0 < - z * (k * aspect)) by nra. assert (ZK : 0 < - z * k) by nra.
    assert (ZF : 0 < (f - n) * - z) by nra.
    unfold in_cube. cbn [x3 y3 z3]. rewrite !between_div by assumption.
    assert (B : forall a w, - w <= a <= w <-> Rabs a <= w).
    { intros a w. split; [apply Rabs_le|]. intros H. unfold Rabs in H. destruct (Rcase_abs a); lra. }
    rewrite (B x), (B y).
    assert (EZ : - ((f - n) * - z) <= - (f + n) * z - 2 * n * f <= (f - n) * - z <-> - f <= z <= - n).
    { split; intros [H1 H2]; split; nra. }
    rewrite EZ. tauto.
Qed.

(** ** Points *)
Lemma given_three g t :
  (forall a b c, g = Numbers [a; b; c] ->
     translate_given g t = Ok (translate (V3 a b c) t) /\ scale_given g t = Ok (scale (V3 a b c) t)) /\
  (forall l, g = Numbers l -> length l <> 3%nat -> translate_given g t = Err ValueError /\ scale_given g t = Err ValueError) /\
  (forall r, g = Number r -> translate_given g t = Err TypeError /\ scale_given g t = Err TypeError).
Proof.
  split; [intros a b c ->; split; reflexivity|]. split; [|intros r ->; split; reflexivity].
  intros l -> H. destruct l as [|a [|b [|c [|e l]]]]; try (split; reflexivity). now elim H.
Qed.
Lemma translate_sends v p : sends (translate v false) p (V3 (x3 p + x3 v) (y3 p + y3 v) (z3 p + z3 v)).
Proof. unfold sends, translate. mats. entries; ring. Qed.
Lemma translate_direction v p : apply4 (translate v false) (direction p) = direction p.
Proof. unfold translate. mats. entries; ring. Qed.
Lemma translate_undo v : undoes (translate (scale3 (-1) v) false) (translate v false).
Proof. intros [a b c d]. unfold translate. mats. entries; ring. Qed.
Lemma translate_plus u v :
  composed (translate u false) (translate v false) (translate (V3 (x3 u + x3 v) (y3 u + y3 v) (z3 u + z3 v)) false).
Proof. intros [a b c d]. unfold translate. mats. entries; ring. Qed.

Lemma scale_sends s p : sends (scale s false) p (V3 (x3 s * x3 p) (y3 s * y3 p) (z3 s * z3 p)).
Proof. unfold sends, scale. mats. entries; ring. Qed.
Lemma scale_undo s :
  x3 s <> 0 -> y3 s <> 0 -> z3 s <> 0 -> undoes (scale (V3 (/ x3 s) (/ y3 s) (/ z3 s)) false) (scale s false).
Proof. intros X Y Z [a b c d]. unfold scale. mats. entries; field; assumption. Qed.

Lemma viewport_sends x y w h d p :
  sends (viewport x y w h d false) p (V3 (x + w * (x3 p + 1) / 2) (y + h * (y3 p + 1) / 2) (d * (z3 p + 1) / 2)).
Proof. unfold sends, viewport. mats. entries; field. Qed.
Lemma viewport_corners x y w h d s1 s2 s3 :
  sends (viewport x y w h d false) (corner s1 s2 s3) (V3 (pick x (x + w) s1) (pick y (y + h) s2) (pick 0 d s3)).
Proof. unfold sends, viewport, corner. mats. entries; destruct s1, s2, s3; cbn [pick]; field. Qed.

Lemma transpose_transposed m : transposed m (transpose m).
Proof. intros [a b c d] [a' b' c' d']. mats. ring. Qed.
Lemma transpose_flag :
  (forall v, transposed (translate v false) (translate v true)) /\
  (forall v, transposed (scale v false) (scale v true)) /\
  (forall x y w h d, transposed (viewport x y w h d false) (viewport x y w h d true)) /\
  (forall l r b t n f m m', ortho l r b t n f false = Ok m -> ortho l r b t n f true = Ok m' -> transposed m m') /\
  (forall l r b t n f m m', frustum l r b t n f false = Ok m -> frustum l r b t n f true = Ok m' -> transposed m m') /\
  (forall o a n f m m', perspective o a n f false = Ok m -> perspective o a n f true = Ok m' -> transposed m m') /\
  (forall t, transposed (xrotate t false) (xrotate t true)) /\
  (forall t, transposed (yrotate t false) (yrotate t true)) /\
  (forall t, transposed (zrotate t false) (zrotate t true)) /\
  (forall t a, transposed (rotate t a false) (rotate t a true)) /\
  (forall u v m m', align u v false = Some m -> align u v true = Some m' -> transposed m m').
Proof.
  assert (FR : forall l r b t n f m m', frustum l r b t n f false = Ok m -> frustum l r b t n f true = Ok m' -> transposed m m').
  { intros l r b t n f m m'. unfold frustum, div.
    destruct (Req_EM_T (r - l) 0), (Req_EM_T (t - b) 0), (Req_EM_T (f - n) 0); cbn [bind]; try discriminate.
    intros E E'. injection E as <-. injection E' as <-. apply transpose_transposed. }
  repeat apply conj; try (intros; apply transpose_transposed).
  - intros l r b t n f m m'. unfold ortho, div.
    destruct (Req_EM_T (r - l) 0), (Req_EM_T (t - b) 0), (Req_EM_T (f - n) 0); cbn [bind]; try discriminate.
    intros E E'. injection E as <-. injection E' as <-. apply transpose_transposed.
  - exact FR.
  - intros o a n f m m'. rewrite !perspective_ok. apply FR.
  - intros u v m m'. unfold align. destruct (Req_EM_T _ 0); [discriminate|].
    intros E E'. injection E as <-. injection E' as <-. apply transpose_transposed.
Qed.

(** ** lookat *)
Lemma cross_perp_l u v : dot u (cross u v) = 0.
Proof. mats. ring. Qed.
Lemma cross_perp_r u v : dot v (cross u v) = 0.
Proof. mats. ring. Qed.
Lemma normalize_dot u v : v <> zero3 -> dot u (normalize v) = shrink v / norm v * dot u v.
Proof.
  intros H. pose proof (norm_pos v H). pose proof tiny_pos. unfold normalize, shrink, dot. cbn [x3 y3 z3]. field. lra.
Qed.
Lemma dot_comm u v : dot u v = dot v u.
Proof. mats. ring. Qed.
Lemma normalize_zero : normalize zero3 = zero3.
Proof.
  pose proof tiny_pos. unfold normalize, zero3. cbn [x3 y3 z3]. unfold norm, dot. cbn [x3 y3 z3].
  replace (0 * 0 + 0 * 0 + 0 * 0) with 0 by ring. rewrite sqrt_0. f_equal; field; lra.
Qed.
Lemma zero_dec v : {v = zero3} + {v <> zero3}.
Proof.
  destruct v as [x y z]. destruct (Req_EM_T x 0), (Req_EM_T y 0), (Req_EM_T z 0); subst;
    (left; reflexivity) || (right; intros E; unfold zero3 in E; injection E; intros; contradiction).
Qed.
Lemma normalize_perp u v : dot u v = 0 -> dot u (normalize v) = 0.
Proof.
  intros H. destruct (zero_dec v) as [->|N].
  - rewrite normalize_zero. unfold dot, zero3. cbn [x3 y3 z3]. ring.
  - rewrite normalize_dot by assumption. rewrite H. ring.
Qed.
Lemma normalize_self v : v <> zero3 -> dot (normalize v) (normalize v) = shrink v * shrink v.
Proof.
  intros H. rewrite normalize_unit by assumption. pose proof (unit_dot v H) as U.
  unfold dot, scale3 in *. cbn [x3 y3 z3] in *. set (u := unit v) in *. clearbody u.
  transitivity (shrink v * shrink v * (x3 u * x3 u + y3 u * y3 u + z3 u * z3 u)); [ring|rewrite U; ring].
Qed.

Lemma cross_scale3 a b u v : cross (scale3 a u) (scale3 b v) = scale3 (a * b) (cross u v).
Proof. mats. entries; ring. Qed.
Lemma cross_scale3_r b u v : cross u (scale3 b v) = scale3 b (cross u v).
Proof. mats. entries; ring. Qed.
Lemma norm_scale3 a u : 0 <= a -> norm (scale3 a u) = a * norm u.
Proof.
  intros A. unfold norm. replace (dot (scale3 a u) (scale3 a u)) with (a * a * dot u u) by (mats; ring).
  rewrite sqrt_mult_alt by nra. rewrite sqrt_square by assumption. reflexivity.
Qed.
Lemma unit_scale3 a u : 0 < a -> u <> zero3 -> unit (scale3 a u) = unit u.
Proof.
  intros A U. pose proof (norm_pos u U). unfold unit. rewrite norm_scale3 by lra.
  unfold scale3. cbn [x3 y3 z3]. f_equal; field; lra.
Qed.
Lemma scale3_zero a u : a <> 0 -> scale3 a u = zero3 -> u = zero3.
Proof.
  destruct u as [x y z]. unfold scale3, zero3. cbn [x3 y3 z3]. intros A E. injection E as E1 E2 E3.
  f_equal; apply Rmult_eq_reg_l with a; lra.
Qed.
Lemma dot_zero u : dot u u = 0 -> u = zero3.
Proof.
  intros E. destruct (zero_dec u) as [Z|N]; [exact Z|]. exfalso.
  pose proof (norm_pos u N). pose proof (norm_sq u). nra.
Qed.
Lemma scale_unit v : v <> zero3 -> scale3 (norm v) (unit v) = v.
Proof.
  intros H. pose proof (norm_pos v H). destruct v as [x y z]. unfold scale3, unit. cbn [x3 y3 z3].
  f_equal; field; lra.
Qed.

Lemma frame_of e0 e2 : dot e0 e0 = 1 -> dot e2 e2 = 1 -> dot e0 e2 = 0 -> frame e0 (cross e2 e0) e2.
Proof.
  destruct e0 as [a b c], e2 as [x y z]. unfold frame, dot, cross. cbn [x3 y3 z3]. intros H1 H2 H3.
  repeat apply conj; try assumption; try nsatz. apply vec3_ext; cbn [x3 y3 z3]; nsatz.
Qed.

Lemma lookat_eye eye center up t : sends (lookat eye center up t) eye zero3.
Proof. unfold sends, lookat, zero3. mats. entries; ring. Qed.

Lemma lookat_frame eye center up t :
  cross up (sub3 eye center) <> zero3 ->
  exists e0 e1 k0 k1 k2,
    frame e0 e1 (unit (sub3 eye center)) /\ dot e0 up = 0 /\ 0 < dot e1 up /\
    (forall p, sends (lookat eye center up t) p
       (V3 (k0 * dot e0 (sub3 p eye)) (k1 * dot e1 (sub3 p eye)) (k2 * dot (unit (sub3 eye center)) (sub3 p eye)))) /\
    (0 < k2 < 1 /\ 1 - k2 <= tiny / norm (sub3 eye center)) /\
    (0 < k0 < 1 /\ 1 - k0 <= tiny / (k2 * norm (cross up (unit (sub3 eye center))))) /\
    (0 < k1 < 1 /\ 1 - k1 <= tiny / (k0 * k2)).
Proof.
  set (d := sub3 eye center). intros C.
  assert (D : d <> zero3).
  { intros E. apply C. rewrite E. unfold zero3. mats. f_equal; ring. }
  unfold lookat. fold d. cbv zeta. rewrite (normalize_unit d D).
  destruct (shrink_bounds d D) as [K2 B2]. set (k2 := shrink d) in *. pose proof (unit_dot d D) as U2.
  pose proof (scale_unit d D) as SD. pose proof (norm_pos d D) as ND.
  set (e2 := unit d) in *. rewrite cross_scale3_r.
  assert (C2 : cross up e2 <> zero3).
  { intros E. apply C. rewrite <- SD, cross_scale3_r, E. unfold zero3, scale3. cbn [x3 y3 z3]. f_equal; ring. }
  assert (C2' : scale3 k2 (cross up e2) <> zero3).
  { intros E. apply C2. apply scale3_zero in E; [exact E|lra]. }
  rewrite (normalize_unit _ C2'). rewrite unit_scale3 by (assumption || lra).
  destruct (shrink_bounds _ C2') as [K0 B0]. rewrite norm_scale3 in B0 by lra.
  set (k0 := shrink (scale3 k2 (cross up e2))) in *. pose proof (unit_dot _ C2) as U0.
  pose proof (scale_unit _ C2) as SC. pose proof (norm_pos _ C2) as NC.
  assert (P02 : dot (unit (cross up e2)) e2 = 0 /\ dot (unit (cross up e2)) up = 0).
  { pose proof (cross_perp_r up e2) as Q. pose proof (cross_perp_l up e2) as Q'.
    split; apply Rmult_eq_reg_l with (norm (cross up e2)); try lra; rewrite Rmult_0_r.
    - rewrite <- Q. rewrite <- SC at 3. generalize (unit (cross up e2)). intros w. mats. ring.
    - rewrite <- Q'. rewrite <- SC at 3. generalize (unit (cross up e2)). intros w. mats. ring. }
  destruct P02 as [P02 P0u].
  assert (SC' : cross up e2 = scale3 (norm (cross up e2)) (unit (cross up e2))) by (symmetry; exact SC).
  set (nc := norm (cross up e2)) in *. set (e0 := unit (cross up e2)) in *.
  rewrite cross_scale3. pose proof (frame_of e0 e2 U0 U2 P02) as FR.
  destruct FR as (F1 & F2 & F3 & F4 & F5 & F6 & F7).
  set (e1 := cross e2 e0) in *.
  assert (E1 : e1 <> zero3).
  { intros E. rewrite E in F2. unfold dot, zero3 in F2. cbn [x3 y3 z3] in F2. lra. }
  assert (KK : 0 < k2 * k0) by nra.
  assert (E1' : scale3 (k2 * k0) e1 <> zero3).
  { intros E. apply E1. apply scale3_zero in E; [exact E|lra]. }
  rewrite (normalize_unit _ E1'). rewrite unit_scale3 by assumption.
  destruct (shrink_bounds _ E1') as [K1 B1]. rewrite norm_scale3 in B1 by lra.
  assert (N1 : norm e1 = 1).
  { unfold norm. rewrite F2. apply sqrt_1. }
  assert (UE : unit e1 = e1).
  { unfold unit. rewrite N1. generalize e1. intros [a b c]. cbn [x3 y3 z3]. f_equal; field. }
  rewrite UE. rewrite N1, Rmult_1_r in B1. set (k1 := shrink (scale3 (k2 * k0) e1)) in *.
  exists e0, e1, k0, k1, k2. repeat apply conj; try assumption; try lra.
  - (* up is on the side of e1 *)
    assert (Q : dot e1 up = nc).
    { assert (Q1 : nc = dot e0 (cross up e2)).
      { rewrite SC'. transitivity (nc * dot e0 e0); [rewrite F1; ring|]. mats. ring. }
      rewrite Q1. unfold e1. mats. ring. }
    lra.
  - intros p. unfold sends. mats. entries; ring.
  - rewrite (Rmult_comm k0 k2). exact B1.
Qed.

Lemma lookat_center eye center up t :
  eye <> center ->
  exists l, norm (sub3 eye center) - tiny <= l <= norm (sub3 eye center) /\ 0 < l /\
    sends (lookat eye center up t) center (V3 0 0 (- l)).
Proof.
  intros NE. set (d := sub3 eye center).
  assert (D : d <> zero3).
  { intros E. apply NE. unfold d, sub3, zero3 in E. injection E as E1 E2 E3. apply vec3_ext; lra. }
  destruct (shrink_bounds d D) as [K B]. pose proof (norm_pos d D) as N. pose proof tiny_pos as T.
  exists (shrink d * norm d). split; [|split].
  - split; [|apply Rle_trans with (1 * norm d); [apply Rmult_le_compat_r; lra|lra]].
    assert (norm d * (1 - shrink d) <= norm d * (tiny / norm d)) by (apply Rmult_le_compat_l; lra).
    replace (norm d * (tiny / norm d)) with tiny in H by (field; lra). lra.
  - apply Rmult_lt_0_compat; lra.
  - assert (ZZ : dot (normalize d) (sub3 center eye) = - (shrink d * norm d)).
    { rewrite normalize_unit by assumption.
      assert (E : sub3 center eye = scale3 (- norm d) (unit d)).
      { transitivity (scale3 (-1) d); [unfold d; mats; f_equal; ring|].
        rewrite <- (scale_unit d D) at 1. mats. f_equal; ring. }
      rewrite E. pose proof (unit_dot d D) as U. transitivity (- (shrink d * norm d) * dot (unit d) (unit d)); [mats; ring|rewrite U; ring]. }
    assert (PERP : forall w, dot w (normalize d) = 0 -> dot w (sub3 center eye) = 0).
    { intros w W. rewrite normalize_dot in W by assumption.
      assert (W' : dot w d = 0).
      { apply Rmult_eq_reg_l with (shrink d / norm d); [rewrite W; ring|].
        unfold Rdiv. apply Rmult_integral_contrapositive_currified; [lra|apply Rinv_neq_0_compat; lra]. }
      revert W'. unfold d. mats. intros. lra. }
    set (Z := normalize d) in *. set (X := normalize (cross up Z)). set (Y := normalize (cross Z X)).
    assert (XP : dot X (sub3 center eye) = 0).
    { apply PERP. rewrite dot_comm. apply normalize_perp, cross_perp_r. }
    assert (YP : dot Y (sub3 center eye) = 0).
    { apply PERP. rewrite dot_comm. apply normalize_perp, cross_perp_l. }
    unfold sends, lookat. fold d. fold Z. cbv zeta. fold X. fold Y. clearbody X Y Z.
    revert XP YP ZZ. mats. intros. entries; lra.
Qed.

(** The default arguments look along the up vector: the matrix flattens space
    onto a line. *)
Lemma lookat_default :
  forall t p, exists c, sends (lookat (V3 0 0 (45 / 10)) (V3 0 0 0) (V3 0 0 1) t) p (V3 0 0 c).
Proof.
  intros t p. unfold lookat. cbv zeta.
  set (Z := normalize (sub3 (V3 0 0 (45 / 10)) (V3 0 0 0))).
  assert (ZZ : x3 Z = 0 /\ y3 Z = 0).
  { unfold Z, normalize, sub3. cbn [x3 y3 z3]. unfold Rdiv. split; ring. }
  destruct ZZ as [Z1 Z2]. clearbody Z.
  assert (X0 : cross (V3 0 0 1) Z = zero3).
  { unfold cross, zero3. cbn [x3 y3 z3]. rewrite Z1, Z2. f_equal; ring. }
  rewrite X0, normalize_zero.
  assert (Y0 : cross Z zero3 = zero3).
  { unfold cross, zero3. cbn [x3 y3 z3]. f_equal; ring. }
  rewrite Y0, normalize_zero. exists (dot Z p - dot Z (V3 0 0 (45 / 10))).
  unfold sends, zero3. mats. entries; ring.
Qed.

Lemma lookat_transpose_ignored :
  exists eye center up, ~ transposed (lookat eye center up false) (lookat eye center up true).
Proof.
  exists (V3 0 0 1), (V3 0 0 0), (V3 0 1 0). intros H.
  specialize (H (V4 0 0 0 1) (V4 0 0 1 0)). revert H.
  unfold lookat. cbv zeta. set (Z := normalize (sub3 _ _)). set (X := normalize (cross _ Z)). set (Y := normalize (cross Z X)). clearbody X Y. mats.
  intros H. assert (Z3 : z3 Z = 0) by lra. unfold Z, normalize, sub3 in Z3. cbn [x3 y3 z3] in Z3.
  unfold norm, dot in Z3. cbn [x3 y3 z3] in Z3. replace ((0 - 0) * (0 - 0) + (0 - 0) * (0 - 0) + (1 - 0) * (1 - 0)) with 1 in Z3 by ring.
  rewrite sqrt_1 in Z3. pose proof tiny_pos. replace ((1 - 0) / (tiny + 1)) with (/ (tiny + 1)) in Z3 by (field; lra).
  pose proof (Rinv_0_lt_compat (tiny + 1)). lra.
Qed.

(** ** align *)
(** The exact matrix from two directions of length one. *)
Definition align_matrix (v : vec3) (k : R) : mat :=
  let '(p, q, r) := (x3 v, y3 v, z3 v) in
  Mat (V4 (1 + 0 + (- (r * r) - q * q) * k) (0 - r + p * q * k) (0 + q + p * r * k) 0)
      (V4 (0 + r + p * q * k) (1 + 0 + (- (r * r) - p * p) * k) (0 - p + q * r * k) 0)
      (V4 (0 - q + p * r * k) (0 + p + q * r * k) (1 + 0 + (- (q * q) - p * p) * k) 0)
      (V4 0 0 0 1).

Lemma lagrange a b : dot (cross a b) (cross a b) = dot a a * dot b b - dot a b * dot a b.
Proof. mats. ring. Qed.

Lemma align_matrix_rotation v c k :
  dot v v = 1 - c * c -> k * (1 + c) = 1 -> rotation (align_matrix v k).
Proof.
  destruct v as [p q r]. unfold dot, rotation, only_block, det3, align_matrix. cbn [x3 y3 z3]. mats. intros H1 H2.
  repeat split; try reflexivity; nsatz.
Qed.
Lemma align_matrix_sends a b k :
  dot a a = 1 -> dot b b = 1 -> k * (1 + dot a b) = 1 -> sends (align_matrix (cross a b) k) a b.
Proof.
  destruct a as [a1 a2 a3], b as [b1 b2 b3]. unfold sends, align_matrix. mats. intros A B K.
  entries; nsatz.
Qed.
Lemma align_matrix_axis v k : sends (align_matrix v k) v v.
Proof. destruct v. unfold sends, align_matrix. mats. entries; ring. Qed.

Lemma align_none U V t : align U V t = None <-> cross U V = zero3.
Proof.
  unfold align. set (a := normalize U). set (b := normalize V).
  assert (E : cross a b = zero3 <-> cross U V = zero3).
  { unfold a, b. destruct (zero_dec U) as [->|HU].
    { rewrite normalize_zero. split; intros _; unfold zero3; mats; f_equal; ring. }
    destruct (zero_dec V) as [->|HV].
    { rewrite normalize_zero. split; intros _; unfold zero3; mats; f_equal; ring. }
    rewrite !normalize_unit by assumption. rewrite cross_scale3.
    destruct (shrink_bounds U HU) as [KU _]. destruct (shrink_bounds V HV) as [KV _].
    pose proof (norm_pos U HU). pose proof (norm_pos V HV).
    assert (EV : cross U V = scale3 (norm U * norm V) (cross (unit U) (unit V))).
    { rewrite <- cross_scale3, !scale_unit by assumption. reflexivity. }
    rewrite EV. split; intros Q.
    - apply scale3_zero in Q; [|nra]. rewrite Q. unfold zero3, scale3. cbn [x3 y3 z3]. f_equal; ring.
    - apply scale3_zero in Q; [|nra]. rewrite Q. unfold zero3, scale3. cbn [x3 y3 z3]. f_equal; ring. }
  rewrite <- E. clear E. set (v := cross a b). clearbody v.
  assert (N : norm v ^ 2 = dot v v) by (rewrite <- norm_sq; ring).
  destruct (Req_EM_T (norm v ^ 2) 0) as [Z|Z].
  - split; [intros _|reflexivity]. apply dot_zero. lra.
  - split; [discriminate|]. intros ->. exfalso. apply Z. rewrite N. unfold dot, zero3. cbn [x3 y3 z3]. ring.
Qed.

Lemma align_near U V :
  cross U V <> zero3 ->
  exists M A, align U V false = Some M /\ rotation A /\ sends A (unit U) (unit V) /\
    sends A (cross U V) (cross U V) /\
    near (2 * (tiny / norm U + tiny / norm V)) M A.
Proof.
  intros C.
  assert (HU : U <> zero3) by (intros ->; apply C; unfold zero3; mats; f_equal; ring).
  assert (HV : V <> zero3) by (intros ->; apply C; unfold zero3; mats; f_equal; ring).
  destruct (shrink_bounds U HU) as [KU BU]. destruct (shrink_bounds V HV) as [KV BV].
  pose proof (norm_pos U HU) as NU. pose proof (norm_pos V HV) as NV.
  pose proof (unit_dot U HU) as DU. pose proof (unit_dot V HV) as DV.
  assert (CUV : cross U V = scale3 (norm U * norm V) (cross (unit U) (unit V))).
  { rewrite <- cross_scale3, !scale_unit by assumption. reflexivity. }
  destruct (align U V false) as [M|] eqn:EM; [|exfalso; apply C, (align_none U V false), EM].
  set (a := unit U) in *. set (b := unit V) in *.
  assert (C1 : cross a b <> zero3).
  { intros E. apply C. rewrite CUV, E. unfold scale3, zero3. cbn [x3 y3 z3]. f_equal; ring. }
  set (c := dot a b) in *.
  assert (L : dot (cross a b) (cross a b) = 1 - c * c).
  { rewrite lagrange, DU, DV. unfold c. ring. }
  assert (LP : 0 < 1 - c * c).
  { pose proof (norm_pos _ C1). pose proof (norm_sq (cross a b)). nra. }
  assert (CB : -1 < c < 1) by (split; nra).
  exists M, (align_matrix (cross a b) (/ (1 + c))). split; [reflexivity|].
  assert (KC : / (1 + c) * (1 + c) = 1) by (field; lra).
  split; [apply align_matrix_rotation with c; assumption|].
  split; [apply align_matrix_sends; assumption|].
  split.
  { rewrite CUV. set (n := norm U * norm V). generalize (align_matrix_axis (cross a b) (/ (1 + c))).
    set (m := align_matrix _ _). unfold sends. destruct (cross a b) as [x y z].
    assert (O : only_block m) by (apply align_matrix_rotation with c; assumption). destruct O as (O1 & O2 & O3 & O4).
    clearbody m. destruct m as [[m00 m01 m02 m03] [m10 m11 m12 m13] [m20 m21 m22 m23] r3]. cbn [row0 row1 row2 row3 w4] in *. subst.
    mats. intros E. injection E as E1 E2 E3. entries; try ring.
    - transitivity (n * (m00 * x + m01 * y + m02 * z + 0 * 1)); [ring|]. rewrite E1. reflexivity.
    - transitivity (n * (m10 * x + m11 * y + m12 * z + 0 * 1)); [ring|]. rewrite E2. reflexivity.
    - transitivity (n * (m20 * x + m21 * y + m22 * z + 0 * 1)); [ring|]. rewrite E3. reflexivity. }
  unfold align in EM. cbv zeta in EM. rewrite !normalize_unit in EM by assumption. fold a b in EM.
  rewrite cross_scale3 in EM. set (ku := shrink U) in *. set (kv := shrink V) in *.
  assert (NS : norm (scale3 (ku * kv) (cross a b)) ^ 2 = (ku * kv) * (ku * kv) * (1 - c * c)).
  { rewrite <- L. transitivity (dot (scale3 (ku * kv) (cross a b)) (scale3 (ku * kv) (cross a b))).
    - rewrite <- norm_sq. ring.
    - mats. ring. }
  rewrite NS in EM. destruct (Req_EM_T _ 0) as [Z|_]; [discriminate|].
  replace (dot (scale3 ku a) (scale3 kv b)) with (ku * kv * c) in EM by (unfold c; mats; ring).
  clearbody c. clear C1 CUV NS. set (ab := cross a b) in *. clearbody ab. injection EM as <-.
  assert (KP : 0 < ku * kv < 1) by (split; nra).
  assert (KB : 1 - ku * kv <= tiny / norm U + tiny / norm V) by nra.
  apply near_weaken with (2 * (1 - ku * kv)); [lra|].
  set (k := ku * kv) in *. clearbody k. destruct ab as [p q r]. unfold dot in L. cbn [x3 y3 z3] in L.
  clear -L LP CB KP.
  assert (P : forall x, x * x <= 1 - c * c -> -1 <= x <= 1) by (intros; split; nra).
  assert (H : forall e w, - (1 - c * c) <= e <= 1 - c * c -> -1 <= w <= 1 ->
     Rabs ((k - 1) * w + (1 - k) * c * (e / (1 - c * c))) <= 2 * (1 - k)).
  { intros e w He Hw.
    assert (HE : -1 <= e / (1 - c * c) <= 1) by (apply between_div; lra).
    set (g := e / (1 - c * c)) in *. clearbody g.
    assert (HG : -1 <= c * g <= 1) by (split; nra).
    replace ((k - 1) * w + (1 - k) * c * g) with ((1 - k) * (c * g - w)) by ring.
    set (h := c * g) in *. clearbody h. apply Rabs_le. split; nra. }
  assert (Hp : -1 <= p <= 1) by (apply P; nra).
  assert (Hq : -1 <= q <= 1) by (apply P; nra).
  assert (Hr : -1 <= r <= 1) by (apply P; nra).
  assert (XY : forall x y z, x * x + y * y + z * z = 1 - c * c -> - (1 - c * c) <= x * y <= 1 - c * c).
  { intros x y z E. pose proof (Rle_0_sqr (x + y)) as Q1. pose proof (Rle_0_sqr (x - y)) as Q2.
    pose proof (Rle_0_sqr z) as Q3. unfold Rsqr in Q1, Q2, Q3. lra. }
  assert (Epq : - (1 - c * c) <= p * q <= 1 - c * c) by (apply XY with r; lra).
  assert (Epr : - (1 - c * c) <= p * r <= 1 - c * c) by (apply XY with q; lra).
  assert (Eqr : - (1 - c * c) <= q * r <= 1 - c * c) by (apply XY with p; lra).
  assert (NE : 1 - c * c <> 0) by lra. assert (NK : k <> 0) by lra. assert (N1 : 1 + c <> 0) by lra.
  assert (Z0 : Rabs (0 - 0) <= 2 * (1 - k)) by (rewrite Rminus_0_r, Rabs_R0; lra).
  unfold finish, align_matrix, scale3, near, near4. cbn [x3 y3 z3 row0 row1 row2 row3 x4 y4 z4 w4].
  assert (F : forall e, k * k * e * ((1 - k * c) / (k * k * (1 - c * c))) - e * / (1 + c) = (1 - k) * c * (e / (1 - c * c))).
  { intros e. field. repeat split; lra. }
  split; [|split; [|split]]; repeat split; try exact Z0.
  - match goal with |- Rabs ?x <= _ => replace x with ((k - 1) * 0 + (1 - k) * c * ((- (r * r) - q * q) / (1 - c * c))) by (rewrite <- F; ring) end. apply H; nra.
  - match goal with |- Rabs ?x <= _ => replace x with ((k - 1) * - r + (1 - k) * c * (p * q / (1 - c * c))) by (rewrite <- F; ring) end. apply H; lra.
  - match goal with |- Rabs ?x <= _ => replace x with ((k - 1) * q + (1 - k) * c * (p * r / (1 - c * c))) by (rewrite <- F; ring) end. apply H; lra.
  - match goal with |- Rabs ?x <= _ => replace x with ((k - 1) * r + (1 - k) * c * (p * q / (1 - c * c))) by (rewrite <- F; ring) end. apply H; lra.
  - match goal with |- Rabs ?x <= _ => replace x with ((k - 1) * 0 + (1 - k) * c * ((- (r * r) - p * p) / (1 - c * c))) by (rewrite <- F; ring) end. apply H; nra.
  - match goal with |- Rabs ?x <= _ => replace x with ((k - 1) * - p + (1 - k) * c * (q * r / (1 - c * c))) by (rewrite <- F; ring) end. apply H; lra.
  - match goal with |- Rabs ?x <= _ => replace x with ((k - 1) * - q + (1 - k) * c * (p * r / (1 - c * c))) by (rewrite <- F; ring) end. apply H; lra.
  - match goal with |- Rabs ?x <= _ => replace x with ((k - 1) * p + (1 - k) * c * (q * r / (1 - c * c))) by (rewrite <- F; ring) end. apply H; lra.
  - match goal with |- Rabs ?x <= _ => replace x with ((k - 1) * 0 + (1 - k) * c * ((- (q * q) - p * p) / (1 - c * c))) by (rewrite <- F; ring) end. apply H; nra.
  - replace (1 - 1) with 0 by ring. rewrite Rabs_R0. lra.
Qed.

(** ** frontback *)
Lemma facing_area t : facing t = - area2 t.
Proof. unfold facing, area2. ring. Qed.

Lemma frontback_nth T i t :
  nth_error T i = Some t ->
  (nth_error (fst (frontback T)) i = Some true <-> 0 < area2 t) /\
  (nth_error (snd (frontback T)) i = Some true <-> area2 t <= 0).
Proof.
  intros H. unfold frontback. cbn [fst snd]. rewrite !(map_nth_error _ _ _ H).
  pose proof (facing_area t) as F.
  destruct (Rlt_dec (facing t) 0), (Rle_dec 0 (facing t)); split; split; intros Q; try reflexivity; try discriminate; lra.
Qed.
Lemma frontback_length T : length (fst (frontback T)) = length T /\ length (snd (frontback T)) = length T.
Proof. unfold frontback. cbn [fst snd]. rewrite !map_length. auto. Qed.
Lemma frontback_one T i :
  (i < length T)%nat ->
  exists f, nth_error (fst (frontback T)) i = Some f /\ nth_error (snd (frontback T)) i = Some (negb f).
Proof.
  intros H. destruct (nth_error T i) as [t|] eqn:E; [|apply nth_error_None in E; lia].
  unfold frontback. cbn [fst snd]. rewrite !(map_nth_error _ _ _ E).
  destruct (Rlt_dec (facing t) 0), (Rle_dec 0 (facing t)); try lra; eexists; split; reflexivity.
Qed.
Lemma frontback_count T : (count (fst (frontback T)) + count (snd (frontback T)))%nat = length T.
Proof.
  unfold frontback, count. cbn [fst snd]. induction T as [|t T IH]; [reflexivity|].
  cbn [map filter length]. destruct (Rlt_dec (facing t) 0), (Rle_dec 0 (facing t)); try lra; cbn [length]; lia.
Qed.
Lemma area_reversed t : area2 (reversed t) = - area2 t.
Proof. unfold area2, reversed. cbn. ring. Qed.
Lemma area_cycled t : area2 (cycled t) = area2 t.
Proof. unfold area2, cycled. cbn. ring. Qed.
Lemma frontback_reversed T i t :
  nth_error T i = Some t -> area2 t <> 0 ->
  nth_error (fst (frontback (map reversed T))) i = nth_error (snd (frontback T)) i /\
  nth_error (snd (frontback (map reversed T))) i = nth_error (fst (frontback T)) i.
Proof.
  intros H N. unfold frontback. cbn [fst snd]. rewrite !map_map. rewrite !(map_nth_error _ _ _ H).
  pose proof (facing_area t). pose proof (facing_area (reversed t)). rewrite area_reversed in *.
  destruct (Rlt_dec (facing t) 0), (Rle_dec 0 (facing t)), (Rlt_dec (facing (reversed t)) 0), (Rle_dec 0 (facing (reversed t)));
    try lra; auto.
Qed.
Lemma frontback_cycled T : frontback (map cycled T) = frontback T.
Proof.
  unfold frontback. rewrite !map_map. f_equal; apply map_ext; intros t;
    pose proof (facing_area t); pose proof (facing_area (cycled t)); rewrite area_cycled in *.
  - destruct (Rlt_dec (facing (cycled t)) 0), (Rlt_dec (facing t) 0); try lra; reflexivity.
  - destruct (Rle_dec 0 (facing (cycled t))), (Rle_dec 0 (facing t)); try lra; reflexivity.
Qed.

Lemma camera_fails x y z o : camera x y z o = Err TypeError.
Proof. reflexivity. Qed.

(** ** Statements as used for the properties *)
Lemma turns_rotation M t u :
  dot u u = 1 -> turns M t u ->
  rotation M /\ (forall k, sends M (scale3 k u) (scale3 k u)) /\
  (forall p q p' q', sends M p p' -> sends M q q' -> dot p' q' = dot p q).
Proof.
  intros U H. pose proof (turns_unique M t u H) as E. split; [rewrite E; apply turn_matrix_rotation; exact U|]. split.
  - intros k. pose proof (H (scale3 k u)) as S. rewrite turned_axis in S by exact U. exact S.
  - intros p q p' q' P Q. unfold sends in *. rewrite (H p) in P. rewrite (H q) in Q.
    unfold point in P, Q. injection P as P1 P2 P3. injection Q as Q1 Q2 Q3.
    assert (p' = turned t u p) as -> by (apply vec3_ext; symmetry; assumption).
    assert (q' = turned t u q) as -> by (apply vec3_ext; symmetry; assumption).
    apply turned_dot. exact U.
Qed.

Lemma turns_compose A B C a b u :
  dot u u = 1 -> turns A a u -> turns B b u -> turns C (a + b) u -> composed A B C.
Proof.
  intros U HA HB HC v. apply turns_unique in HA, HB, HC. subst. rewrite turn_matrix_plus by exact U. apply matmul_apply.
Qed.

Lemma axes_turn t :
  turns (xrotate t false) (radians t) (V3 1 0 0) /\ turns (yrotate t false) (radians t) (V3 0 1 0) /\
  turns (zrotate t false) (radians t) (V3 0 0 1).
Proof. split; [|split]; [apply xrotate_turns|apply yrotate_turns|apply zrotate_turns]. Qed.

Lemma axis_rotations t :
  rotation (xrotate t false) /\ rotation (yrotate t false) /\ rotation (zrotate t false) /\
  (forall k, sends (xrotate t false) (V3 k 0 0) (V3 k 0 0)) /\
  (forall k, sends (yrotate t false) (V3 0 k 0) (V3 0 k 0)) /\
  (forall k, sends (zrotate t false) (V3 0 0 k) (V3 0 0 k)).
Proof.
  assert (D1 : dot (V3 1 0 0) (V3 1 0 0) = 1) by (mats; ring).
  assert (D2 : dot (V3 0 1 0) (V3 0 1 0) = 1) by (mats; ring).
  assert (D3 : dot (V3 0 0 1) (V3 0 0 1) = 1) by (mats; ring).
  destruct (turns_rotation _ _ _ D1 (xrotate_turns t)) as (R1 & _ & _).
  destruct (turns_rotation _ _ _ D2 (yrotate_turns t)) as (R2 & _ & _).
  destruct (turns_rotation _ _ _ D3 (zrotate_turns t)) as (R3 & _ & _).
  split; [exact R1|]. split; [exact R2|]. split; [exact R3|].
  split; [|split]; intros k; unfold sends, xrotate, yrotate, zrotate; mats; entries; ring.
Qed.

Lemma axis_compose a b :
  composed (xrotate a false) (xrotate b false) (xrotate (a + b) false) /\
  composed (yrotate a false) (yrotate b false) (yrotate (a + b) false) /\
  composed (zrotate a false) (zrotate b false) (zrotate (a + b) false).
Proof.
  repeat apply conj.
  - apply turns_compose with (radians a) (radians b) (V3 1 0 0); try apply xrotate_turns; [mats; ring|].
    rewrite <- radians_plus. apply xrotate_turns.
  - apply turns_compose with (radians a) (radians b) (V3 0 1 0); try apply yrotate_turns; [mats; ring|].
    rewrite <- radians_plus. apply yrotate_turns.
  - apply turns_compose with (radians a) (radians b) (V3 0 0 1); try apply zrotate_turns; [mats; ring|].
    rewrite <- radians_plus. apply zrotate_turns.
Qed.

Lemma rotate_turn theta axis :
  axis <> zero3 ->
  exists T, turns T (radians theta) (unit axis) /\ rotation T /\ (forall k, sends T (scale3 k axis) (scale3 k axis)) /\
    near (3 * (tiny / norm axis)) (rotate theta axis false) T.
Proof.
  intros H. destruct (rotate_near theta axis H) as (T & HT & HN). exists T.
  destruct (turns_rotation T _ _ (unit_dot axis H) HT) as (R1 & R2 & _).
  split; [exact HT|]. split; [exact R1|]. split; [|exact HN]. intros k. pose proof (R2 (k * norm axis)) as S.
  replace (scale3 (k * norm axis) (unit axis)) with (scale3 k axis) in S; [exact S|].
  rewrite <- (scale_unit axis H) at 1. mats. f_equal; ring.
Qed.

Lemma rotate_compose a b axis :
  axis <> zero3 ->
  exists A B C, composed A B C /\ near (3 * (tiny / norm axis)) (rotate a axis false) A /\
    near (3 * (tiny / norm axis)) (rotate b axis false) B /\ near (3 * (tiny / norm axis)) (rotate (a + b) axis false) C /\
    rotation A /\ rotation B.
Proof.
  intros H. destruct (rotate_turn a axis H) as (A & TA & RA & _ & NA). destruct (rotate_turn b axis H) as (B & TB & RB & _ & NB).
  destruct (rotate_turn (a + b) axis H) as (C & TC & RC & _ & NC). exists A, B, C.
  split; [|tauto]. apply turns_compose with (radians a) (radians b) (unit axis); try assumption; [apply unit_dot; exact H|].
  rewrite <- radians_plus. exact TC.
Qed.

Lemma transposes_are_inverses :
  (forall t, xrotate t true = xrotate (- t) false) /\ (forall t, yrotate t true = yrotate (- t) false) /\
  (forall t, zrotate t true = zrotate (- t) false) /\ (forall t a, rotate t a true = rotate (- t) a false).
Proof.
  repeat apply conj; [exact xrotate_transpose|exact yrotate_transpose|exact zrotate_transpose|exact rotate_transpose].
Qed.

Lemma rotate_witness : exists theta axis, axis <> zero3 /\ ~ rotation (rotate theta axis false) /\
  sends (rotate theta axis false) (V3 0 1 0) (V3 0 (- / 4) 0).
Proof. exists 180, (V3 tiny 0 0). exact rotate_short_axis. Qed.

Lemma ortho_witness : exists l r b t n f m, volume l r b t n f /\ l < r /\ b < t /\ 0 < n < f /\ ortho l r b t n f false = Ok m /\
  ~ (forall s1 s2 s3, projects m (V3 (pick l r s1) (pick b t s2) (pick (- n) (- f) s3)) (corner s1 s2 s3)).
Proof.
  assert (V : volume 0 1 0 1 1 2) by (unfold volume; lra).
  exists 0, 1, 0, 1, 1, 2. eexists. split; [exact V|]. repeat (split; [lra|]). split; [apply ortho_ok; exact V|].
  rewrite (ortho_corners 0 1 0 1 1 2 _ V (ortho_ok _ _ _ _ _ _ V)). lra.
Qed.
Lemma frustum_witness : exists l r b t n f m, volume l r b t n f /\ l < r /\ b < t /\ 0 < n < f /\ frustum l r b t n f false = Ok m /\
  ~ (forall s1 s2 s3, projects m (frustum_corner l r b t n f s1 s2 s3) (corner s1 s2 s3)).
Proof.
  assert (V : volume (-1) 1 0 1 1 2) by (unfold volume; lra).
  exists (-1), 1, 0, 1, 1, 2. eexists. split; [exact V|]. repeat (split; [lra|]). split; [apply frustum_ok; exact V|].
  rewrite (frustum_corners (-1) 1 0 1 1 2 _ V ltac:(lra) ltac:(lra) (frustum_ok _ _ _ _ _ _ V)). lra.
Qed.

Lemma lookat_flat_witness :
  exists eye center up, eye <> center /\ up <> zero3 /\ forall t p, exists c, sends (lookat eye center up t) p (V3 0 0 c).
Proof.
  exists (V3 0 0 (45 / 10)), (V3 0 0 0), (V3 0 0 1). split; [|split].
  - intros E. injection E. lra.
  - intros E. unfold zero3 in E. injection E. lra.
  - exact lookat_default.
Qed.

(** clamp. *)
Lemma clamp_ok v lo hi : lo <= hi ->
  lo <= clamp v lo hi <= hi /\ (lo <= v <= hi -> clamp v lo hi = v) /\ (v <= lo -> clamp v lo hi = lo) /\ (hi <= v -> clamp v lo hi = hi).
Proof. intros H. unfold clamp, Rmin, Rmax. destruct (Rle_dec v lo); [destruct (Rle_dec lo hi)|destruct (Rle_dec v hi)]; repeat split; intros; lra. Qed.
Lemma clamp_crossed v lo hi : hi <= lo -> clamp v lo hi = hi.
Proof. intros H. unfold clamp, Rmin, Rmax. destruct (Rle_dec v lo); [destruct (Rle_dec lo hi)|destruct (Rle_dec v hi)]; lra. Qed.
(** normalize never gives length one. *)
Lemma normalize_short v : v <> zero3 -> dot (normalize v) (normalize v) < 1 /\ exists a, 0 < a < 1 /\ 1 - a <= tiny / norm v /\ normalize v = scale3 a (unit v).
Proof.
  intros H. destruct (shrink_bounds v H) as (B & C). split; [rewrite normalize_self by exact H; nra|]. exists (shrink v). split; [exact B|]. split; [exact C|]. exact (normalize_unit v H).
Qed.
