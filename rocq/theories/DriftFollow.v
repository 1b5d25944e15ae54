(** How far the trackball in floating point is from the exact one. *)
From Coq Require Import Reals ZArith Lra Lia Psatz.
From Flocq Require Import Core Relative.
From Coq Require Import Machin.
From Verif Require Import Base Glm GlmSpec GlmFacts Trackball TrackballSpec TrackballFacts Drift DriftSpec DriftRound DriftFacts.
Local Open Scope R_scope.

(** ** Distances of quaternions *)
Definition q_sub (p q : vec4) : vec4 := V4 (x4 p - x4 q) (y4 p - y4 q) (z4 p - z4 q) (w4 p - w4 q).
Definition q_plus (p q : vec4) : vec4 := V4 (x4 p + x4 q) (y4 p + y4 q) (z4 p + z4 q) (w4 p + w4 q).
Definition qdist (p q : vec4) : R := q_length (q_sub p q).
Lemma q_dot_pos q : 0 <= q_dot q q.
Proof. unfold q_dot. pose proof (sq_nonneg (x4 q)). pose proof (sq_nonneg (y4 q)). pose proof (sq_nonneg (z4 q)). pose proof (sq_nonneg (w4 q)). lra. Qed.
Lemma q_length_pos q : 0 <= q_length q.
Proof. apply sqrt_pos. Qed.
Lemma q_length_sq q : q_length q * q_length q = q_dot q q.
Proof. apply sqrt_sqrt, q_dot_pos. Qed.
Lemma q_length_le q m : 0 <= m -> q_dot q q <= m * m -> q_length q <= m.
Proof. intros M H. apply Rsqr_incr_0; [|apply q_length_pos|exact M]. unfold Rsqr. now rewrite q_length_sq. Qed.
Lemma q_dot_le p q : q_dot p q <= q_length p * q_length q.
Proof.
  destruct (Rle_dec (q_dot p q) 0) as [N|N]. { pose proof (Rmult_le_pos _ _ (q_length_pos p) (q_length_pos q)). lra. }
  apply Rsqr_incr_0; [|lra|apply Rmult_le_pos; apply q_length_pos]. unfold Rsqr.
  replace (q_length p * q_length q * (q_length p * q_length q)) with ((q_length p * q_length p) * (q_length q * q_length q)) by ring. rewrite !q_length_sq. clear N.
  destruct p as [a b c d], q as [a' b' c' d']. unfold q_dot. cbn [x4 y4 z4 w4].
  pose proof (sq_nonneg (a * b' - b * a')). pose proof (sq_nonneg (a * c' - c * a')). pose proof (sq_nonneg (a * d' - d * a')).
  pose proof (sq_nonneg (b * c' - c * b')). pose proof (sq_nonneg (b * d' - d * b')). pose proof (sq_nonneg (c * d' - d * c')). lra.
Qed.
Lemma q_length_plus p q : q_length (q_plus p q) <= q_length p + q_length q.
Proof.
  pose proof (q_length_pos p). pose proof (q_length_pos q). apply q_length_le; [lra|]. pose proof (q_dot_le p q). pose proof (q_length_sq p). pose proof (q_length_sq q).
  assert (X : q_dot (q_plus p q) (q_plus p q) = q_dot p p + q_dot q q + 2 * q_dot p q) by (unfold q_dot, q_plus; cbn [x4 y4 z4 w4]; ring). nra.
Qed.
Lemma qdist_triangle p q r : qdist p r <= qdist p q + qdist q r.
Proof.
  unfold qdist. replace (q_sub p r) with (q_plus (q_sub p q) (q_sub q r)); [apply q_length_plus|]. unfold q_plus, q_sub. cbn [x4 y4 z4 w4]. f_equal; ring.
Qed.
Lemma q_length_add p q : q_length (q_add p q) = q_length p * q_length q.
Proof. unfold q_length. rewrite q_add_norm. apply sqrt_mult; apply q_dot_pos. Qed.
Lemma qdist_add p q p' q' : qdist (q_add p q) (q_add p' q') <= qdist p p' * q_length q + q_length p' * qdist q q'.
Proof.
  unfold qdist. rewrite <- !q_length_add. replace (q_sub (q_add p q) (q_add p' q')) with (q_plus (q_add (q_sub p p') q) (q_add p' (q_sub q q'))); [apply q_length_plus|].
  destruct p as [a b c d], q as [e f g h], p' as [a' b' c' d'], q' as [e' f' g' h']. unfold q_plus, q_sub, q_add, append, v_add, v_mul, v_cross, v_dot, vec. cbn [x4 y4 z4 w4 x3 y3 z3]. f_equal; ring.
Qed.
Lemma qdist_near k p q : 0 <= k -> near_q k p q -> qdist p q <= 2 * k.
Proof.
  intros K (H0 & H1 & H2 & H3). unfold approx in *. apply q_length_le; [lra|]. unfold q_dot, q_sub. cbn [x4 y4 z4 w4].
  assert (S : forall c, Rabs c <= k -> c * c <= k * k) by (intros c H; pose proof (mul_le c c k H H) as M; rewrite Rabs_pos_eq in M by apply sq_nonneg; exact M).
  pose proof (S _ H0). pose proof (S _ H1). pose proof (S _ H2). pose proof (S _ H3). lra.
Qed.
Lemma near_qdist p q : near_q (qdist p q) p q.
Proof.
  unfold near_q, approx. change (x4 p - x4 q) with (x4 (q_sub p q)). change (y4 p - y4 q) with (y4 (q_sub p q)). change (z4 p - z4 q) with (z4 (q_sub p q)). change (w4 p - w4 q) with (w4 (q_sub p q)).
  apply comps_le; [|apply q_length_pos]. unfold qdist. rewrite q_length_sq. lra.
Qed.
Lemma q_length_sub p q : Rabs (q_length p - q_length q) <= qdist p q.
Proof.
  assert (A : q_length p <= q_length q + qdist p q). { pose proof (q_length_plus q (q_sub p q)) as H. replace (q_plus q (q_sub p q)) with p in H; [exact H|]. destruct p, q; unfold q_plus, q_sub; cbn; f_equal; ring. }
  assert (B : q_length q <= q_length p + qdist p q).
  { pose proof (q_length_plus p (q_sub q p)) as H. replace (q_plus p (q_sub q p)) with q in H by (destruct p, q; unfold q_plus, q_sub; cbn; f_equal; ring).
    replace (qdist p q) with (q_length (q_sub q p)); [exact H|]. unfold qdist, q_length. f_equal. unfold q_dot, q_sub. cbn [x4 y4 z4 w4]. ring. }
  apply Rabs_le. lra.
Qed.

(** ** Heights inside the view *)
Lemma project_inside x y : Rabs x <= 1 -> Rabs y <= 1 -> 22 / 100 <= project ball_size x y <= 81 / 100.
Proof.
  intros X Y. split; [|apply (project_min x y); lra]. destruct ball_numbers as (R1 & RR & SB & TB & SS & TT). rewrite project_height.
  assert (DD : x * x + y * y <= 142 / 100 * (142 / 100)).
  { pose proof (mul_le x x 1 X X) as P. pose proof (mul_le y y 1 Y Y) as Q. rewrite Rabs_pos_eq in P, Q by apply sq_nonneg. lra. }
  assert (D0 : 0 <= sqrt (x * x + y * y)) by apply sqrt_pos.
  assert (D1 : sqrt (x * x + y * y) <= 142 / 100). { rewrite <- (sqrt_square (142 / 100)) by lra. now apply sqrt_le_1_alt. }
  pose proof (height_decreasing ball_size _ _ ltac:(lra) (conj D0 D1)) as H1. eapply Rle_trans; [|exact H1]. unfold height. destruct (Rlt_dec (142 / 100) (ball_size * half_sqrt2)); [lra|]. cbv zeta.
  apply Rabs_le_iff in TT. assert (RR' : 639 / 1000 <= ball_size * ball_size) by (unfold ball_size; lra). unfold u in TT. lra.
Qed.
Lemma squares_apart x y X Y : x * x + y * y <= X * X + Y * Y ->
  let f := project ball_size x y in let F := project ball_size X Y in
  0 < F <= f /\ f * f - F * F <= 101 / 100 * (X * X + Y * Y - (x * x + y * y)) + 3 * u.
Proof.
  intros O. cbv zeta. destruct ball_numbers as (R1 & RR & SB & TB & SS & TT). rewrite !project_height.
  pose proof (sq_nonneg x) as x0. pose proof (sq_nonneg y) as y0. pose proof (sqrt_sqrt (x * x + y * y) ltac:(lra)) as dd. pose proof (sqrt_sqrt (X * X + Y * Y) ltac:(lra)) as DD.
  assert (dD : sqrt (x * x + y * y) <= sqrt (X * X + Y * Y)) by now apply sqrt_le_1_alt. pose proof (sqrt_pos (x * x + y * y)) as d0. 
  set (d := sqrt (x * x + y * y)) in *. set (D := sqrt (X * X + Y * Y)) in *. clearbody d D. rewrite <- dd, <- DD. clear dd DD x0 y0 O.
  split. { split; [apply height_pos; lra|apply height_decreasing; lra]. }
  unfold height. cbv zeta. set (r := ball_size) in *. set (s := r * half_sqrt2) in *. set (t := r / sqrt_2) in *. assert (TE : r / sqrt_2 = t) by reflexivity. rewrite ?TE. clearbody s t. clearbody r.
  apply Rabs_le_iff in SS, TT. set (rr := r * r) in *. clearbody rr. set (c := t * t) in *. assert (c0 : 3 / 10 <= c <= 33 / 100) by (unfold u in TT; lra). assert (ss : 0 <= s * s) by apply sq_nonneg.
  destruct (Rlt_dec d s) as [L|L], (Rlt_dec D s) as [L'|L'].
  - assert (dd : d * d <= D * D) by (apply Rmult_le_compat; lra). assert (ds : D * D <= s * s) by (apply Rmult_le_compat; lra). rewrite !sqrt_sqrt by (unfold u in *; lra). unfold u. lra.
  - assert (ds : d * d <= s * s) by (apply Rmult_le_compat; lra). assert (DS : s * s <= D * D) by (apply Rmult_le_compat; lra). rewrite sqrt_sqrt by (unfold u in *; lra).
    replace (c / D * (c / D)) with (c * c / (D * D)) by (field; lra). set (W := D * D) in *. assert (W0 : 0 < W) by (unfold u in *; lra).
    assert (A : 2 * c <= W + c * c / W). { apply Rmult_le_reg_r with W; [exact W0|]. rewrite Rmult_plus_distr_r. replace (c * c / W * W) with (c * c) by (field; lra). pose proof (sq_nonneg (W - c)). lra. }
    unfold u in *. lra.
  - lra.
  - assert (ds : s * s <= d * d) by (apply Rmult_le_compat; lra). assert (DS : d * d <= D * D) by (apply Rmult_le_compat; lra).
    replace (c / d * (c / d) - c / D * (c / D)) with (c / (d * d) * (c / (D * D)) * (D * D - d * d)) by (field; lra).
    set (w := d * d) in *. set (W := D * D) in *. assert (K : forall v, s * s <= v -> 0 <= c / v <= 1002 / 1000).
    { intros v V. assert (v0 : 0 < v) by (unfold u in *; lra). split; [apply Rmult_le_pos; [lra|left; now apply Rinv_0_lt_compat]|]. apply Rmult_le_reg_r with v; [exact v0|]. unfold Rdiv. rewrite Rmult_assoc, Rinv_l by lra. unfold u in *. lra. }
    destruct (K w ds) as [K0 K1]. destruct (K W ltac:(lra)) as [K2 K3]. assert (P : c / w * (c / W) <= 1002 / 1000 * (1002 / 1000)) by (apply Rmult_le_compat; assumption).
    assert (Q : c / w * (c / W) * (W - w) <= 101 / 100 * (W - w)) by (apply Rmult_le_compat_r; lra). unfold u. lra.
Qed.
Lemma heights_apart x y X Y : Rabs x <= 1 -> Rabs y <= 1 -> Rabs X <= 1 -> Rabs Y <= 1 ->
  Rabs (project ball_size X Y - project ball_size x y) <= 5 * (Rabs (X - x) + Rabs (Y - y)) + E.
Proof.
  assert (S : forall x y X Y, Rabs x <= 1 -> Rabs y <= 1 -> Rabs X <= 1 -> Rabs Y <= 1 -> x * x + y * y <= X * X + Y * Y -> Rabs (project ball_size X Y - project ball_size x y) <= 5 * (Rabs (X - x) + Rabs (Y - y)) + E).
  { clear. intros x y X Y hx hy hX hY O. destruct (squares_apart x y X Y O) as [[F0 FF] Q]. pose proof (project_inside x y hx hy) as B. pose proof (project_inside X Y hX hY) as B'.
    set (f := project ball_size x y) in *. set (F := project ball_size X Y) in *. clearbody f F. rewrite Rabs_minus_sym, Rabs_pos_eq by lra.
    assert (D : forall a b, Rabs a <= 1 -> Rabs b <= 1 -> a * a - b * b <= 2 * Rabs (a - b)).
    { intros a b A B1. replace (a * a - b * b) with ((a - b) * (a + b)) by ring. eapply Rle_trans; [apply Rle_abs|]. rewrite Rabs_mult, Rmult_comm. apply Rmult_le_compat_r; [apply Rabs_pos|]. eapply Rle_trans; [apply Rabs_triang|]. lra. }
    pose proof (D X x hX hx) as D1. pose proof (D Y y hY hy) as D2. assert (G : (f - F) * (44 / 100) <= (f - F) * (f + F)) by (apply Rmult_le_compat_l; lra).
    replace ((f - F) * (f + F)) with (f * f - F * F) in G by ring. pose proof (Rabs_pos (X - x)). pose proof (Rabs_pos (Y - y)). unfold u, E in *. lra. }
  intros hx hy hX hY. destruct (Rle_dec (x * x + y * y) (X * X + Y * Y)) as [O|O]; [now apply S|].
  rewrite Rabs_minus_sym, (Rabs_minus_sym X), (Rabs_minus_sym Y). apply S; try assumption. lra.
Qed.
(** A drag is short when its axis is. *)
Lemma chord_axis x y X Y : Rabs x <= 1 -> Rabs y <= 1 -> Rabs X <= 1 -> Rabs Y <= 1 ->
  let p := V3 x y (project ball_size x y) in let P := V3 X Y (project ball_size X Y) in
  v_length (v_sub p P) <= 56 * v_length (v_cross P p) + E.
Proof.
  intros hx hy hX hY. cbv zeta. pose proof (project_inside x y hx hy) as B. pose proof (project_inside X Y hX hY) as B'. pose proof (heights_apart x y X Y hx hy hX hY) as HA.
  assert (M : 22 / 100 * (22 / 100) * ((X - x) * (X - x) + (Y - y) * (Y - y)) <= (X * project ball_size x y - x * project ball_size X Y) * (X * project ball_size x y - x * project ball_size X Y) + (Y * project ball_size x y - y * project ball_size X Y) * (Y * project ball_size x y - y * project ball_size X Y)).
  { pose proof (sq_nonneg (X - x)) as S1. pose proof (sq_nonneg (Y - y)) as S2. destruct (Rle_dec (x * x + y * y) (X * X + Y * Y)) as [O|O].
    - destruct (squares_apart x y X Y O) as [FF _]. pose proof (cross_below x y X Y _ _ O FF) as C. eapply Rle_trans; [|exact C]. apply Rmult_le_compat_r; [lra|]. apply Rmult_le_compat; lra.
    - destruct (squares_apart X Y x y ltac:(lra)) as [FF _]. pose proof (cross_below X Y x y _ _ ltac:(lra) FF) as C.
      eapply Rle_trans; [|eapply Rle_trans; [exact C|right; ring]]. replace ((X - x) * (X - x) + (Y - y) * (Y - y)) with ((x - X) * (x - X) + (y - Y) * (y - Y)) by ring. apply Rmult_le_compat_r; [lra|]. apply Rmult_le_compat; lra. }
  set (f := project ball_size x y) in *. set (F := project ball_size X Y) in *. clearbody f F.
  set (k := v_length (v_cross (V3 X Y F) (V3 x y f))). assert (k0 : 0 <= k) by apply sqrt_pos.
  assert (kk : k * k = (Y * f - F * y) * (Y * f - F * y) + (F * x - X * f) * (F * x - X * f) + (X * y - Y * x) * (X * y - Y * x)).
  { unfold k, v_length. rewrite sqrt_sqrt; [reflexivity|]. unfold v_dot. repeat apply Rplus_le_le_0_compat; apply sq_nonneg. }
  clearbody k. pose proof (sq_nonneg (X * y - Y * x)) as S3. pose proof (sq_nonneg (X - x)) as S1. pose proof (sq_nonneg (Y - y)) as S2.
  assert (K : forall c, 22 / 100 * (22 / 100) * (c * c) <= k * k -> Rabs c <= 46 / 10 * k).
  { intros c H. apply Rsqr_incr_0; try lra; [|apply Rabs_pos]. rewrite <- Rsqr_abs. unfold Rsqr. pose proof (sq_nonneg k). lra. }
  assert (KX : Rabs (X - x) <= 46 / 10 * k) by (apply K; lra). assert (KY : Rabs (Y - y) <= 46 / 10 * k) by (apply K; lra).
  assert (L : v_length (v_sub (V3 x y f) (V3 X Y F)) <= Rabs (X - x) + Rabs (Y - y) + Rabs (F - f)).
  { unfold v_length. set (a := Rabs (X - x)). set (b := Rabs (Y - y)). set (c := Rabs (F - f)). assert (a0 : 0 <= a) by apply Rabs_pos. assert (b0 : 0 <= b) by apply Rabs_pos. assert (c0 : 0 <= c) by apply Rabs_pos.
    rewrite <- (sqrt_square (a + b + c)) by lra. apply sqrt_le_1_alt. unfold v_dot, v_sub. cbn [x3 y3 z3].
    assert (A : (x - X) * (x - X) = a * a) by (unfold a; rewrite <- Rabs_mult, Rabs_pos_eq by apply sq_nonneg; ring). assert (B0 : (y - Y) * (y - Y) = b * b) by (unfold b; rewrite <- Rabs_mult, Rabs_pos_eq by apply sq_nonneg; ring). assert (C : (f - F) * (f - F) = c * c) by (unfold c; rewrite <- Rabs_mult, Rabs_pos_eq by apply sq_nonneg; ring).
    rewrite A, B0, C. pose proof (Rmult_le_pos _ _ a0 b0). pose proof (Rmult_le_pos _ _ a0 c0). pose proof (Rmult_le_pos _ _ b0 c0). lra. }
  lra.
Qed.

(** ** Lengths and directions *)
Lemma v_length_q v : v_length v = q_length (append v 0).
Proof. unfold v_length, q_length. f_equal. unfold v_dot, q_dot, append. cbn [x4 y4 z4 w4]. ring. Qed.
Lemma v_length_pos v : 0 <= v_length v.
Proof. apply sqrt_pos. Qed.
Lemma v_length_sq v : v_length v * v_length v = v_dot v v.
Proof. apply sqrt_sqrt. unfold v_dot. repeat apply Rplus_le_le_0_compat; apply sq_nonneg. Qed.
Definition near_v (k : R) (a b : vec3) : Prop := approx k (x3 a) (x3 b) /\ approx k (y3 a) (y3 b) /\ approx k (z3 a) (z3 b).
Lemma v_length_near k a b : 0 <= k -> near_v k a b -> Rabs (v_length a - v_length b) <= 2 * k.
Proof.
  intros K (H0 & H1 & H2). rewrite !v_length_q. eapply Rle_trans; [apply q_length_sub|]. apply qdist_near; [exact K|]. unfold near_q, append. cbn [x4 y4 z4 w4]. repeat split; try assumption. unfold approx. rewrite Rminus_0_r, Rabs_R0. exact K.
Qed.
Lemma v_comps v : Rabs (x3 v) <= v_length v /\ Rabs (y3 v) <= v_length v /\ Rabs (z3 v) <= v_length v.
Proof.
  pose proof (v_length_sq v) as S. unfold v_dot in S. pose proof (sq_nonneg (x3 v)). pose proof (sq_nonneg (y3 v)). pose proof (sq_nonneg (z3 v)). pose proof (v_length_pos v).
  repeat split; (apply Rsqr_incr_0; [|apply Rabs_pos|assumption]); rewrite <- Rsqr_abs; unfold Rsqr; lra.
Qed.
Lemma near_one y : 0 <= y -> Rabs (y * y - 1) <= 20 * u -> Rabs (y - 1) <= 20 * u.
Proof.
  intros Y H. replace (y * y - 1) with ((y - 1) * (y + 1)) in H by ring. rewrite Rabs_mult, (Rabs_pos_eq (y + 1)) in H by lra.
  eapply Rle_trans; [|exact H]. rewrite <- (Rmult_1_r (Rabs (y - 1))) at 1. apply Rmult_le_compat_l; [apply Rabs_pos|lra].
Qed.
Lemma scaled_near c k i : 0 < k -> 0 <= i -> Rabs c <= k -> Rabs (k * k * (i * i) - 1) <= 20 * u -> Rabs (rnd (c * i) - c / k) <= 4 * E.
Proof.
  intros K I C H. pose proof (near_one (k * i) ltac:(apply Rmult_le_pos; lra)) as N. replace (k * i * (k * i)) with (k * k * (i * i)) in N by ring. specialize (N H).
  assert (Q : Rabs (c / k) <= 1). { unfold Rdiv. rewrite Rabs_mult, (Rabs_pos_eq (/ k)) by (left; now apply Rinv_0_lt_compat). apply Rmult_le_reg_r with k; [exact K|]. rewrite Rmult_assoc, Rinv_l by lra. lra. }
  assert (D : Rabs (c * i - c / k) <= 20 * u). { replace (c * i - c / k) with (c / k * (k * i - 1)) by (field; lra). rewrite Rabs_mult. apply Rle_trans with (1 * (20 * u)); [apply Rmult_le_compat; try apply Rabs_pos; assumption|lra]. }
  apply Rabs_le_iff in Q, D. pose proof (rnd7 (c * i) ltac:(apply Rabs_le; unfold u in D; lra)) as R. apply Rabs_le_iff in R. apply Rabs_le. unfold u, E in *. lra.
Qed.
Lemma inverse_nonneg l : 0 < l -> 0 <= rnd (1 / l).
Proof. intros H. apply rnd_nonneg. left. apply Rdiv_lt_0_compat; lra. Qed.
Lemma normalize_near v : tau2 <= v_dot v v -> v_dot v v <= 1000000000000 -> exists n, fv_normalize v = Ok n /\ near_v (4 * E) n (V3 (x3 v / v_length v) (y3 v / v_length v) (z3 v / v_length v)).
Proof.
  intros T U. destruct (fv_dot_above v) as (D0 & _). unfold fv_normalize, fv_length. rewrite fsqrt_ok by exact D0. cbn [bind].
  pose proof (fv_dot_rel v T) as H. destruct (inverse_length (v_dot v v) (fv_dot v v) T U) as (L & I); [unfold u in *; pose proof (bpow_gt_0 radix2 (-400)); unfold tau2 in T; lra|].
  rewrite fdiv_ok by lra. eexists. split; [reflexivity|]. pose proof (inverse_nonneg _ L) as I0. set (i := rnd (1 / rnd (sqrt (fv_dot v v)))) in *. clearbody i.
  assert (K : 0 < v_length v). { apply sqrt_lt_R0. eapply Rlt_le_trans; [apply bpow_gt_0|exact T]. } rewrite <- v_length_sq in I. destruct (v_comps v) as (C0 & C1 & C2).
  unfold near_v, approx, fv_mul, fmul. cbn [x3 y3 z3]. repeat split; apply scaled_near; assumption.
Qed.
Lemma q_normalize_close q : tau2 <= q_dot q q -> q_dot q q <= 1000000000000 -> exists n, fq_normalize q = Ok n /\ Rabs (q_dot n n - 1) <= 8 * E /\ near_q (4 * E) n (q_mul q (/ q_length q)).
Proof.
  intros T U. destruct (q_normalize_near q T U) as (n & Nn & N1). exists n. split; [exact Nn|]. split; [exact N1|]. revert Nn. assert (D0 : 0 <= fq_dot q q).
  { pose proof (fq_dot_rel q T) as H. apply Rabs_le_iff in H. pose proof (bpow_gt_0 radix2 (-400)). unfold tau2 in T. unfold u in H. lra. }
  unfold fq_normalize, fq_length. rewrite fsqrt_ok by exact D0. cbn [bind].
  pose proof (fq_dot_rel q T) as H. destruct (inverse_length (q_dot q q) (fq_dot q q) T U H) as (L & I).
  rewrite fdiv_ok by lra. intros X. injection X as <-. pose proof (inverse_nonneg _ L) as I0. set (i := rnd (1 / rnd (sqrt (fq_dot q q)))) in *. clearbody i.
  assert (K : 0 < q_length q). { apply sqrt_lt_R0. eapply Rlt_le_trans; [apply bpow_gt_0|exact T]. } rewrite <- q_length_sq in I.
  destruct (comps_le q (q_length q) ltac:(rewrite q_length_sq; lra) ltac:(lra)) as (C0 & C1 & C2 & C3).
  unfold near_q, approx, fq_mul, q_mul, fmul. cbn [x4 y4 z4 w4]. repeat split; apply scaled_near; assumption.
Qed.
Lemma tiny_comps v : v_dot v v < tau2 -> Rabs (x3 v) <= E /\ Rabs (y3 v) <= E /\ Rabs (z3 v) <= E.
Proof.
  intros T. pose proof tau_E as TE. unfold v_dot in T. pose proof (sq_nonneg (x3 v)). pose proof (sq_nonneg (y3 v)). pose proof (sq_nonneg (z3 v)). assert (0 < E) by (unfold E; lra).
  repeat split; (apply Rsqr_incr_0; [|apply Rabs_pos|lra]); rewrite <- Rsqr_abs; unfold Rsqr; lra.
Qed.
Lemma length_near v : v_length v <= 4 -> exists l, fv_length v = Ok l /\ 0 <= l /\ Rabs (l - v_length v) <= 600 * E.
Proof.
  intros L4. destruct (Rle_dec tau2 (v_dot v v)) as [T|T].
  - destruct (fv_dot_above v) as (D0 & _). unfold fv_length. rewrite fsqrt_ok by exact D0. eexists. split; [reflexivity|]. split; [apply rnd_nonneg, sqrt_pos|]. pose proof (fv_dot_rel v T) as H. pose proof (v_length_sq v) as S. pose proof (v_length_pos v) as L0. rewrite <- S in H.
    assert (K : 0 < v_length v). { apply sqrt_lt_R0. eapply Rlt_le_trans; [apply bpow_gt_0|exact T]. }
    set (k := v_length v) in *. clearbody k. set (s := fv_dot v v) in *. clearbody s. pose proof (sqrt_sqrt s D0) as ss. pose proof (sqrt_pos s) as s0. set (r := sqrt s) in *. clearbody r.
    assert (R : Rabs (r - k) <= 8 * u * k). { apply Rmult_le_reg_r with k; [exact K|]. eapply Rle_trans; [|rewrite Rmult_assoc; exact H]. rewrite <- ss. replace (r * r - k * k) with ((r - k) * (r + k)) by ring. rewrite Rabs_mult, (Rabs_pos_eq (r + k)) by lra. apply Rmult_le_compat_l; [apply Rabs_pos|lra]. }
    apply Rabs_le_iff in R. pose proof (rnd7 r ltac:(apply Rabs_le; unfold u in R; lra)) as W. apply Rabs_le_iff in W. apply Rabs_le. unfold u, E in *. lra.
  - assert (T' : v_dot v v < tau2) by lra. destruct (tiny_comps v T') as (C0 & C1 & C2). assert (E0 : 0 < E) by (unfold E; lra).
    destruct (length_small v (300 * E) ltac:(unfold E; lra) ltac:(lra) ltac:(lra) ltac:(lra) ltac:(unfold E; lra)) as (l & Hl & l0 & l1). exists l. split; [exact Hl|]. split; [exact l0|].
    pose proof (v_length_near E v (V3 0 0 0) ltac:(lra)) as N. assert (Z : v_length (V3 0 0 0) = 0) by (unfold v_length, v_dot; cbn [x3 y3 z3]; replace (0 * 0 + 0 * 0 + 0 * 0) with 0 by ring; apply sqrt_0). rewrite Z, Rminus_0_r in N.
    assert (N' : Rabs (v_length v) <= 2 * E) by (apply N; unfold near_v, approx; cbn [x3 y3 z3]; rewrite !Rminus_0_r; repeat split; assumption). apply Rabs_le_iff in N'. apply Rabs_le. pose proof (v_length_pos v). lra.
Qed.
(** Nearly equal vectors have nearly equal directions. *)
Lemma direction_near c c' k k' e : 0 < k -> 0 < k' -> Rabs c' <= k' -> Rabs (c' - c) <= e -> Rabs (k' - k) <= 2 * e -> Rabs (c' / k' - c / k) * k <= 3 * e.
Proof.
  intros K K' C D L. rewrite <- (Rabs_pos_eq k) at 2 by lra. rewrite <- Rabs_mult. replace ((c' / k' - c / k) * k) with ((c' - c) - c' / k' * (k' - k)) by (field; lra).
  assert (Q : Rabs (c' / k') <= 1). { unfold Rdiv. rewrite Rabs_mult, (Rabs_pos_eq (/ k')) by (left; now apply Rinv_0_lt_compat). apply Rmult_le_reg_r with k'; [exact K'|]. rewrite Rmult_assoc, Rinv_l by lra. lra. }
  assert (P : Rabs (c' / k' * (k' - k)) <= 1 * (2 * e)) by (rewrite Rabs_mult; apply Rmult_le_compat; try apply Rabs_pos; assumption).
  eapply Rle_trans; [apply diff_le; [exact D|exact P]|]. lra.
Qed.
Lemma sin_apart a b : Rabs (sin a - sin b) <= Rabs (a - b).
Proof.
  rewrite form4, !Rabs_mult, (Rabs_pos_eq 2) by lra. pose proof (sin_le_abs ((a - b) / 2)) as S. pose proof (COS_bound ((a + b) / 2)) as C.
  assert (C' : Rabs (cos ((a + b) / 2)) <= 1) by (apply Rabs_le; lra). unfold Rdiv in S at 2. rewrite Rabs_mult, (Rabs_pos_eq (/ 2)) in S by lra.
  assert (P : 2 * Rabs (cos ((a + b) / 2)) * Rabs (sin ((a - b) / 2)) <= 2 * 1 * (Rabs (a - b) * / 2)) by (apply Rmult_le_compat; [pose proof (Rabs_pos (cos ((a + b) / 2))); lra|apply Rabs_pos|lra|exact S]). lra.
Qed.
Lemma cos_apart a b : Rabs (cos a - cos b) <= Rabs (a - b).
Proof. rewrite !cos_sin. eapply Rle_trans; [apply sin_apart|]. right. f_equal. ring. Qed.

(** ** One drag *)
Lemma rnd_inside x : Rabs x <= 1 -> Rabs (rnd x) <= 1.
Proof.
  intros H. unfold rnd. assert (G : generic_format radix2 (FLT_exp (-1074) 53) 1). { change 1 with (bpow radix2 0). apply generic_format_bpow. unfold FLT_exp. lia. }
  assert (P : Prec_gt_0 53) by reflexivity. apply abs_round_le_generic; [apply FLT_exp_valid; exact P|apply valid_rnd_N|exact G|exact H].
Qed.
Lemma product_near A B A' B' k : 0 <= k <= / 100 -> Rabs A <= 1 -> Rabs B <= 1 -> approx k A' A -> approx k B' B -> Rabs (A' * B' - A * B) <= 201 / 100 * k.
Proof.
  unfold approx. intros K HA HB H1 H2. replace (A' * B' - A * B) with ((A' - A) * B' + A * (B' - B)) by ring.
  assert (BB : Rabs B' <= 101 / 100) by (apply Rabs_le_iff in HB, H2; apply Rabs_le; lra).
  assert (P : Rabs ((A' - A) * B') <= k * (101 / 100)) by (rewrite Rabs_mult; apply Rmult_le_compat; try apply Rabs_pos; assumption).
  assert (Q : Rabs (A * (B' - B)) <= 1 * k) by (rewrite Rabs_mult; apply Rmult_le_compat; try apply Rabs_pos; assumption).
  eapply Rle_trans; [apply sum_le; [exact P|exact Q]|]. lra.
Qed.
Lemma cross_part A B C D A' B' C' D' : Rabs A <= 1 -> Rabs B <= 1 -> Rabs C <= 1 -> Rabs D <= 1 ->
  approx (11 * E) A' A -> approx (11 * E) B' B -> approx (11 * E) C' C -> approx (11 * E) D' D -> approx (48 * E) (fsub (fmul A' B') (fmul C' D')) (A * B - C * D).
Proof.
  intros HA HB HC HD H1 H2 H3 H4. assert (E0 : 0 < E) by (unfold E; lra). pose proof (product_near A B A' B' (11 * E) ltac:(unfold E; lra) HA HB H1 H2) as P. pose proof (product_near C D C' D' (11 * E) ltac:(unfold E; lra) HC HD H3 H4) as Q.
  assert (M : forall a b, Rabs a <= 1 -> Rabs b <= 1 -> Rabs (a * b) <= 1) by (intros a b Ha Hb; pose proof (mul_le a b 1 Ha Hb); lra).
  pose proof (M A B HA HB) as M1. pose proof (M C D HC HD) as M2. apply Rabs_le_iff in P, Q, M1, M2. unfold fsub, fmul, approx.
  pose proof (rnd7 (A' * B') ltac:(apply Rabs_le; unfold E in *; lra)) as R1. pose proof (rnd7 (C' * D') ltac:(apply Rabs_le; unfold E in *; lra)) as R2. apply Rabs_le_iff in R1, R2.
  pose proof (rnd7 (rnd (A' * B') - rnd (C' * D')) ltac:(apply Rabs_le; unfold E in *; lra)) as R3. apply Rabs_le_iff in R3. apply Rabs_le. lra.
Qed.
Lemma sub_part A B A' B' : Rabs A <= 1 -> Rabs B <= 1 -> approx (11 * E) A' A -> approx (11 * E) B' B -> approx (23 * E) (fsub A' B') (A - B).
Proof.
  intros HA HB H1 H2. unfold approx, fsub in *. apply Rabs_le_iff in HA, HB, H1, H2. pose proof (rnd7 (A' - B') ltac:(apply Rabs_le; unfold E in *; lra)) as R. apply Rabs_le_iff in R. apply Rabs_le. lra.
Qed.
Lemma near_cross a b a' b' : (forall c, In c [x3 a; y3 a; z3 a; x3 b; y3 b; z3 b] -> Rabs c <= 1) -> near_v (11 * E) a' a -> near_v (11 * E) b' b -> near_v (48 * E) (fv_cross a' b') (v_cross a b).
Proof.
  intros C (A0 & A1 & A2) (B0 & B1 & B2). unfold near_v, fv_cross, v_cross. cbn [x3 y3 z3]. repeat split; apply cross_part; try assumption; apply C; cbn; tauto.
Qed.
Lemma near_sub a b a' b' : (forall c, In c [x3 a; y3 a; z3 a; x3 b; y3 b; z3 b] -> Rabs c <= 1) -> near_v (11 * E) a' a -> near_v (11 * E) b' b -> near_v (23 * E) (fv_sub a' b') (v_sub a b).
Proof.
  intros C (A0 & A1 & A2) (B0 & B1 & B2). unfold near_v, fv_sub, v_sub. cbn [x3 y3 z3]. repeat split; apply sub_part; try assumption; apply C; cbn; tauto.
Qed.
Lemma cos_of_asin t t' e : 0 <= t <= 9 / 10 -> 0 <= t' <= 91 / 100 -> Rabs (t' - t) <= e -> Rabs (sqrt (1 - t' * t') - sqrt (1 - t * t)) <= 22 / 10 * e.
Proof.
  intros T T' H. assert (A : 43 / 100 <= sqrt (1 - t * t)). { rewrite <- (sqrt_square (43 / 100)) by lra. apply sqrt_le_1_alt. nra. }
  assert (B : 41 / 100 <= sqrt (1 - t' * t')). { rewrite <- (sqrt_square (41 / 100)) by lra. apply sqrt_le_1_alt. nra. }
  pose proof (sqrt_sqrt (1 - t * t) ltac:(nra)) as S. pose proof (sqrt_sqrt (1 - t' * t') ltac:(nra)) as S'. set (a := sqrt (1 - t * t)) in *. set (b := sqrt (1 - t' * t')) in *. clearbody a b.
  apply Rmult_le_reg_r with (84 / 100); [lra|]. apply Rle_trans with (Rabs (b - a) * (b + a)); [apply Rmult_le_compat_l; [apply Rabs_pos|lra]|].
  rewrite <- (Rabs_pos_eq (b + a)) by lra. rewrite <- Rabs_mult. replace ((b - a) * (b + a)) with ((t - t') * (t + t')) by lra. rewrite Rabs_mult, (Rabs_minus_sym t t').
  rewrite (Rabs_pos_eq (t + t')) by lra. assert (e0 : 0 <= e) by (eapply Rle_trans; [apply Rabs_pos|exact H]). apply Rle_trans with (e * (181 / 100)); [apply Rmult_le_compat; try apply Rabs_pos; lra|lra].
Qed.
Lemma asin_float L t t' : good_library L -> 0 <= t <= 9 / 10 -> 0 <= t' <= 91 / 100 -> Rabs (t' - t) <= 415 * E ->
  let h := rnd (fmul 2 (m_asin L t') / 2) in Rabs (m_sin L h - t) <= 420 * E /\ Rabs (m_cos L h - sqrt (1 - t * t)) <= 920 * E.
Proof.
  intros (GS & GC & GA) T T' H h. assert (E0 : 0 < E) by (unfold E; lra). pose proof (GA t' ltac:(lra)) as G. set (p := m_asin L t') in *. pose proof (asin_bound t') as AB. pose proof PI_4 as P4. destruct (asin_small t' ltac:(lra)) as [a0 _].
  assert (P : Rabs (p - asin t') <= 11 / 10 * E).
  { unfold good in G. rewrite (Rabs_pos_eq (asin t')) in G by exact a0. pose proof omega_small. replace (/ 2 ^ 51) with (/ 2251799813685248) in G by (cbn; lra). unfold E in *. lra. }
  assert (HH : Rabs (h - asin t') <= 3 * E).
  { unfold h, fmul. apply Rabs_le_iff in P. pose proof (rnd7 (2 * p) ltac:(apply Rabs_le; unfold E in *; lra)) as R1. apply Rabs_le_iff in R1. pose proof (rnd7 (rnd (2 * p) / 2) ltac:(apply Rabs_le; unfold E in *; lra)) as R2. apply Rabs_le_iff in R2. apply Rabs_le. lra. }
  clearbody h p. pose proof (good_near _ _ (GS h) ltac:(apply Rabs_le, SIN_bound)) as S. pose proof (good_near _ _ (GC h) ltac:(apply Rabs_le, COS_bound)) as C.
  pose proof (sin_apart h (asin t')) as SA. pose proof (cos_apart h (asin t')) as CA. rewrite sin_asin in SA by lra. rewrite cos_asin in CA by lra. unfold Rsqr in CA.
  pose proof (cos_of_asin t t' _ T T' H) as CT. apply Rabs_le_iff in H, HH, S, C, CT. assert (SA' : Rabs (sin h - t') <= 3 * E) by (eapply Rle_trans; [exact SA|apply Rabs_le; lra]). assert (CA' : Rabs (cos h - sqrt (1 - t' * t')) <= 3 * E) by (eapply Rle_trans; [exact CA|apply Rabs_le; lra]).
  apply Rabs_le_iff in SA', CA'. split; apply Rabs_le; lra.
Qed.
Lemma quotient_near l k b r : Rabs (l - k) <= 646 * E -> 0 <= k <= 3 / 2 -> Rabs (b - r) <= E -> 158 / 100 <= r <= 162 / 100 -> Rabs (rnd (l / b) - k / r) <= 415 * E.
Proof.
  intros H K B R. apply Rabs_le_iff in B. assert (b1 : 157 / 100 <= b <= 163 / 100) by (unfold E in B; lra).
  assert (Q : Rabs (l / b - k / r) <= 413 * E).
  { replace (l / b - k / r) with (((l - k) - k / r * (b - r)) / b) by (field; lra).
    assert (kr : 0 <= k / r <= 1). { split; [apply Rmult_le_pos; [lra|left; apply Rinv_0_lt_compat; lra]|]. apply Rmult_le_reg_r with r; [lra|]. unfold Rdiv. rewrite Rmult_assoc, Rinv_l by lra. lra. }
    assert (P : Rabs (k / r * (b - r)) <= 1 * E) by (rewrite Rabs_mult; apply Rmult_le_compat; try apply Rabs_pos; [rewrite Rabs_pos_eq; lra|apply Rabs_le; lra]).
    unfold Rdiv at 1. rewrite Rabs_mult, (Rabs_pos_eq (/ b)) by (left; apply Rinv_0_lt_compat; lra). apply Rmult_le_reg_r with b; [lra|]. rewrite Rmult_assoc, Rinv_l by lra. rewrite Rmult_1_r.
    eapply Rle_trans; [apply diff_le; [exact H|exact P]|]. unfold E. lra. }
  assert (kr : 0 <= k / r <= 1). { split; [apply Rmult_le_pos; [lra|left; apply Rinv_0_lt_compat; lra]|]. apply Rmult_le_reg_r with r; [lra|]. unfold Rdiv. rewrite Rmult_assoc, Rinv_l by lra. lra. }
  apply Rabs_le_iff in Q. pose proof (rnd7 (l / b) ltac:(apply Rabs_le; unfold E in *; lra)) as W. apply Rabs_le_iff in W. apply Rabs_le. lra.
Qed.
(** A part of the axis times the sine. *)
Lemma part_near c k n s t : 0 < k -> Rabs c <= k -> Rabs n <= 5 / 4 -> Rabs (s - t) <= 420 * E -> 0 <= t <= 9 / 10 -> Rabs (n - c / k) * t <= 5250 * E ->
  Rabs (rnd (n * s) - c / k * t) <= 9000 * E.
Proof.
  intros K C N S T D. assert (E0 : 0 < E) by (unfold E; lra). assert (P : Rabs (n * (s - t)) <= 5 / 4 * (420 * E)) by (rewrite Rabs_mult; apply Rmult_le_compat; try apply Rabs_pos; assumption).
  assert (Q : Rabs ((n - c / k) * t) <= 5250 * E) by (rewrite Rabs_mult, (Rabs_pos_eq t) by lra; exact D).
  assert (B : Rabs (n * t) <= 5 / 4 * (9 / 10)) by (rewrite Rabs_mult, (Rabs_pos_eq t) by lra; apply Rmult_le_compat; try apply Rabs_pos; lra).
  apply Rabs_le_iff in P, Q, B. pose proof (rnd7 (n * s) ltac:(apply Rabs_le; unfold E in *; lra)) as R. apply Rabs_le_iff in R. apply Rabs_le. lra.
Qed.
Lemma part_small c n s t : Rabs c <= 1 -> Rabs n <= 5 / 4 -> Rabs (s - t) <= 420 * E -> 0 <= t <= 3601 * E -> Rabs (rnd (n * s) - c * t) <= 9000 * E.
Proof.
  intros C N S T. assert (E0 : 0 < E) by (unfold E; lra). assert (S' : Rabs s <= 4021 * E) by (apply Rabs_le_iff in S; apply Rabs_le; lra).
  assert (P : Rabs (n * s) <= 5 / 4 * (4021 * E)) by (rewrite Rabs_mult; apply Rmult_le_compat; try apply Rabs_pos; assumption).
  assert (Q : Rabs (c * t) <= 1 * (3601 * E)) by (rewrite Rabs_mult, (Rabs_pos_eq t) by lra; apply Rmult_le_compat; try apply Rabs_pos; lra).
  apply Rabs_le_iff in P, Q. pose proof (rnd7 (n * s) ltac:(apply Rabs_le; unfold E in *; lra)) as R. apply Rabs_le_iff in R. apply Rabs_le. lra.
Qed.
Lemma tau_E9 : tau2 <= 9 * (E * E).
Proof. pose proof tau_E. assert (0 <= E * E) by apply sq_nonneg. lra. Qed.
Lemma axis_near a a' n : near_v (48 * E) a' a -> v_length a <= 4 -> fv_normalize a' = Ok n -> 100 * E <= v_length a -> forall t, 0 <= t <= 3601 / 100 * v_length a -> t <= 9 / 10 ->
  Rabs (x3 n - x3 a / v_length a) * t <= 5250 * E /\ Rabs (y3 n - y3 a / v_length a) * t <= 5250 * E /\ Rabs (z3 n - z3 a / v_length a) * t <= 5250 * E.
Proof.
  intros NA A3 Nn K t T T9. assert (E0 : 0 < E) by (unfold E; lra). pose proof (v_length_near (48 * E) a' a ltac:(lra) NA) as NL. destruct NA as (N0 & N1 & N2). unfold approx in *. assert (NL' := NL). apply Rabs_le_iff in NL'.
  assert (K' : 3 * E <= v_length a') by lra. pose proof (v_length_sq a') as SQ.
  assert (T1 : tau2 <= v_dot a' a'). { rewrite <- SQ. eapply Rle_trans; [apply tau_E9|]. replace (9 * (E * E)) with (3 * E * (3 * E)) by ring. apply Rmult_le_compat; lra. }
  assert (T2 : v_dot a' a' <= 1000000000000). { rewrite <- SQ. apply Rle_trans with (5 * 5); [apply Rmult_le_compat; unfold E in *; lra|lra]. }
  destruct (normalize_near a' T1 T2) as (n' & Nn' & (M0 & M1 & M2)). rewrite Nn in Nn'. injection Nn' as <-. unfold approx in *. cbn [x3 y3 z3] in *. destruct (v_comps a') as (C0 & C1 & C2).
  assert (G : forall c c' m, Rabs c' <= v_length a' -> Rabs (c' - c) <= 48 * E -> Rabs (m - c' / v_length a') <= 4 * E -> Rabs (m - c / v_length a) * t <= 5250 * E).
  { intros c c' m C D M. pose proof (direction_near c c' (v_length a) (v_length a') (48 * E) ltac:(lra) ltac:(lra) C D ltac:(lra)) as DN.
    apply Rle_trans with ((Rabs (m - c' / v_length a') + Rabs (c' / v_length a' - c / v_length a)) * t).
    - apply Rmult_le_compat_r; [lra|]. replace (m - c / v_length a) with ((m - c' / v_length a') + (c' / v_length a' - c / v_length a)) by ring. apply Rabs_triang.
    - rewrite Rmult_plus_distr_r. assert (Q1 : Rabs (m - c' / v_length a') * t <= 4 * E * 1) by (apply Rmult_le_compat; try apply Rabs_pos; lra).
      assert (Q2 : Rabs (c' / v_length a' - c / v_length a) * t <= Rabs (c' / v_length a' - c / v_length a) * (3601 / 100 * v_length a)) by (apply Rmult_le_compat_l; [apply Rabs_pos|lra]). lra. }
  split; [exact (G _ _ _ C0 N0 M0)|]. split; [exact (G _ _ _ C1 N1 M1)|exact (G _ _ _ C2 N2 M2)].
Qed.
Lemma frotate_near L x y dx dy : good_library L -> inside (Drag x y dx dy) -> exists q, frotate L x y dx dy = Ok q /\ near_q (9000 * E) q (rotate_by x y dx dy).
Proof.
  intros GL (hx & hy & hX & hY & DL). assert (E0 : 0 < E) by (unfold E; lra). unfold frotate, rotate_by, fadd. unfold drag_length in DL.
  set (X := x + dx) in *. set (Y := y + dy) in *. clearbody X Y.
  set (f := project ball_size x y) in *. set (F := project ball_size X Y) in *. set (p := V3 x y f) in *. set (P := V3 X Y F) in *.
  change (norm (sub3 p P)) with (v_length (v_sub p P)) in DL.
  set (A := v_cross P p) in *. set (D := v_sub p P) in *. cbv zeta. set (t := v_length D / (2 * ball_size)) in *.
  assert (B0 : dx = 0 /\ dy = 0 \/ (if Req_EM_T dx 0 then if Req_EM_T dy 0 then true else false else false) = false).
  { destruct (Req_EM_T dx 0), (Req_EM_T dy 0); tauto. }
  destruct B0 as [(-> & ->)|B0].
  { destruct (Req_EM_T 0 0) as [_|N]; [|contradiction]. eexists. split; [reflexivity|]. unfold near_q, approx. rewrite !Rminus_eq_0, !Rabs_R0. lra. }
  rewrite B0.
  assert (EX : forall (T : Type) (v w : T), (if Req_EM_T dx 0 then if Req_EM_T dy 0 then v else w else w) = w) by (intros T v w; destruct (Req_EM_T dx 0), (Req_EM_T dy 0); try reflexivity; discriminate).
  rewrite EX. clear EX B0.
  destruct ball_numbers as (R1 & _). pose proof (v_length_pos D) as D0.
  assert (t0 : 0 <= t) by (apply Rmult_le_pos; [exact D0|left; apply Rinv_0_lt_compat; lra]).
  rewrite (clipped t t0). rewrite (Rmin_right 1 t) by lra. unfold q_from_axis_angle. replace (2 * asin t / 2) with (asin t) by field. rewrite sin_asin, cos_asin by lra. unfold Rsqr.
  pose proof (project_inside x y hx hy) as Bf. fold f in Bf. pose proof (project_inside X Y hX hY) as BF. fold F in BF.
  assert (IN : forall c, In c [x3 P; y3 P; z3 P; x3 p; y3 p; z3 p] -> Rabs c <= 1).
  { intros c I. unfold p, P in I. cbn [x3 y3 z3 In] in I. repeat destruct I as [<-|I]; try assumption; try contradiction; rewrite Rabs_pos_eq; lra. }
  assert (IN' : forall c, In c [x3 p; y3 p; z3 p; x3 P; y3 P; z3 P] -> Rabs c <= 1) by (intros c I; apply IN; cbn [In] in *; tauto).
  pose proof (rnd_inside X hX) as HX'. pose proof (rnd_inside Y hY) as HY'. pose proof (rnd1 X hX) as RX. pose proof (rnd1 Y hY) as RY. set (X' := rnd X) in *. set (Y' := rnd Y) in *. clearbody X' Y'.
  destruct (project_near x y ltac:(lra) ltac:(lra)) as (z & -> & Nz & Bz). destruct (project_near X' Y' ltac:(lra) ltac:(lra)) as (Z & PZ & NZ & BZ). cbn [bind]. rewrite PZ. cbn [bind]. fold f in Nz.
  pose proof (heights_apart X Y X' Y' hX hY HX' HY') as HA. fold F in HA.
  assert (NP : near_v (11 * E) (V3 X' Y' Z) P).
  { unfold near_v, approx, P. cbn [x3 y3 z3]. split; [|split]; [unfold u, E in *; lra|unfold u, E in *; lra|]. replace (Z - F) with ((Z - project ball_size X' Y') + (project ball_size X' Y' - F)) by ring. eapply Rle_trans; [apply sum_le; [exact NZ|exact HA]|]. unfold u, E in *. lra. }
  assert (Np : near_v (11 * E) (V3 x y z) p).
  { unfold near_v, approx, p. cbn [x3 y3 z3]. rewrite !Rminus_eq_0, Rabs_R0. split; [lra|split; [lra|]]. lra. }
  pose proof (near_cross _ _ _ _ IN NP Np) as NA. fold A in NA. pose proof (near_sub _ _ _ _ IN' Np NP) as ND. fold D in ND.
  set (a := fv_cross (V3 X' Y' Z) (V3 x y z)) in *. set (d := fv_sub (V3 x y z) (V3 X' Y' Z)) in *. clearbody a d.
  pose proof (chord_axis x y X Y hx hy hX hY) as CH. cbv zeta in CH. fold f F in CH. fold p P in CH. fold A D in CH.
  assert (D15 : v_length D <= 3 / 2). { assert (v_length D = t * (2 * ball_size)) by (unfold t; field; lra). assert (t * (2 * ball_size) <= 9 / 10 * (2 * ball_size)) by (apply Rmult_le_compat_r; lra). lra. }
  assert (TK : t <= 36 * v_length A + E).
  { unfold t. apply Rmult_le_reg_r with (2 * ball_size); [lra|]. unfold Rdiv. rewrite Rmult_assoc, Rinv_l by lra. pose proof (v_length_pos A).
    assert ((36 * v_length A + E) * (158 / 100) <= (36 * v_length A + E) * (2 * ball_size)) by (apply Rmult_le_compat_l; lra). lra. }
  assert (A3 : v_length A <= 4).
  { rewrite v_length_q. apply q_length_le; [lra|]. unfold q_dot, append. cbn [x4 y4 z4 w4].
    assert (C2 : forall e g h k, Rabs e <= 1 -> Rabs g <= 1 -> Rabs h <= 1 -> Rabs k <= 1 -> (e * g - h * k) * (e * g - h * k) <= 2 * 2 - / 1000 + / 1000).
    { intros e g h k He Hg Hh Hk. pose proof (mul_le e g 1 He Hg) as M1. pose proof (mul_le h k 1 Hh Hk) as M2. pose proof (diff_le _ _ _ _ M1 M2) as M3. pose proof (mul_le _ _ _ M3 M3) as M4. rewrite Rabs_pos_eq in M4 by apply sq_nonneg. lra. }
    unfold A, v_cross. cbn [x3 y3 z3].
    assert (Fz : Rabs F <= 81 / 100) by (rewrite Rabs_pos_eq; lra). assert (fz : Rabs f <= 81 / 100) by (rewrite Rabs_pos_eq; lra).
    assert (S1 : forall g h e k, Rabs g <= 1 -> Rabs e <= 1 -> Rabs h <= 81 / 100 -> Rabs k <= 81 / 100 -> (g * h - k * e) * (g * h - k * e) <= 266 / 100).
    { intros g h e k Hg He Hh Hk. assert (M1 : Rabs (g * h) <= 1 * (81 / 100)) by (rewrite Rabs_mult; apply Rmult_le_compat; try apply Rabs_pos; assumption). assert (M2 : Rabs (k * e) <= 81 / 100 * 1) by (rewrite Rabs_mult; apply Rmult_le_compat; try apply Rabs_pos; assumption).
      pose proof (diff_le _ _ _ _ M1 M2) as M3. pose proof (mul_le _ _ _ M3 M3) as M4. rewrite Rabs_pos_eq in M4 by apply sq_nonneg. lra. }
    unfold P, p. cbn [x3 y3 z3]. pose proof (S1 Y f y F hY hy fz Fz). pose proof (S1 X f x F hX hx fz Fz) as Q2. pose proof (C2 X y Y x hX hy hY hx).
    replace ((F * x - X * f) * (F * x - X * f)) with ((X * f - F * x) * (X * f - F * x)) by ring. lra. }
  pose proof (v_length_near (23 * E) d D ltac:(lra) ND) as LD. apply Rabs_le_iff in LD.
  destruct (length_near d ltac:(unfold E in *; lra)) as (l & Ll & l0 & Nl). rewrite Ll. cbn [bind]. apply Rabs_le_iff in Nl.
  pose proof (rnd7 (2 * ball_size) ltac:(apply Rabs_le; lra)) as RB. unfold fmul at 1. assert (RB' := RB). apply Rabs_le_iff in RB'. rewrite fdiv_ok by (unfold E in RB'; lra). cbn [bind].
  pose proof (quotient_near l (v_length D) (rnd (2 * ball_size)) (2 * ball_size) ltac:(apply Rabs_le; lra) ltac:(lra) RB ltac:(lra)) as QN. fold t in QN.
  assert (B1 : 1 <= rnd (2 * ball_size)) by (unfold E in RB'; lra).
  assert (T0 : 0 <= rnd (l / rnd (2 * ball_size))) by (apply rnd_nonneg; apply Rmult_le_pos; [exact l0|left; apply Rinv_0_lt_compat; lra]).
  set (t' := rnd (l / rnd (2 * ball_size))) in *. clearbody t'. assert (QN' := QN). apply Rabs_le_iff in QN'. assert (T1 : t' <= 91 / 100) by (unfold E in QN'; lra).
  rewrite (clipped t' T0), (Rmin_right 1 t') by lra. unfold fasin. destruct (Rle_dec (Rabs t') 1) as [_|C]; [|exfalso; apply C; rewrite Rabs_pos_eq; lra]. cbn [bind].
  unfold fq_from_axis_angle.
  assert (AB : Rabs (x3 a) <= 100000 /\ Rabs (y3 a) <= 100000 /\ Rabs (z3 a) <= 100000).
  { destruct (v_comps A) as (C0 & C1 & C2). destruct NA as (N0 & N1 & N2). unfold approx in *. apply Rabs_le_iff in C0, C1, C2, N0, N1, N2. repeat split; apply Rabs_le; unfold E in *; lra. }
  destruct (normalize_bounded a (proj1 AB) (proj1 (proj2 AB)) (proj2 (proj2 AB))) as (n & Nn & N1 & N2 & N3). rewrite Nn. cbn [bind]. rewrite fdiv_ok by lra. cbn [bind].
  destruct (asin_float L t t' GL ltac:(lra) ltac:(lra) QN) as [SH CO]. cbv zeta in SH, CO. set (h := rnd (fmul 2 (m_asin L t') / 2)) in *. clearbody h. set (s := m_sin L h) in *. set (c := m_cos L h) in *. clearbody s c.
  eexists. split; [reflexivity|].
  assert (W : approx (9000 * E) c (sqrt (1 - t * t))) by (unfold approx; lra).
  unfold near_q, append, fv_mul, v_mul, fmul. cbn [x4 y4 z4 w4 x3 y3 z3].
  assert (G : approx (9000 * E) (rnd (x3 n * s)) (x3 (v_normalize A) * t) /\ approx (9000 * E) (rnd (y3 n * s)) (y3 (v_normalize A) * t) /\ approx (9000 * E) (rnd (z3 n * s)) (z3 (v_normalize A) * t)); [|tauto].
  destruct (v_comps A) as (C0 & C1 & C2). unfold v_normalize, approx.
  destruct (Rle_dec (100 * E) (v_length A)) as [K|K].
  - destruct (Req_EM_T (v_length A) 0) as [Z0|_]; [lra|]. unfold v_mul. cbn [x3 y3 z3].
    assert (TT : 0 <= t <= 3601 / 100 * v_length A) by lra.
    destruct (axis_near A a n NA A3 Nn K t ltac:(lra) DL) as (Q0 & Q1 & Q2).
    replace (x3 A * (1 / v_length A)) with (x3 A / v_length A) by (field; lra). replace (y3 A * (1 / v_length A)) with (y3 A / v_length A) by (field; lra). replace (z3 A * (1 / v_length A)) with (z3 A / v_length A) by (field; lra).
    repeat split; apply part_near; try assumption; lra.
  - assert (C : Rabs (x3 (v_normalize A)) <= 1 /\ Rabs (y3 (v_normalize A)) <= 1 /\ Rabs (z3 (v_normalize A)) <= 1).
    { unfold v_normalize. destruct (Req_EM_T (v_length A) 0) as [Z0|Z0]; [rewrite Z0 in *; repeat split; lra|]. pose proof (v_length_pos A). unfold v_mul. cbn [x3 y3 z3].
      assert (V : forall e, Rabs e <= v_length A -> Rabs (e * (1 / v_length A)) <= 1). { intros e He. rewrite Rabs_mult, (Rabs_pos_eq (1 / v_length A)) by (left; apply Rdiv_lt_0_compat; lra). apply Rmult_le_reg_r with (v_length A); [lra|]. replace (Rabs e * (1 / v_length A) * v_length A) with (Rabs e) by (field; lra). lra. }
      repeat split; apply V; assumption. }
    destruct C as (V0 & V1 & V2). fold (v_normalize A). repeat split; apply part_small; try assumption; lra.
Qed.

(** ** Angles *)
Lemma pi_bounds : 3141592653589 / 1000000000000 <= PI <= 3141592653590 / 1000000000000.
Proof.
  pose proof (PI_2_3_7_ineq 6) as [L U]. cbn [Nat.mul Nat.add sum_f_R0] in L, U. unfold tg_alt, PI_2_3_7_tg, Ratan_seq in L, U. cbn [pow Nat.mul Nat.add INR] in L, U. split; lra.
Qed.
Lemma degree_near : Rabs (rnd (fpi / 180) - PI / 180) <= 6 / 1000000000000000.
Proof.
  pose proof pi_bounds as [A B]. assert (F : Rabs (fpi / 180) <= 1) by (apply Rabs_le; unfold fpi; lra). pose proof (rnd1 _ F) as R. apply Rabs_le_iff in R. apply Rabs_le. unfold fpi, u in *. lra.
Qed.
Lemma half_angle t : Rabs t <= 360 -> Rabs (fmul (/ 2) (fmul t (rnd (fpi / 180))) - / 2 * (t * (PI / 180))) <= 12 / 10000000000000.
Proof.
  intros T. pose proof degree_near as D. pose proof pi_bounds as PB. set (g := rnd (fpi / 180)) in *. clearbody g.
  assert (P : Rabs (t * (g - PI / 180)) <= 360 * (6 / 1000000000000000)) by (rewrite Rabs_mult; apply Rmult_le_compat; try apply Rabs_pos; assumption).
  assert (Q : Rabs (t * (PI / 180)) <= 360 * (PI / 180)) by (rewrite Rabs_mult, (Rabs_pos_eq (PI / 180)) by lra; apply Rmult_le_compat_r; lra).
  replace (t * (g - PI / 180)) with (t * g - t * (PI / 180)) in P by ring. set (a := t * (PI / 180)) in *. clearbody a. apply Rabs_le_iff in P, Q. unfold fmul.
  pose proof (rnd7 (t * g) ltac:(apply Rabs_le; lra)) as R1. apply Rabs_le_iff in R1. pose proof (rnd7 (/ 2 * rnd (t * g)) ltac:(apply Rabs_le; unfold E in *; lra)) as R2. apply Rabs_le_iff in R2. apply Rabs_le. unfold E in *. lra.
Qed.
Definition step : R := / 50000000000.
Lemma orientation_near L b c theta phi : good_library L -> Rabs theta <= 360 -> Rabs phi <= 360 -> exists b', fset_orientation L b theta phi = Ok b' /\ qdist (t_rotation b') (t_rotation (set_orientation c theta phi)) <= step /\ t_theta b' = theta /\ t_phi b' = phi.
Proof.
  intros (GS & GC & _) T P. unfold fset_orientation. rewrite fdiv_ok by lra. cbn [bind]. eexists. split; [reflexivity|]. cbn [t_rotation t_theta t_phi]. split; [|split; reflexivity].
  unfold set_orientation. cbn [t_rotation]. pose proof (half_angle theta T) as HT. pose proof (half_angle phi P) as HP. assert (E0 : 0 < E) by (unfold E; lra).
  set (g := fmul (/ 2) (fmul theta (rnd (fpi / 180)))) in *. set (g' := fmul (/ 2) (fmul phi (rnd (fpi / 180)))) in *. set (h := / 2 * (theta * (PI / 180))) in *. set (h' := / 2 * (phi * (PI / 180))) in *. clearbody g g' h h'.
  set (k := 13 / 10000000000000).
  assert (N : forall a b, Rabs (a - b) <= 12 / 10000000000000 -> approx (k - E) (m_sin L a) (sin b) /\ approx k (m_cos L a) (cos b)).
  { intros a d H. pose proof (good_near _ _ (GS a) ltac:(apply Rabs_le, SIN_bound)) as S. pose proof (good_near _ _ (GC a) ltac:(apply Rabs_le, COS_bound)) as C.
    pose proof (Rle_trans _ _ _ (sin_apart a d) H) as S'. pose proof (Rle_trans _ _ _ (cos_apart a d) H) as C'. apply Rabs_le_iff in S, C, S', C'. unfold approx, k. split; apply Rabs_le; unfold E in *; lra. }
  destruct (N _ _ HT) as [S C]. destruct (N _ _ HP) as [S' C']. clear N HT HP. set (s := m_sin L g) in *. set (c0 := m_cos L g) in *. set (s' := m_sin L g') in *. set (c' := m_cos L g') in *. clearbody s c0 s' c'.
  pose proof (SIN_bound h) as B1. pose proof (COS_bound h) as B2. pose proof (SIN_bound h') as B3. pose proof (COS_bound h') as B4. pose proof (sc2 h) as Q. pose proof (sc2 h') as Q'.
  assert (Z : approx k 0 0) by (unfold approx; rewrite Rminus_0_r, Rabs_R0; unfold k; lra).
  assert (S1 : approx k (fmul 1 s) (1 * sin h)).
  { unfold approx, fmul in *. rewrite !Rmult_1_l. apply Rabs_le_iff in S. pose proof (rnd7 s ltac:(apply Rabs_le; unfold k, E in *; lra)) as R. apply Rabs_le_iff in R. apply Rabs_le. lra. }
  assert (S2 : approx k s' (sin h')) by (unfold approx in *; lra).
  set (p := V4 (fmul 1 s) 0 0 c0). set (q := V4 0 0 s' c'). set (p0 := V4 (1 * sin h) 0 0 (cos h)). set (q0 := V4 0 0 (sin h') (cos h')).
  assert (NP : near_q k p p0) by (unfold near_q, p, p0; cbn [x4 y4 z4 w4]; tauto). assert (NQ : near_q k q q0) by (unfold near_q, q, q0; cbn [x4 y4 z4 w4]; tauto).
  assert (U : q_length p0 = 1). { assert (U1 : q_dot p0 p0 = 1) by (unfold q_dot, p0; cbn [x4 y4 z4 w4]; lra). unfold q_length. rewrite U1. apply sqrt_1. }
  pose proof (qdist_near k p p0 ltac:(unfold k; lra) NP) as DP. pose proof (qdist_near k q q0 ltac:(unfold k; lra) NQ) as DQ.
  assert (LQ : q_dot q q <= 21 / 20). { pose proof (near_norm k q q0 NQ ltac:(unfold q_dot, q0; cbn [x4 y4 z4 w4]; lra) ltac:(unfold k; lra)) as NN. apply Rabs_le_iff in NN. assert (q_dot q0 q0 = 1) by (unfold q_dot, q0; cbn [x4 y4 z4 w4]; lra). unfold k in NN. lra. }
  assert (LP : q_dot p p <= 21 / 20). { pose proof (near_norm k p p0 NP) as NN. assert (q_dot p0 p0 = 1) by (unfold q_dot, p0; cbn [x4 y4 z4 w4]; lra). specialize (NN ltac:(lra) ltac:(unfold k; lra)). apply Rabs_le_iff in NN. unfold k in NN. lra. }
  destruct (fq_add_norm p q LP LQ) as [NA _]. pose proof (qdist_near (7 * E) _ _ ltac:(lra) NA) as DA. pose proof (qdist_add p q p0 q0) as DD. pose proof (qdist_triangle (fq_add p q) (q_add p q) (q_add p0 q0)) as TR.
  assert (LQ' : q_length q <= 11 / 10) by (apply q_length_le; lra). rewrite U in DD. assert (M : qdist p p0 * q_length q <= 2 * k * (11 / 10)) by (apply Rmult_le_compat; try apply q_length_pos; assumption).
  unfold step, k, E in *. lra.
Qed.

(** ** Histories *)
Lemma unit_close q : 9 / 10 <= q_length q -> qdist (q_mul q (/ q_length q)) q = Rabs (q_length q - 1).
Proof.
  intros H. unfold qdist. set (l := q_length q) in *. assert (X : q_sub (q_mul q (/ l)) q = q_mul q (/ l - 1)) by (unfold q_sub, q_mul; cbn [x4 y4 z4 w4]; f_equal; ring). rewrite X.
  assert (Y : q_dot (q_mul q (/ l - 1)) (q_mul q (/ l - 1)) = (l - 1) * (l - 1)). { transitivity (q_dot q q * ((/ l - 1) * (/ l - 1))); [unfold q_dot, q_mul; cbn [x4 y4 z4 w4]; ring|]. rewrite <- q_length_sq. fold l. field. lra. }
  unfold q_length. rewrite Y. apply sqrt_Rsqr_abs.
Qed.
Lemma length_one q e : Rabs (q_dot q q - 1) <= e -> e <= / 10 -> 9 / 10 <= q_length q /\ Rabs (q_length q - 1) <= 53 / 100 * e.
Proof.
  intros H S. pose proof (q_length_pos q) as P. pose proof (q_length_sq q) as Q. assert (L : 9 / 10 <= q_length q). { apply Rsqr_incr_0; try lra. unfold Rsqr. rewrite Q. apply Rabs_le_iff in H. lra. }
  split; [exact L|]. rewrite <- Q in H. replace (q_length q * q_length q - 1) with ((q_length q - 1) * (q_length q + 1)) in H by ring. rewrite Rabs_mult, (Rabs_pos_eq (q_length q + 1)) in H by lra.
  assert (Rabs (q_length q - 1) * (19 / 10) <= Rabs (q_length q - 1) * (q_length q + 1)) by (apply Rmult_le_compat_l; [apply Rabs_pos|lra]). pose proof (Rabs_pos (q_length q - 1)). lra.
Qed.
Definition follows (n : nat) (b c : trackball) : Prop :=
  sound b /\ ok c /\ t_theta b = t_theta c /\ t_phi b = t_phi c /\ qdist (t_rotation b) (t_rotation c) <= INR n * step.
Lemma exact_drag b x y dx dy : ok b -> t_rotation (drag_to b x y dx dy) = q_add (rotate_by x y dx dy) (t_rotation b) /\ t_theta (drag_to b x y dx dy) = t_theta b /\ t_phi (drag_to b x y dx dy) = t_phi b.
Proof.
  intros [H _]. unfold drag_to. destruct (renorm_count <? S (t_count b))%nat; cbn [t_rotation t_theta t_phi]; (split; [|split; reflexivity]); [|reflexivity].
  apply q_normalize_id. rewrite q_add_norm, rotate_by_unit, H. ring.
Qed.
Lemma inside_on_screen a : inside a -> on_screen a.
Proof. destruct a as [x y dx dy|v|v| |]; cbn [inside on_screen]; try tauto. intros (A & B & C & D & _). lra. Qed.
Lemma drag_follows L n b c x y dx dy : good_library L -> inside (Drag x y dx dy) -> follows n b c -> exists b', fdrag_to L b x y dx dy = Ok b' /\ follows (S n) b' (drag_to c x y dx dy).
Proof.
  intros GL IN (SB & OC & TH & PH & D). assert (E0 : 0 < E) by (unfold E; lra). destruct (fact_sound L b (Drag x y dx dy) GL (inside_on_screen _ IN) SB) as (b' & Hb & SB'). cbn [fact] in Hb. exists b'. split; [exact Hb|].
  destruct (exact_drag c x y dx dy OC) as (EQ & ET & EP). unfold follows. rewrite EQ, ET, EP. split; [exact SB'|]. split; [now apply drag_ok|].
  pose proof (sound_small b SB) as SM. destruct (frotate_near L x y dx dy GL IN) as (q & Hq & NQ). destruct (frotate_norm L x y dx dy GL (inside_on_screen _ IN)) as (q' & Hq' & N1). rewrite Hq in Hq'. injection Hq' as <-.
  unfold fdrag_to in Hb. rewrite Hq in Hb. cbn [bind] in Hb. set (q0 := rotate_by x y dx dy) in *. assert (U0 : q_length q0 = 1) by (unfold q_length, q0; rewrite rotate_by_unit; apply sqrt_1). clearbody q0.
  pose proof (qdist_near (9000 * E) q q0 ltac:(lra) NQ) as DQ. set (r0 := t_rotation b) in *. set (r := fq_add q r0) in *.
  destruct (length_one r0 _ SM ltac:(unfold E; lra)) as [_ L0]. apply Rabs_le_iff in L0. assert (SM' := SM). apply Rabs_le_iff in SM'. assert (N1' := N1). apply Rabs_le_iff in N1'.
  destruct (fq_add_norm q r0 ltac:(unfold E in *; lra) ltac:(unfold E in *; lra)) as [NA NR]. fold r in NA, NR. pose proof (qdist_near (7 * E) _ _ ltac:(lra) NA) as DA.
  pose proof (qdist_add q r0 q0 (t_rotation c)) as DD. rewrite U0 in DD. pose proof (qdist_triangle r (q_add q r0) (q_add q0 (t_rotation c))) as TR.
  assert (M : qdist q q0 * q_length r0 <= 2 * (9000 * E) * (101 / 100)) by (apply Rmult_le_compat; try apply q_length_pos; [exact DQ|unfold E in *; lra]).
  assert (DR : qdist r (q_add q0 (t_rotation c)) <= INR n * step + 18194 * E) by lra.
  rewrite S_INR. assert (ST : 22500 * E <= step) by (unfold step, E; lra). rewrite Rmult_plus_distr_r, Rmult_1_l.
  destruct (renorm_count <? S (t_count b))%nat.
  - assert (NN : Rabs (q_dot r r - 1) <= 6000 * E).
    { set (A := q_dot q q) in *. set (B := q_dot r0 r0) in *. clearbody A B. assert (X : Rabs ((A - 1) * B) <= 24 * E * (101 / 100)) by (rewrite Rabs_mult; apply Rmult_le_compat; try apply Rabs_pos; apply Rabs_le; unfold E in *; lra).
      apply Rabs_le_iff in X, NR. apply Rabs_le. lra. }
    assert (NN' := NN). apply Rabs_le_iff in NN'. pose proof tau_small as TS. destruct (q_normalize_close r ltac:(unfold E in *; lra) ltac:(unfold E in *; lra)) as (m & Hm & _ & NM). rewrite Hm in Hb. cbn [bind] in Hb. injection Hb as <-. cbn [t_rotation t_theta t_phi].
    split; [exact TH|]. split; [exact PH|]. destruct (length_one r _ NN ltac:(unfold E; lra)) as [LR L1]. pose proof (qdist_near (4 * E) _ _ ltac:(lra) NM) as DM. pose proof (unit_close r LR) as UC.
    pose proof (qdist_triangle m (q_mul r (/ q_length r)) (q_add q0 (t_rotation c))) as T1. pose proof (qdist_triangle (q_mul r (/ q_length r)) r (q_add q0 (t_rotation c))) as T2. lra.
  - injection Hb as <-. cbn [t_rotation t_theta t_phi]. split; [exact TH|]. split; [exact PH|]. lra.
Qed.
Lemma fmod_360 v : Rabs (fmod360 v) <= 360.
Proof. destruct (fmod360_range v) as (A & _). apply Rabs_le. lra. Qed.
Lemma set_follows L n b c theta phi : good_library L -> Rabs theta <= 360 -> Rabs phi <= 360 -> follows n b c -> exists b', fset_orientation L b theta phi = Ok b' /\ follows (S n) b' (set_orientation c theta phi).
Proof.
  intros GL T P ((C & _) & OC & _). destruct (orientation_near L b c theta phi GL T P) as (b' & Hb & D & TH & PH). exists b'. split; [exact Hb|]. destruct (orientation_norm L b theta phi GL) as (b1 & Hb1 & N & M & CN). rewrite Hb in Hb1. injection Hb1 as <-.
  split; [|split; [apply set_orientation_unit|split; [exact TH|split; [exact PH|]]]].
  - unfold sound. rewrite CN. split; [exact C|]. split; [|exact M]. eapply Rle_trans; [exact N|]. apply Rmult_le_compat_r; [unfold E; lra|]. pose proof (pos_INR (t_count b)). lra.
  - rewrite S_INR. pose proof (pos_INR n). assert (0 <= INR n * step) by (apply Rmult_le_pos; [assumption|unfold step; lra]). lra.
Qed.
Lemma fact_follows L n b c a : good_library L -> inside a -> follows n b c -> exists b', fact L b a = Ok b' /\ follows (S n) b' (act c a).
Proof.
  intros GL IN F. destruct a as [x y dx dy|v|v| |]; cbn [fact act inside] in *; try contradiction.
  - now apply drag_follows.
  - assert (PH : t_phi b = t_phi c) by apply F. rewrite PH. apply set_follows; [exact GL|apply fmod_360|apply fmod_360|exact F].
  - assert (TH : t_theta b = t_theta c) by apply F. rewrite TH. apply set_follows; [exact GL|apply fmod_360|apply fmod_360|exact F].
Qed.
Lemma facts_follow L l : good_library L -> Forall inside l -> forall n b c, follows n b c -> exists b', facts L b l = Ok b' /\ follows (length l + n) b' (acts c l).
Proof.
  intros GL. induction 1 as [|a l A _ IH]; intros n b c F; [exists b; split; [reflexivity|exact F]|]. cbn [facts]. destruct (fact_follows L n b c a GL A F) as (b' & -> & F'). cbn [bind]. destruct (IH (S n) b' (act c a) F') as (b2 & H2 & F2). exists b2. split; [exact H2|].
  replace (length (a :: l) + n)%nat with (length l + S n)%nat by (cbn [length]; lia). exact F2.
Qed.
Lemma rotmatrix_apart p q k : q_dot p p = 1 -> q_dot q q = 1 -> near_q k p q -> near (8 * k) (q_rotmatrix p) (q_rotmatrix q).
Proof.
  intros P Q (H0 & H1 & H2 & H3). destruct (comps_le p 1 ltac:(lra) ltac:(lra)) as (P0 & P1 & P2 & P3). destruct (comps_le q 1 ltac:(lra) ltac:(lra)) as (Q0 & Q1 & Q2 & Q3). clear P Q.
  destruct p as [a b c d], q as [a' b' c' d']. unfold approx in *. cbn [x4 y4 z4 w4] in *.
  assert (K0 : 0 <= k) by (eapply Rle_trans; [apply Rabs_pos|exact H0]).
  assert (M : forall e f e' f', Rabs e <= 1 -> Rabs f' <= 1 -> Rabs (e - e') <= k -> Rabs (f - f') <= k -> Rabs (e * f - e' * f') <= 2 * k).
  { intros e f e' f' He Hf He' Hf'. replace (e * f - e' * f') with (e * (f - f') + f' * (e - e')) by ring.
    assert (X : Rabs (e * (f - f')) <= 1 * k) by (rewrite Rabs_mult; apply Rmult_le_compat; try apply Rabs_pos; assumption). assert (Y : Rabs (f' * (e - e')) <= 1 * k) by (rewrite Rabs_mult; apply Rmult_le_compat; try apply Rabs_pos; assumption).
    eapply Rle_trans; [apply sum_le; [exact X|exact Y]|]. lra. }
  pose proof (M a a a' a' P0 Q0 H0 H0) as Maa. pose proof (M b b b' b' P1 Q1 H1 H1) as Mbb. pose proof (M c c c' c' P2 Q2 H2 H2) as Mcc. pose proof (M a b a' b' P0 Q1 H0 H1) as Mab. pose proof (M c a c' a' P2 Q0 H2 H0) as Mca. pose proof (M b c b' c' P1 Q2 H1 H2) as Mbc.
  pose proof (M a d a' d' P0 Q3 H0 H3) as Mad. pose proof (M b d b' d' P1 Q3 H1 H3) as Mbd. pose proof (M c d c' d' P2 Q3 H2 H3) as Mcd. clear M. apply Rabs_le_iff in Maa, Mbb, Mcc, Mab, Mca, Mbc, Mad, Mbd, Mcd.
  unfold near, near4, q_rotmatrix. cbn [row0 row1 row2 row3 x4 y4 z4 w4]. repeat split; apply Rabs_le; lra.
Qed.
Lemma follows_matrix n b c : follows n b c -> near (/ 10 ^ 7 + INR n * (2 / 10 ^ 10)) (t_model b) (t_model c).
Proof.
  intros (SB & (U & MC) & _ & _ & D). pose proof (sound_small b SB) as SM. destruct SB as (_ & _ & MB). destruct (length_one _ _ SM ltac:(unfold E; lra)) as [L1 L2]. pose proof (unit_close _ L1) as UC.
  set (r := t_rotation b) in *. set (w := q_mul r (/ q_length r)) in *. pose proof (matrix_near r (5880 * E) ltac:(unfold E; lra) SM) as H. change (unit_q r) with w in H. rewrite <- MB in H.
  assert (P : 0 < q_dot r r) by (apply Rabs_le_iff in SM; unfold E in SM; lra). pose proof (unit_q_unit r P) as UW. change (unit_q r) with w in UW.
  pose proof (qdist_triangle w r (t_rotation c)) as TR. pose proof (rotmatrix_apart w (t_rotation c) _ UW U (near_qdist _ _)) as H'. rewrite <- MC in H'.
  set (e1 := 10 * (5880 * E) + 10 * E + 9 / 100000000) in *. set (e2 := 8 * qdist w (t_rotation c)) in *.
  assert (S : e1 + e2 <= / 10 ^ 7 + INR n * (2 / 10 ^ 10)). { unfold e1, e2. pose proof (pos_INR n). cbn [pow]. unfold step, E in *. lra. }
  clearbody e1 e2. destruct H as (A0 & A1 & A2 & A3), H' as (B0 & B1 & B2 & B3).
  assert (G : forall u v t, near4 e1 u v -> near4 e2 v t -> near4 (/ 10 ^ 7 + INR n * (2 / 10 ^ 10)) u t).
  { intros u0 v t (G0 & G1 & G2 & G3) (I0 & I1 & I2 & I3). apply Rabs_le_iff in G0, G1, G2, G3, I0, I1, I2, I3. repeat split; apply Rabs_le; lra. }
  split; [|split; [|split]]; eapply G; eassumption.
Qed.
Lemma follows_exact L theta phi l : good_library L -> Rabs theta <= 360 -> Rabs phi <= 360 -> Forall inside l -> exists b b', fnew L theta phi = Ok b /\ facts L b l = Ok b' /\
  near (/ 10 ^ 7 + INR (length l + 1) * (2 / 10 ^ 10)) (t_model b') (t_model (acts (new_trackball theta phi) l)).
Proof.
  intros GL T P IN. set (z := V4 0 0 0 0). set (b0 := mkBall (V4 0 0 0 1) 0 (Mat z z z z) 0 0).
  destruct (orientation_near L b0 b0 theta phi GL T P) as (b & Hb & D & TH & PH). destruct (fnew_sound L theta phi GL) as (b1 & Hb1 & SB). assert (Hb2 : fnew L theta phi = Ok b) by exact Hb. rewrite Hb2 in Hb1. injection Hb1 as <-.
  assert (F : follows 1 b (new_trackball theta phi)). { split; [exact SB|]. split; [apply new_ok|]. split; [exact TH|]. split; [exact PH|]. cbn [INR]. rewrite Rmult_1_l. exact D. }
  destruct (facts_follow L l GL IN 1 b _ F) as (b' & Hb' & F'). exists b, b'. split; [exact Hb2|]. split; [exact Hb'|]. now apply follows_matrix.
Qed.
(** Drags of at most a tenth of the view across go. *)
Lemma short_drag x y dx dy : Rabs x <= 1 -> Rabs y <= 1 -> Rabs (x + dx) <= 1 -> Rabs (y + dy) <= 1 -> Rabs dx + Rabs dy <= / 5 -> inside (Drag x y dx dy).
Proof.
  intros hx hy hX hY S. cbn [inside]. repeat (split; [assumption|]). unfold drag_length. pose proof (heights_apart x y (x + dx) (y + dy) hx hy hX hY) as H.
  replace (x + dx - x) with dx in H by ring. replace (y + dy - y) with dy in H by ring. set (f := project ball_size x y) in *. set (F := project ball_size (x + dx) (y + dy)) in *. clearbody f F.
  destruct ball_numbers as (R1 & _). apply Rmult_le_reg_r with (2 * ball_size); [lra|]. unfold Rdiv at 1. rewrite Rmult_assoc, Rinv_l by lra. rewrite Rmult_1_r.
  assert (L : norm (sub3 (V3 x y f) (V3 (x + dx) (y + dy) F)) <= Rabs dx + Rabs dy + Rabs (F - f)).
  { unfold norm. set (a := Rabs dx). set (b := Rabs dy). set (c := Rabs (F - f)). assert (a0 : 0 <= a) by apply Rabs_pos. assert (b0 : 0 <= b) by apply Rabs_pos. assert (c0 : 0 <= c) by apply Rabs_pos.
    rewrite <- (sqrt_square (a + b + c)) by lra. apply sqrt_le_1_alt. unfold dot, sub3. cbn [x3 y3 z3].
    assert (A : (x - (x + dx)) * (x - (x + dx)) = a * a) by (unfold a; rewrite <- Rabs_mult, Rabs_pos_eq by apply sq_nonneg; ring). assert (B0 : (y - (y + dy)) * (y - (y + dy)) = b * b) by (unfold b; rewrite <- Rabs_mult, Rabs_pos_eq by apply sq_nonneg; ring). assert (C : (f - F) * (f - F) = c * c) by (unfold c; rewrite <- Rabs_mult, Rabs_pos_eq by apply sq_nonneg; ring).
    rewrite A, B0, C. pose proof (Rmult_le_pos _ _ a0 b0). pose proof (Rmult_le_pos _ _ a0 c0). pose proof (Rmult_le_pos _ _ b0 c0). lra. }
  unfold E in H. lra.
Qed.
