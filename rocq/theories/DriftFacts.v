(** Proofs about the trackball in floating point. *)
From Coq Require Import Reals ZArith Lra Lia Psatz.
From Flocq Require Import Core Relative.
From Verif Require Import Base Glm GlmSpec GlmFacts Trackball TrackballSpec TrackballFacts Drift DriftSpec DriftRound.
Local Open Scope R_scope.

(** ** Places on the ball *)
Lemma rnd1 x : Rabs x <= 1 -> Rabs (rnd x - x) <= 101 / 100 * u.
Proof. intros H. pose proof (rnd_abs 1 x H). pose proof eta_small. unfold u in *. lra. Qed.
Lemma ball_edge : ball_size / sqrt_2 = 3602879701896397 / 6369051672525773.
Proof. unfold ball_size, sqrt_2. field. Qed.
Lemma ball_numbers : let r := ball_size in let s := ball_size * half_sqrt2 in let t := ball_size / sqrt_2 in
  79 / 100 <= r <= 81 / 100 /\ 63 / 100 <= r * r <= 65 / 100 /\ 56 / 100 <= s <= 57 / 100 /\ 56 / 100 <= t <= 57 / 100 /\
  Rabs (s * s - r * r / 2) <= u /\ Rabs (t * t - r * r / 2) <= u.
Proof. cbv zeta. rewrite ball_edge. unfold ball_size, half_sqrt2, u. repeat split; try lra; apply Rabs_le; lra. Qed.
(** The two sheets agree where they meet. *)
Lemma sheets_meet r t dd d : 63 / 100 <= r * r <= 65 / 100 -> Rabs (t * t - r * r / 2) <= u -> 0 < d -> d * d = dd -> Rabs (dd - r * r / 2) <= 12 * u ->
  Rabs (t * t / d - sqrt (r * r - dd)) <= 4 * E.
Proof.
  intros R T D DD N. apply Rabs_le_iff in T, N. set (rr := r * r) in *. clearbody rr. set (tt := t * t) in *. clearbody tt.
  set (W := rr - dd). assert (W0 : 3 / 10 <= W) by (unfold W, u in *; lra). pose proof (sqrt_sqrt W ltac:(lra)) as SS. pose proof (sqrt_pos W) as SP.
  assert (S5 : 1 / 2 <= sqrt W). { apply Rsqr_incr_0; try lra. unfold Rsqr. lra. }
  set (F := tt / d). assert (FD : F * d = tt) by (unfold F; field; lra). assert (F0 : 0 < F) by (apply Rdiv_lt_0_compat; [unfold u in *; lra|exact D]).
  assert (FF : F * F * dd = tt * tt) by (rewrite <- DD, <- FD; ring).
  assert (G : 0 < F * F) by nra. set (f := F * F) in *.
  assert (L1 : f * (rr / 2 - 12 * u) <= tt * tt) by (rewrite <- FF; apply Rmult_le_compat_l; lra).
  assert (L2 : tt * tt <= f * (rr / 2 + 12 * u)) by (rewrite <- FF; apply Rmult_le_compat_l; lra).
  assert (T1 : (rr / 2 - u) * (rr / 2 - u) <= tt * tt) by (apply Rmult_le_compat; unfold u in *; lra).
  assert (T2 : tt * tt <= (rr / 2 + u) * (rr / 2 + u)) by (apply Rmult_le_compat; unfold u in *; lra).
  (* f is near rr/2 *)
  assert (U0 : 0 < u) by (unfold u; lra). assert (U1 : u <= / 1000000) by (unfold u; lra).
  assert (B1 : f <= rr / 2 + 17 * u).
  { apply Rmult_le_reg_r with (rr / 2 - 12 * u); [lra|]. clear - L1 T2 U0 U1 R. nra. }
  assert (B2 : rr / 2 - 17 * u <= f).
  { apply Rmult_le_reg_r with (rr / 2 + 12 * u); [lra|]. clear - L2 T1 U0 U1 R. nra. }
  assert (FW : Rabs (f - W) <= 29 * u) by (unfold W; apply Rabs_le; lra).
  assert (F5 : 1 / 2 <= F). { apply Rsqr_incr_0; try lra. unfold Rsqr. fold f. lra. }
  assert (Q : (F - sqrt W) * (F + sqrt W) = f - W) by (unfold f; rewrite <- SS at 3; ring).
  apply Rmult_le_reg_r with (F + sqrt W); [lra|]. rewrite <- (Rabs_pos_eq (F + sqrt W)) at 1 by lra. rewrite <- Rabs_mult, Q.
  pose proof u_E. assert (4 * E * 1 <= 4 * E * (F + sqrt W)) by (apply Rmult_le_compat_l; unfold E; lra). lra.
Qed.
Lemma sq_near a b k m : Rabs (a - b) <= k -> Rabs b <= m -> k <= 1 -> Rabs (a * a - b * b) <= k * (2 * m + 1).
Proof.
  intros H B K. replace (a * a - b * b) with ((a - b) * (2 * b + (a - b))) by ring. rewrite Rabs_mult.
  apply Rmult_le_compat; try apply Rabs_pos; [exact H|]. eapply Rle_trans; [apply Rabs_triang|]. rewrite Rabs_mult, (Rabs_pos_eq 2) by lra. lra.
Qed.
Lemma project_near x y : Rabs x <= 101 -> Rabs y <= 101 -> exists z, fproject ball_size x y = Ok z /\ Rabs (z - project ball_size x y) <= 8 * E /\ 0 <= z <= 9 / 10.
Proof.
  intros X Y. destruct ball_numbers as (R1 & RR & SB & TB & SS & TT). pose proof eta_small as ES. pose proof eta_pos as EP.
  unfold project, fproject, fadd, fsub, fmul.
  set (r := ball_size) in *. set (s := r * half_sqrt2) in *. set (t := r / sqrt_2) in *. assert (TE : r / sqrt_2 = t) by reflexivity. clearbody s t. clearbody r.
  set (dd := x * x + y * y). assert (DD0 : 0 <= dd) by apply sum_sq_nonneg. assert (DD1 : dd <= 20402).
  { unfold dd. rewrite <- (Rabs_pos_eq (x * x)), <- (Rabs_pos_eq (y * y)) by apply sq_nonneg. pose proof (mul_le x x 101 X X). pose proof (mul_le y y 101 Y Y). lra. }
  set (d := sqrt dd). pose proof (sqrt_pos dd) as D0. pose proof (sqrt_sqrt dd DD0) as DD. fold d in D0, DD.
  set (m := rnd (rnd (x * x) + rnd (y * y))).
  assert (M : Rabs (m - dd) <= 3 * u * dd + 2 * u).
  { pose proof (sum_up _ _ _ _ _ _ (2 * dd + 1) (sq_nonneg x) (sq_nonneg y) (sq_rnd x) (sq_rnd y) ltac:(fold dd; unfold u, dd in *; lra)) as P. fold m dd in P.
    replace (u * (x * x) + eta + (u * (y * y) + eta)) with (u * dd + 2 * eta) in P by (unfold dd; ring). unfold u in *. lra. }
  assert (M0 : 0 <= m) by (apply rnd_nonneg; pose proof (rnd_nonneg _ (sq_nonneg x)); pose proof (rnd_nonneg _ (sq_nonneg y)); lra).
  rewrite fsqrt_ok by exact M0. cbn [bind]. clearbody m.
  set (e := rnd (sqrt m)). pose proof (sqrt_pos m) as Q0. pose proof (sqrt_sqrt m M0) as QQ.
  assert (e0 : 0 <= e) by (apply rnd_nonneg; exact Q0).
  assert (EQ : Rabs (e - sqrt m) <= u * sqrt m + eta).
  { pose proof (rnd_err (sqrt m)) as P. rewrite (Rabs_pos_eq (sqrt m)) in P by exact Q0. exact P. }
  clearbody e. set (q := sqrt m) in *. clearbody q. apply Rabs_le_iff in M, EQ.
  assert (M2 : m <= 20403) by (unfold u in *; lra). assert (Q1 : q <= 143) by (apply Rsqr_incr_0; try lra; unfold Rsqr; lra).
  assert (EM : Rabs (e * e - m) <= 3 * u * m + u).
  { replace (e * e - m) with ((e - q) * (e + q)) by (rewrite <- QQ; ring). rewrite Rabs_mult. rewrite (Rabs_pos_eq (e + q)) by lra.
    apply Rle_trans with ((u * q + eta) * (2 * q + (u * q + eta))).
    - apply Rmult_le_compat; [apply Rabs_pos|lra|apply Rabs_le; lra|lra].
    - rewrite <- QQ. assert (U0 : 0 < u) by (unfold u; lra). assert (U1 : u <= / 1000000) by (unfold u; lra). assert (EU : 1000000 * eta <= u) by (unfold u; lra).
      assert (K1 : u * (u * (q * q)) <= u * (/ 1000000 * (q * q))) by (apply Rmult_le_compat_l; [lra|]; apply Rmult_le_compat_r; [nra|lra]).
      assert (K2 : eta * q <= eta * 143) by (apply Rmult_le_compat_l; lra). assert (K3 : u * (eta * q) <= u * (eta * 143)) by (apply Rmult_le_compat_l; lra).
      assert (K4 : eta * eta <= eta * 1) by (apply Rmult_le_compat_l; lra). assert (K5 : u * eta <= 1 * eta) by (apply Rmult_le_compat_r; lra). assert (K6 : 0 <= u * (q * q)) by (apply Rmult_le_pos; [lra|apply sq_nonneg]). clear - K1 K2 K3 K4 K5 K6 EU U0 EP. lra. }
  apply Rabs_le_iff in EM.
  assert (ED : - (7 * u * dd + 4 * u) <= e * e - dd <= 7 * u * dd + 4 * u) by (unfold u in *; lra). clear EM M EQ QQ Q1 Q0 M2 M0. clear q m.
  set (sc := rnd s). assert (SC : Rabs (sc - s) <= 101 / 100 * u) by (apply rnd1; apply Rabs_le; lra). apply Rabs_le_iff in SC. clearbody sc.
  assert (U0 : 0 < u) by (unfold u; lra). assert (U1 : u <= / 1000000) by (unfold u; lra).
  assert (SS' := Rabs_le_iff _ _ SS). assert (TT' := Rabs_le_iff _ _ TT).
  destruct (Rlt_dec e sc) as [B|B].
  - (* the sphere *)
    assert (EE : e * e <= r * r / 2 + 4 * u).
    { apply Rle_trans with (sc * sc); [apply Rmult_le_compat; lra|]. pose proof (sq_near sc s (101 / 100 * u) (57 / 100) ltac:(apply Rabs_le; lra) ltac:(apply Rabs_le; lra) ltac:(lra)) as SQ. apply Rabs_le_iff in SQ. lra. }
    assert (DDs : dd <= r * r / 2 + 11 * u) by (unfold u in *; lra).
    assert (DE : Rabs (e * e - dd) <= 7 * u). { apply Rabs_le. unfold u in *. lra. }
    apply Rabs_le_iff in DE.
    pose proof (rnd1 (r * r) ltac:(apply Rabs_le; lra)) as A1. pose proof (rnd1 (e * e) ltac:(apply Rabs_le; pose proof (sq_nonneg e); lra)) as A2. apply Rabs_le_iff in A1, A2.
    pose proof (rnd1 (rnd (r * r) - rnd (e * e)) ltac:(apply Rabs_le; pose proof (sq_nonneg e); lra)) as A3. apply Rabs_le_iff in A3.
    set (Wc := rnd (rnd (r * r) - rnd (e * e))) in *. set (W := r * r - dd).
    assert (WW : Rabs (Wc - W) <= 11 * u) by (unfold W; apply Rabs_le; lra). apply Rabs_le_iff in WW.
    assert (W0 : 3 / 10 <= W <= 65 / 100) by (unfold W; lra). rewrite fsqrt_ok by lra. eexists. split; [reflexivity|].
    clearbody Wc. pose proof (sqrt_sqrt W ltac:(lra)) as H1. pose proof (sqrt_sqrt Wc ltac:(lra)) as H2. pose proof (sqrt_pos W). pose proof (sqrt_pos Wc).
    assert (V1 : 1 / 2 <= sqrt W) by (apply Rsqr_incr_0; try lra; unfold Rsqr; lra). assert (V2 : 1 / 2 <= sqrt Wc) by (apply Rsqr_incr_0; try lra; unfold Rsqr; lra).
    assert (V3 : sqrt Wc <= 85 / 100) by (apply Rsqr_incr_0; try lra; unfold Rsqr; lra).
    pose proof (rnd1 (sqrt Wc) ltac:(apply Rabs_le; lra)) as A4.
    assert (V4 : Rabs (sqrt Wc - sqrt W) <= 11 * u).
    { apply Rmult_le_reg_r with (sqrt Wc + sqrt W); [lra|]. rewrite <- (Rabs_pos_eq (sqrt Wc + sqrt W)) at 1 by lra. rewrite <- Rabs_mult.
      replace ((sqrt Wc - sqrt W) * (sqrt Wc + sqrt W)) with (Wc - W) by (rewrite <- H1 at 1; rewrite <- H2 at 1; ring).
      apply Rle_trans with (11 * u * 1); [apply Rabs_le; lra|]. apply Rmult_le_compat_l; lra. }
    apply Rabs_le_iff in A4, V4. pose proof u_E as UE. set (z := rnd (sqrt Wc)) in *. clearbody z.
    split; [|lra]. destruct (Rlt_dec d s) as [C|C].
    + rewrite DD. fold W. apply Rabs_le. lra.
    + assert (d0 : 0 < d) by lra. assert (ds : s * s <= d * d) by (apply Rmult_le_compat; lra).
      pose proof (sheets_meet r t dd d RR TT d0 DD ltac:(apply Rabs_le; unfold u in *; lra)) as SM. cbv zeta. fold W in SM.
      apply Rabs_le_iff in SM. apply Rabs_le. lra.
  - (* the other sheet *)
    assert (e5 : 55 / 100 <= e) by lra.
    rewrite fdiv_ok by (unfold sqrt_2; lra). cbn [bind]. rewrite TE. rewrite fdiv_ok by lra. eexists. split; [reflexivity|].
    pose proof (rnd1 t ltac:(apply Rabs_le; lra)) as A1. apply Rabs_le_iff in A1. set (tc := rnd t) in *. clearbody tc.
    assert (A2 : Rabs (tc * tc - t * t) <= 3 * u). { pose proof (sq_near tc t (101 / 100 * u) (57 / 100) ltac:(apply Rabs_le; lra) ltac:(apply Rabs_le; lra) ltac:(lra)) as SQ. lra. } apply Rabs_le_iff in A2.
    pose proof (rnd1 (tc * tc) ltac:(apply Rabs_le; lra)) as A3. apply Rabs_le_iff in A3. set (tt := rnd (tc * tc)) in *. clearbody tt.
    assert (G : tt / e * e = tt) by (field; lra). assert (G0 : 0 < tt / e) by (apply Rdiv_lt_0_compat; lra). assert (G1 : tt / e <= 62 / 100) by (apply Rmult_le_reg_r with e; lra).
    pose proof (rnd1 (tt / e) ltac:(apply Rabs_le; lra)) as A4. apply Rabs_le_iff in A4. set (g := tt / e) in *. clearbody g. pose proof (rnd_nonneg g ltac:(lra)) as Z0. set (z := rnd g) in *. clearbody z.
    split; [|lra].
    assert (e2 : 55 / 100 * (55 / 100) <= e * e) by (apply Rmult_le_compat; lra). assert (d2 : 3 / 10 <= dd) by (unfold u in *; lra).
    assert (d5 : 54 / 100 <= d) by (apply Rsqr_incr_0; try lra; unfold Rsqr; lra).
    set (F := t * t / d). assert (FD : F * d = t * t) by (unfold F; field; lra). assert (F0 : 0 < F) by (apply Rdiv_lt_0_compat; lra).
    assert (F1 : F <= 62 / 100) by (apply Rmult_le_reg_r with d; [lra|]; lra).
    assert (DE : Rabs (e - d) <= 7 * u * d + 4 * u).
    { apply Rmult_le_reg_r with (e + d); [lra|]. rewrite <- (Rabs_pos_eq (e + d)) at 1 by lra. rewrite <- Rabs_mult. replace ((e - d) * (e + d)) with (e * e - dd) by (rewrite <- DD; ring).
      apply Rabs_le. assert (P1 : d * d <= d * (e + d)) by (apply Rmult_le_compat_l; lra). rewrite DD in P1. assert (P2 : u * (dd) <= u * (d * (e + d))) by (apply Rmult_le_compat_l; lra).
      assert (P3 : u * 1 <= u * (e + d)) by (apply Rmult_le_compat_l; lra). lra. }
    apply Rabs_le_iff in DE.
    assert (ZF : Rabs (g - F) <= 24 * u).
    { apply Rmult_le_reg_r with e; [lra|]. rewrite <- (Rabs_pos_eq e) at 1 by lra. rewrite <- Rabs_mult. replace ((g - F) * e) with ((tt - t * t) + F * (d - e)) by (rewrite <- FD, <- G; ring).
      assert (P1 : F * (e - d) <= F * (7 * u * d + 4 * u)) by (apply Rmult_le_compat_l; lra). assert (P2 : F * (d - e) <= F * (7 * u * d + 4 * u)) by (apply Rmult_le_compat_l; lra).
      replace (F * (7 * u * d + 4 * u)) with (7 * u * (F * d) + 4 * u * F) in P1, P2 by ring. rewrite FD in P1, P2.
      assert (P3 : u * (t * t) <= u * (33 / 100)) by (apply Rmult_le_compat_l; lra). assert (P4 : u * F <= u * (62 / 100)) by (apply Rmult_le_compat_l; lra).
      assert (P5 : u * (55 / 100) <= u * e) by (apply Rmult_le_compat_l; lra). apply Rabs_le. lra. }
    apply Rabs_le_iff in ZF. pose proof u_E as UE. destruct (Rlt_dec d s) as [C|C].
    + assert (dds : dd <= s * s) by (rewrite <- DD; apply Rmult_le_compat; lra). assert (ee : sc * sc <= e * e) by (apply Rmult_le_compat; lra).
      assert (ss : s * s - 3 * u <= sc * sc). { pose proof (sq_near sc s (101 / 100 * u) (57 / 100) ltac:(apply Rabs_le; lra) ltac:(apply Rabs_le; lra) ltac:(lra)) as SQ. apply Rabs_le_iff in SQ. lra. }
      assert (DN : Rabs (dd - r * r / 2) <= 12 * u). { apply Rabs_le. unfold u in *. lra. }
      pose proof (sheets_meet r t dd d RR TT ltac:(lra) DD DN) as SM. fold F in SM. rewrite DD. apply Rabs_le_iff in SM. apply Rabs_le. lra.
    + cbv zeta. fold F. apply Rabs_le. lra.
Qed.

(** ** Axes that are nearly nothing belong to drags that are nearly nothing *)
Lemma project_min x y : Rabs x <= 101 -> Rabs y <= 101 -> / 450 <= project ball_size x y <= 81 / 100.
Proof.
  intros X Y. destruct ball_numbers as (R1 & RR & SB & TB & SS & TT). rewrite project_height.
  assert (DD : x * x + y * y <= 143 * 143).
  { rewrite <- (Rabs_pos_eq (x * x)), <- (Rabs_pos_eq (y * y)) by apply sq_nonneg. pose proof (mul_le x x 101 X X). pose proof (mul_le y y 101 Y Y). lra. }
  pose proof (sqrt_pos (x * x + y * y)) as D0. pose proof (sqrt_sqrt _ (sum_sq_nonneg x y)) as DS.
  assert (D1 : sqrt (x * x + y * y) <= 143) by (apply Rsqr_incr_0; try lra; unfold Rsqr; lra).
  pose proof (height_decreasing ball_size _ _ ltac:(lra) (conj D0 D1)) as H1. pose proof (height_decreasing ball_size _ _ ltac:(lra) (conj (Rle_refl 0) D0)) as H2.
  split.
  - eapply Rle_trans; [|exact H1]. unfold height. destruct (Rlt_dec 143 (ball_size * half_sqrt2)); [lra|]. cbv zeta. apply Rabs_le_iff in TT. assert (RR' : 639 / 1000 <= ball_size * ball_size) by (unfold ball_size; lra). unfold u in TT. lra.
  - eapply Rle_trans; [exact H2|]. unfold height. destruct (Rlt_dec 0 (ball_size * half_sqrt2)); [|lra]. rewrite Rmult_0_l, Rminus_0_r, sqrt_square by lra. lra.
Qed.
Lemma cross_below x y X Y f F : x * x + y * y <= X * X + Y * Y -> 0 < F <= f ->
  F * F * ((X - x) * (X - x) + (Y - y) * (Y - y)) <= (X * f - x * F) * (X * f - x * F) + (Y * f - y * F) * (Y * f - y * F).
Proof.
  intros D [F0 FF]. set (dd := x * x + y * y) in *. set (DD := X * X + Y * Y) in *. set (P := x * X + y * Y).
  assert (C : P <= DD). { unfold P, DD, dd in *. pose proof (sq_nonneg (X - x)). pose proof (sq_nonneg (Y - y)). lra. }
  assert (D0 : 0 <= DD) by (unfold DD; apply sum_sq_nonneg).
  assert (K : 0 <= (f - F) * ((f + F) * DD - 2 * F * P)).
  { apply Rmult_le_pos; [lra|]. assert (A1 : F * P <= F * DD) by (apply Rmult_le_compat_l; lra). assert (A2 : F * DD <= f * DD) by (apply Rmult_le_compat_r; lra). lra. }
  replace ((X * f - x * F) * (X * f - x * F) + (Y * f - y * F) * (Y * f - y * F) - F * F * ((X - x) * (X - x) + (Y - y) * (Y - y)))
    with ((f - F) * ((f + F) * DD - 2 * F * P)) in * by (unfold DD, P; ring).
  assert (Q : (X * f - x * F) * (X * f - x * F) + (Y * f - y * F) * (Y * f - y * F) - F * F * ((X - x) * (X - x) + (Y - y) * (Y - y)) = (f - F) * ((f + F) * DD - 2 * F * P)) by (unfold DD, P; ring).
  lra.
Qed.
Lemma moved_below x y X Y : Rabs x <= 101 -> Rabs y <= 101 -> Rabs X <= 101 -> Rabs Y <= 101 ->
  let f := project ball_size x y in let F := project ball_size X Y in
  / 450 * / 450 * ((X - x) * (X - x) + (Y - y) * (Y - y)) <= (X * f - x * F) * (X * f - x * F) + (Y * f - y * F) * (Y * f - y * F).
Proof.
  intros Hx Hy HX HY f F. pose proof (project_min x y Hx Hy) as [f0 _]. pose proof (project_min X Y HX HY) as [F0 _]. fold f in f0. fold F in F0.
  pose proof ball_size_pos as BP.
  assert (S : 0 <= (X - x) * (X - x) + (Y - y) * (Y - y)) by apply sum_sq_nonneg.
  assert (M : forall g, / 450 <= g -> / 450 * / 450 * ((X - x) * (X - x) + (Y - y) * (Y - y)) <= g * g * ((X - x) * (X - x) + (Y - y) * (Y - y))).
  { intros g G. apply Rmult_le_compat_r; [exact S|]. apply Rmult_le_compat; lra. }
  destruct (Rle_dec (x * x + y * y) (X * X + Y * Y)) as [D|D].
  - assert (O : F <= f) by (unfold f, F; rewrite !project_height; apply height_decreasing; [exact BP|split; [apply sqrt_pos|now apply sqrt_le_1_alt]]).
    eapply Rle_trans; [apply (M F F0)|]. apply cross_below; lra.
  - assert (O : f <= F) by (unfold f, F; rewrite !project_height; apply height_decreasing; [exact BP|split; [apply sqrt_pos|apply sqrt_le_1_alt; lra]]).
    eapply Rle_trans; [apply (M f f0)|]. pose proof (cross_below X Y x y F f ltac:(lra) ltac:(lra)) as C. lra.
Qed.
(** Two places whose directions are nearly the same are near, and so are their heights. *)
Lemma nearly_still x y X Y k : Rabs x <= 101 -> Rabs y <= 101 -> Rabs X <= 101 -> Rabs Y <= 101 -> k <= / 1000000000 ->
  let f := project ball_size x y in let F := project ball_size X Y in
  Rabs (X * f - x * F) <= k -> Rabs (Y * f - y * F) <= k -> Rabs (X - x) <= 640 * k /\ Rabs (Y - y) <= 640 * k /\ Rabs (F - f) <= 7500 * k.
Proof.
  intros Hx Hy HX HY K f F A B. pose proof (moved_below x y X Y Hx Hy HX HY) as M. cbv zeta in M. fold f F in M.
  pose proof (project_min x y Hx Hy) as [f0 f1]. pose proof (project_min X Y HX HY) as [F0 F1]. fold f in f0, f1. fold F in F0, F1.
  assert (k0 : 0 <= k) by (eapply Rle_trans; [apply Rabs_pos|exact A]).
  pose proof (mul_le _ _ _ A A) as AA. pose proof (mul_le _ _ _ B B) as BB. rewrite Rabs_pos_eq in AA, BB by apply sq_nonneg.
  pose proof (sq_nonneg (X - x)) as SX. pose proof (sq_nonneg (Y - y)) as SY.
  assert (DX : Rabs (X - x) <= 640 * k). { apply Rsqr_incr_0; try lra; [|apply Rabs_pos]. rewrite <- Rsqr_abs. unfold Rsqr. lra. }
  assert (DY : Rabs (Y - y) <= 640 * k). { apply Rsqr_incr_0; try lra; [|apply Rabs_pos]. rewrite <- Rsqr_abs. unfold Rsqr. lra. }
  split; [exact DX|]. split; [exact DY|].
  assert (G : forall p P, Rabs (P * f - p * F) <= k -> Rabs (P - p) <= 640 * k -> Rabs (F - f) * Rabs p <= 520 * k).
  { intros p P HP HD. rewrite <- Rabs_mult. replace ((F - f) * p) with (f * (P - p) - (P * f - p * F)) by ring.
    assert (Rabs (f * (P - p)) <= 519 * k). { rewrite Rabs_mult, (Rabs_pos_eq f) by lra. apply Rle_trans with (81 / 100 * (640 * k)); [apply Rmult_le_compat; try lra; apply Rabs_pos|lra]. }
    eapply Rle_trans; [apply (diff_le _ _ (519 * k) k); assumption|]. lra. }
  pose proof (G x X A DX) as Gx. pose proof (G y Y B DY) as Gy. pose proof (Rabs_pos (F - f)) as W.
  assert (BIG : forall p, 7 / 100 <= Rabs p -> Rabs (F - f) * Rabs p <= 520 * k -> Rabs (F - f) <= 7500 * k).
  { intros p Hp H. assert (Rabs (F - f) * (7 / 100) <= Rabs (F - f) * Rabs p) by (apply Rmult_le_compat_l; lra). lra. }
  destruct (Rle_dec (7 / 100) (Rabs x)) as [Bx|Bx]; [exact (BIG x Bx Gx)|]. destruct (Rle_dec (7 / 100) (Rabs y)) as [By|By]; [exact (BIG y By Gy)|].
  (* both in the middle *)
  destruct ball_numbers as (R1 & RR & SB & TB & SS & TT).
  assert (LX : Rabs X <= 8 / 100) by (replace X with (X - x + x) by ring; eapply Rle_trans; [apply Rabs_triang|]; lra).
  assert (LY : Rabs Y <= 8 / 100) by (replace Y with (Y - y + y) by ring; eapply Rle_trans; [apply Rabs_triang|]; lra).
  assert (MID : forall p q, Rabs p <= 8 / 100 -> Rabs q <= 8 / 100 -> p * p + q * q + project ball_size p q * project ball_size p q = ball_size * ball_size /\ 7 / 10 <= project ball_size p q).
  { intros p q Hp Hq. pose proof (mul_le p p _ Hp Hp) as P2. pose proof (mul_le q q _ Hq Hq) as Q2. rewrite Rabs_pos_eq in P2, Q2 by apply sq_nonneg.
    destruct (on_the_ball p q) as (PP & ON & _). cbv zeta in *. assert (ONE := ON ltac:(apply Rle_lt_trans with (12 / 100); [apply Rsqr_incr_0; try lra; [|apply sqrt_pos]; unfold Rsqr; rewrite sqrt_sqrt by apply sum_sq_nonneg; lra|lra])).
    split; [exact ONE|]. apply Rsqr_incr_0; try lra. unfold Rsqr. lra. }
  destruct (MID x y ltac:(lra) ltac:(lra)) as [E1 m1]. destruct (MID X Y LX LY) as [E2 m2]. fold f in E1, m1. fold F in E2, m2.
  assert (T : forall p P, Rabs p <= 8 / 100 -> Rabs P <= 8 / 100 -> Rabs (P - p) <= 640 * k -> Rabs (p * p - P * P) <= 640 * k).
  { intros p P Hp HP H. replace (p * p - P * P) with (- ((P - p) * (P + p))) by ring. rewrite Rabs_Ropp, Rabs_mult. pose proof (sum_le _ _ _ _ HP Hp).
    apply Rle_trans with (640 * k * 1); [apply Rmult_le_compat; try apply Rabs_pos; lra|lra]. }
  pose proof (T x X ltac:(lra) LX DX) as Tx. pose proof (T y Y ltac:(lra) LY DY) as Ty.
  assert (Q : Rabs ((F - f) * (F + f)) <= 1280 * k). { replace ((F - f) * (F + f)) with ((x * x - X * X) + (y * y - Y * Y)) by lra. eapply Rle_trans; [apply Rabs_triang|]. lra. }
  rewrite Rabs_mult, (Rabs_pos_eq (F + f)) in Q by lra. assert (Rabs (F - f) * 1 <= Rabs (F - f) * (F + f)) by (apply Rmult_le_compat_l; lra). lra.
Qed.

(** ** The quaternion of a drag *)
Lemma rnd_up y m : 0 <= y <= m -> / 1000000000000000000000000000 <= m -> 0 <= rnd y <= 1001 / 1000 * m.
Proof.
  intros [Y0 Y1] M. split; [now apply rnd_nonneg|]. pose proof (rnd_abs m y ltac:(rewrite Rabs_pos_eq; lra)) as R. apply Rabs_le_iff in R. pose proof eta_small. unfold u in R. lra.
Qed.
Lemma rnd_up_abs y m : Rabs y <= m -> / 1000000000000000000000000000 <= m -> Rabs (rnd y) <= 1001 / 1000 * m.
Proof.
  intros Y M. pose proof (rnd_abs m y Y) as R. apply Rabs_le_iff in R, Y. pose proof eta_small. unfold u in R. apply Rabs_le. lra.
Qed.
Lemma rnd200 x : Rabs x <= 200 -> Rabs (rnd x - x) <= 26 * E.
Proof. intros H. pose proof (rnd_abs 200 x H). pose proof eta_small. unfold u, E in *. lra. Qed.
Lemma tau_E : tau2 <= E * E.
Proof. replace (E * E) with (bpow radix2 (-100)) by (rewrite bpow_neg100; unfold E; lra). apply bpow_le. lia. Qed.
Lemma small_axis x y X Y z Z : Rabs x <= 101 -> Rabs y <= 101 -> Rabs X <= 101 -> Rabs Y <= 101 ->
  Rabs (z - project ball_size x y) <= 8 * E -> Rabs (Z - project ball_size X Y) <= 8 * E -> 0 <= z <= 9 / 10 -> 0 <= Z <= 9 / 10 ->
  let a := fv_cross (V3 X Y Z) (V3 x y z) in v_dot a a < tau2 ->
  Rabs (x - X) <= 12800000 * E /\ Rabs (y - Y) <= 12800000 * E /\ Rabs (z - Z) <= 12800000 * E.
Proof.
  intros Hx Hy HX HY Hz HZ z0 Z0 a T. set (f := project ball_size x y) in *. set (F := project ball_size X Y) in *.
  pose proof tau_E as TE. unfold a, v_dot, fv_cross, fsub, fmul in T. cbn [x3 y3 z3] in T. clear a.
  set (ax := rnd (rnd (Y * z) - rnd (Z * y))) in *. set (ay := rnd (rnd (Z * x) - rnd (X * z))) in *. set (az := rnd (rnd (X * y) - rnd (Y * x))) in *.
  pose proof (sq_nonneg ax) as S1. pose proof (sq_nonneg ay) as S2. pose proof (sq_nonneg az) as S3.
  assert (E0 : 0 < E) by (unfold E; lra).
  assert (AX : Rabs ax <= E) by (apply Rsqr_incr_0; try lra; [|apply Rabs_pos]; rewrite <- Rsqr_abs; unfold Rsqr; lra).
  assert (AY : Rabs ay <= E) by (apply Rsqr_incr_0; try lra; [|apply Rabs_pos]; rewrite <- Rsqr_abs; unfold Rsqr; lra).
  assert (P : forall p q, Rabs p <= 101 -> 0 <= q <= 9 / 10 -> Rabs (p * q) <= 91 /\ Rabs (rnd (p * q) - p * q) <= 26 * E).
  { intros p q Hp Hq. assert (B : Rabs (p * q) <= 91). { rewrite Rabs_mult, (Rabs_pos_eq q) by lra. apply Rle_trans with (101 * (9 / 10)); [apply Rmult_le_compat; try lra; apply Rabs_pos|lra]. }
    split; [exact B|]. apply rnd200. lra. }
  assert (D : forall p P' q Q, Rabs p <= 101 -> Rabs P' <= 101 -> 0 <= q <= 9 / 10 -> 0 <= Q <= 9 / 10 -> Rabs (rnd (rnd (P' * q) - rnd (p * Q))) <= E -> Rabs (P' * q - p * Q) <= 79 * E).
  { intros p P' q Q Hp HP' Hq HQ H. destruct (P P' q HP' Hq) as [B1 R1]. destruct (P p Q Hp HQ) as [B2 R2]. apply Rabs_le_iff in B1, B2, R1, R2, H.
    pose proof (rnd200 (rnd (P' * q) - rnd (p * Q)) ltac:(apply Rabs_le; unfold E in *; lra)) as R3. apply Rabs_le_iff in R3. apply Rabs_le. lra. }
  assert (DX : Rabs (Y * z - y * Z) <= 79 * E) by (apply D; try assumption; unfold ax in AX; rewrite (Rmult_comm Z y) in AX; exact AX).
  assert (DY : Rabs (X * z - x * Z) <= 79 * E).
  { apply D; try assumption. unfold ay in AY. rewrite (Rmult_comm Z x) in AY. unfold rnd in *. rewrite <- Rabs_Ropp, <- round_NE_opp, Ropp_minus_distr. exact AY. }
  assert (G : forall p P', Rabs p <= 101 -> Rabs P' <= 101 -> Rabs (P' * z - p * Z) <= 79 * E -> Rabs (P' * f - p * F) <= 1700 * E).
  { intros p P' Hp HP' H. replace (P' * f - p * F) with ((P' * z - p * Z) - P' * (z - f) + p * (Z - F)) by ring.
    assert (Q1 : Rabs (P' * (z - f)) <= 101 * (8 * E)) by (rewrite Rabs_mult; apply Rmult_le_compat; try apply Rabs_pos; assumption).
    assert (Q2 : Rabs (p * (Z - F)) <= 101 * (8 * E)) by (rewrite Rabs_mult; apply Rmult_le_compat; try apply Rabs_pos; assumption).
    eapply Rle_trans; [apply sum_le; [apply diff_le; [exact H|exact Q1]|exact Q2]|]. lra. }
  destruct (nearly_still x y X Y (1700 * E) Hx Hy HX HY ltac:(unfold E; lra) (G x X Hx HX DY) (G y Y Hy HY DX)) as (N1 & N2 & N3). fold f F in N3.
  rewrite Rabs_minus_sym in N1, N2. split; [lra|]. split; [lra|].
  apply Rabs_le_iff in N3, Hz, HZ. apply Rabs_le. lra.
Qed.
Lemma length_small d g : / 10000000000000 <= g -> Rabs (x3 d) <= g -> Rabs (y3 d) <= g -> Rabs (z3 d) <= g -> g <= 1 -> exists l, fv_length d = Ok l /\ 0 <= l <= 18 / 10 * g.
Proof.
  destruct d as [x y z]. cbn [x3 y3 z3]. intros G X Y Z G1. destruct (fv_dot_above (V3 x y z)) as (D0 & _). unfold fv_length. rewrite fsqrt_ok by exact D0. eexists. split; [reflexivity|].
  unfold fv_dot, fadd, fmul in *. cbn [x3 y3 z3] in *.
  assert (Q : / 100000000000000000000000000 <= g * g) by nra.
  assert (P : forall p, Rabs p <= g -> 0 <= rnd (p * p) <= 1001 / 1000 * (g * g)).
  { intros p Hp. apply rnd_up; [|lra]. split; [apply sq_nonneg|]. rewrite <- (Rabs_pos_eq (p * p)) by apply sq_nonneg. now apply mul_le. }
  pose proof (P x X) as PX. pose proof (P y Y) as PY. pose proof (P z Z) as PZ.
  pose proof (rnd_up (rnd (x * x) + rnd (y * y)) (202 / 100 * (g * g)) ltac:(lra) ltac:(lra)) as A. pose proof (rnd_up (rnd (rnd (x * x) + rnd (y * y)) + rnd (z * z)) (306 / 100 * (g * g)) ltac:(lra) ltac:(lra)) as B.
  set (s := rnd (rnd (rnd (x * x) + rnd (y * y)) + rnd (z * z))) in *. clearbody s.
  assert (S : sqrt s <= 177 / 100 * g). { apply Rsqr_incr_0; try lra; [|apply sqrt_pos]. unfold Rsqr. rewrite sqrt_sqrt by lra. lra. }
  pose proof (rnd_up (sqrt s) (177 / 100 * g) (conj (sqrt_pos s) S) ltac:(lra)). lra.
Qed.
Lemma length_ok d : exists l, fv_length d = Ok l /\ 0 <= l.
Proof. destruct (fv_dot_above d) as (D0 & _). unfold fv_length. rewrite fsqrt_ok by exact D0. eexists. split; [reflexivity|]. apply rnd_nonneg, sqrt_pos. Qed.
Lemma sin_above h : 0 <= h <= 2 -> h / 3 <= sin h.
Proof.
  intros [H0 H1]. destruct (pre_sin_bound h 0 H0 ltac:(lra)) as [L _]. eapply Rle_trans; [|exact L].
  unfold sin_approx, sin_term. cbn [sum_f_R0 Nat.mul Nat.add pow fact INR]. cbn. assert (h * h <= 4) by nra. nra.
Qed.
Lemma asin_small t : 0 <= t <= 1 -> 0 <= asin t <= 3 * t.
Proof.
  intros T. pose proof (asin_bound t) as [A B]. assert (A0 : 0 <= asin t). { destruct (Rle_dec 0 (asin t)) as [|N]; [assumption|]. pose proof PI_RGT_0. pose proof (sin_lt_0_var (asin t) ltac:(lra) ltac:(lra)) as S. rewrite sin_asin in S by lra. lra. }
  split; [exact A0|]. pose proof PI_4. pose proof (sin_above (asin t) ltac:(lra)) as S. rewrite sin_asin in S by lra. lra.
Qed.
Lemma sin_le_abs h : Rabs (sin h) <= Rabs h.
Proof.
  destruct (Rtotal_order h 0) as [N|[->|P]].
  - rewrite <- (Rabs_Ropp (sin h)), <- (Rabs_Ropp h), <- sin_neg. assert (0 < - h) by lra. destruct (Rle_dec (- h) 1) as [L|L].
    + pose proof (sin_lt_x (- h) H). pose proof (sin_ge_0 (- h) ltac:(lra) ltac:(pose proof PI2_1; lra)). rewrite !Rabs_pos_eq; lra.
    + rewrite (Rabs_pos_eq (- h)) by lra. pose proof (SIN_bound (- h)). apply Rabs_le. lra.
  - rewrite sin_0. lra.
  - destruct (Rle_dec h 1) as [L|L].
    + pose proof (sin_lt_x h P). pose proof (sin_ge_0 h ltac:(lra) ltac:(pose proof PI2_1; lra)). rewrite !Rabs_pos_eq; lra.
    + rewrite (Rabs_pos_eq h) by lra. pose proof (SIN_bound h). apply Rabs_le. lra.
Qed.
Lemma omega_small : bpow radix2 (-1074) <= / 1267650600228229401496703205376.
Proof. rewrite <- bpow_neg100. apply bpow_le. lia. Qed.
Lemma good_near X x : good X x -> Rabs X <= 1 -> Rabs (x - X) <= E.
Proof.
  unfold good. intros H B. pose proof omega_small. assert (P : / 2 ^ 51 * Rabs X <= / 2 ^ 51 * 1) by (apply Rmult_le_compat_l; [apply Rlt_le, Rinv_0_lt_compat, pow_lt; lra|exact B]).
  replace (/ 2 ^ 51) with (/ 2251799813685248) in * by (cbn; lra). unfold E. lra.
Qed.
(** From an axis that was normalized well, or an angle that is nearly nothing. *)
Lemma axis_angle_norm L n h : good_library L -> Rabs (x3 n) <= 5 / 4 -> Rabs (y3 n) <= 5 / 4 -> Rabs (z3 n) <= 5 / 4 -> Rabs ((v_dot n n - 1) * (sin h * sin h)) <= 8 * E ->
  let q := append (fv_mul n (m_sin L h)) (m_cos L h) in Rabs (q_dot q q - 1) <= 24 * E.
Proof.
  intros (GS & GC & _) NX NY NZ D q. pose proof (SIN_bound h) as SB. pose proof (COS_bound h) as CB.
  pose proof (good_near _ _ (GS h) ltac:(apply Rabs_le; lra)) as S. pose proof (good_near _ _ (GC h) ltac:(apply Rabs_le; lra)) as C.
  destruct n as [x y z]. unfold q, append, fv_mul, fmul, q_dot, v_dot in *. cbn [x3 y3 z3 x4 y4 z4 w4] in *.
  set (s := m_sin L h) in *. clearbody s. set (c := m_cos L h) in *. clearbody c. pose proof (sc2 h) as SC. set (sh := sin h) in *. set (ch := cos h) in *. clearbody sh ch.
  assert (T : forall p, Rabs p <= 5 / 4 -> Rabs (rnd (p * s) - p * sh) <= 3 * E).
  { intros p Hp. assert (A : Rabs (p * (s - sh)) <= 5 / 4 * E) by (rewrite Rabs_mult; apply Rmult_le_compat; try apply Rabs_pos; assumption).
    assert (B : Rabs (p * sh) <= 5 / 4). { rewrite Rabs_mult. apply Rle_trans with (5 / 4 * 1); [apply Rmult_le_compat; try apply Rabs_pos; [exact Hp|apply Rabs_le; lra]|lra]. }
    replace (p * (s - sh)) with (p * s - p * sh) in A by ring. apply Rabs_le_iff in A, B.
    pose proof (rnd7 (p * s) ltac:(apply Rabs_le; unfold E in *; lra)) as R. apply Rabs_le_iff in R. apply Rabs_le. assert (0 < E) by (unfold E; lra). lra. }
  assert (N : x * sh * (x * sh) + y * sh * (y * sh) + z * sh * (z * sh) + ch * ch = 1 + (x * x + y * y + z * z - 1) * (sh * sh)) by lra.
  apply Rabs_le_iff in D.
  pose proof (perturbed (x * sh) (y * sh) (z * sh) ch (rnd (x * s)) (rnd (y * s)) (rnd (z * s)) c (3 * E) ltac:(unfold E in *; lra) ltac:(unfold E; lra) (T x NX) (T y NY) (T z NZ) ltac:(unfold E in *; lra)) as P.
  rewrite N in P. apply Rabs_le_iff in P. apply Rabs_le. assert (0 < E) by (unfold E; lra). lra.
Qed.
Lemma frotate_norm L x y dx dy : good_library L -> on_screen (Drag x y dx dy) -> exists q, frotate L x y dx dy = Ok q /\ Rabs (q_dot q q - 1) <= 24 * E.
Proof.
  intros GL (Hx & Hy & HX & HY). assert (E0 : 0 < E) by (unfold E; lra). unfold frotate.
  destruct (if Req_EM_T dx 0 then if Req_EM_T dy 0 then true else false else false).
  { eexists. split; [reflexivity|]. unfold q_dot. cbn [x4 y4 z4 w4]. replace (0 * 0 + 0 * 0 + 0 * 0 + 1 * 1 - 1) with 0 by ring. rewrite Rabs_R0. lra. }
  assert (RX : forall p, Rabs p <= 100 -> Rabs (rnd p) <= 101). { intros p Hp. pose proof (rnd_up_abs p 100 Hp ltac:(lra)). lra. }
  unfold fadd. pose proof (RX _ HX) as BX. pose proof (RX _ HY) as BY. set (X := rnd (x + dx)) in *. set (Y := rnd (y + dy)) in *. clearbody X Y. clear RX HX HY.
  destruct (project_near x y ltac:(lra) ltac:(lra)) as (z & -> & Nz & Bz). destruct (project_near X Y BX BY) as (Z & PZ & NZ & BZ). cbn [bind]. rewrite PZ. cbn [bind].
  set (a := fv_cross (V3 X Y Z) (V3 x y z)). set (d := fv_sub (V3 x y z) (V3 X Y Z)).
  destruct (length_ok d) as (l & Ll & l0). rewrite Ll. cbn [bind].
  destruct ball_numbers as (R1 & _). pose proof (rnd7 (2 * ball_size) ltac:(apply Rabs_le; lra)) as RB. apply Rabs_le_iff in RB.
  unfold fmul at 1. rewrite fdiv_ok by (unfold E in RB; lra). cbn [bind].
  set (b := rnd (2 * ball_size)) in *. assert (B0 : 15 / 10 <= b) by (unfold E in RB; lra). clearbody b.
  assert (T0 : 0 <= rnd (l / b)) by (apply rnd_nonneg; apply Rmult_le_pos; [exact l0|apply Rlt_le, Rinv_0_lt_compat; lra]).
  rewrite (clipped _ T0). set (t := Rmin 1 (rnd (l / b))). assert (t1 : 0 <= t <= 1) by (unfold t, Rmin; destruct (Rle_dec 1 (rnd (l / b))); lra).
  unfold fasin. destruct (Rle_dec (Rabs t) 1) as [_|C]; [|exfalso; apply C; rewrite Rabs_pos_eq; lra]. cbn [bind].
  set (p := m_asin L t). unfold fq_from_axis_angle.
  (* the axis *)
  assert (BIG : forall P Q R S, Rabs P <= 101 -> Rabs Q <= 101 -> Rabs R <= 101 -> Rabs S <= 101 -> Rabs (fsub (fmul P Q) (fmul R S)) <= 30000).
  { intros P Q R S HP HQ HR HS. unfold fsub, fmul. pose proof (mul_le P Q 101 HP HQ) as M1. pose proof (mul_le R S 101 HR HS) as M2.
    pose proof (rnd_up_abs _ _ M1 ltac:(lra)) as U1. pose proof (rnd_up_abs _ _ M2 ltac:(lra)) as U2. pose proof (diff_le _ _ _ _ U1 U2) as D. pose proof (rnd_up_abs _ _ D ltac:(lra)). lra. }
  assert (Bx' : Rabs x <= 101) by lra. assert (By' : Rabs y <= 101) by lra.
  assert (Bz' : Rabs z <= 101) by (rewrite Rabs_pos_eq; lra). assert (BZ' : Rabs Z <= 101) by (rewrite Rabs_pos_eq; lra).
  assert (A1 : Rabs (x3 a) <= 30000) by (unfold a, fv_cross; cbn [x3]; apply BIG; assumption). assert (A2 : Rabs (y3 a) <= 30000) by (unfold a, fv_cross; cbn [y3]; apply BIG; assumption). assert (A3 : Rabs (z3 a) <= 30000) by (unfold a, fv_cross; cbn [z3]; apply BIG; assumption).
  destruct (normalize_bounded a ltac:(lra) ltac:(lra) ltac:(lra)) as (n & Nn & B1 & B2 & B3). rewrite Nn. cbn [bind]. rewrite fdiv_ok by lra. cbn [bind]. set (h := rnd (fmul 2 p / 2)).
  eexists. split; [reflexivity|]. apply axis_angle_norm; try assumption.
  destruct (Rle_dec tau2 (v_dot a a)) as [TA|TA].
  - destruct (normalize_unit a TA) as (n' & Nn' & U).
    { unfold v_dot. pose proof (mul_le _ _ _ A1 A1) as M1. pose proof (mul_le _ _ _ A2 A2) as M2. pose proof (mul_le _ _ _ A3 A3) as M3. rewrite Rabs_pos_eq in M1, M2, M3 by apply sq_nonneg. lra. }
    rewrite Nn in Nn'. injection Nn' as <-. rewrite Rabs_mult. pose proof (sc2 h) as SC. pose proof (sq_nonneg (sin h)) as S0. pose proof (sq_nonneg (cos h)) as C0. rewrite (Rabs_pos_eq (sin h * sin h)) by exact S0.
    apply Rle_trans with (8 * E * 1); [apply Rmult_le_compat; try apply Rabs_pos; lra|lra].
  - destruct (small_axis x y X Y z Z ltac:(lra) ltac:(lra) BX BY Nz NZ Bz BZ ltac:(cbv zeta; fold a; lra)) as (K1 & K2 & K3).
    assert (LS : l <= 18 / 10 * (13000000 * E)).
    { destruct (length_small d (13000000 * E) ltac:(unfold E; lra)) as (l' & Ll' & [_ LL]); [| | |unfold E; lra|].
      - eapply Rle_trans; [apply (rnd_up_abs _ _ K1); unfold E; lra|lra].
      - eapply Rle_trans; [apply (rnd_up_abs _ _ K2); unfold E; lra|lra].
      - eapply Rle_trans; [apply (rnd_up_abs _ _ K3); unfold E; lra|lra].
      - rewrite Ll in Ll'. injection Ll' as <-. exact LL. }
    assert (TS : t <= 15750000 * E).
    { assert (LB : l / b <= 15700000 * E). { apply Rmult_le_reg_r with b; [lra|]. unfold Rdiv. rewrite Rmult_assoc, Rinv_l by lra. nra. }
      assert (LP : 0 <= l / b) by (apply Rmult_le_pos; [exact l0|apply Rlt_le, Rinv_0_lt_compat; lra]).
      pose proof (rnd_up (l / b) _ (conj LP LB) ltac:(unfold E; lra)). unfold t. eapply Rle_trans; [apply Rmin_r|]. lra. }
    destruct (asin_small t t1) as [P0 P1]. assert (PS : Rabs p <= 47300000 * E).
    { destruct GL as (_ & _ & GA). pose proof (GA t ltac:(lra)) as G. fold p in G. unfold good in G. rewrite (Rabs_pos_eq (asin t)) in G by exact P0. pose proof omega_small.
      replace (/ 2 ^ 51) with (/ 2251799813685248) in G by (cbn; lra). apply Rabs_le_iff in G. apply Rabs_le. unfold E in *. lra. }
    assert (HS : Rabs h <= 47500000 * E).
    { unfold h, fmul. assert (Q1 : Rabs (2 * p) <= 94600000 * E) by (rewrite Rabs_mult, (Rabs_pos_eq 2) by lra; lra). pose proof (rnd_up_abs _ _ Q1 ltac:(unfold E; lra)) as Q2.
      assert (Q3 : Rabs (rnd (2 * p) / 2) <= 47400000 * E) by (unfold Rdiv; rewrite Rabs_mult, (Rabs_pos_eq (/ 2)) by lra; lra). pose proof (rnd_up_abs _ _ Q3 ltac:(unfold E; lra)). lra. }
    pose proof (sin_le_abs h) as SL. assert (SQ : sin h * sin h <= 21 / 10 * E).
    { pose proof (mul_le _ _ _ (Rle_trans _ _ _ SL HS) (Rle_trans _ _ _ SL HS)) as M. rewrite Rabs_pos_eq in M by apply sq_nonneg. eapply Rle_trans; [exact M|]. unfold E. lra. }
    pose proof (sq_nonneg (sin h)) as S0. rewrite Rabs_mult, (Rabs_pos_eq (sin h * sin h)) by exact S0.
    assert (VN : Rabs (v_dot n n - 1) <= 37 / 10).
    { unfold v_dot. pose proof (mul_le _ _ _ B1 B1) as M1. pose proof (mul_le _ _ _ B2 B2) as M2. pose proof (mul_le _ _ _ B3 B3) as M3. rewrite Rabs_pos_eq in M1, M2, M3 by apply sq_nonneg.
      pose proof (sq_nonneg (x3 n)). pose proof (sq_nonneg (y3 n)). pose proof (sq_nonneg (z3 n)). apply Rabs_le. lra. }
    apply Rle_trans with (37 / 10 * (21 / 10 * E)); [apply Rmult_le_compat; try apply Rabs_pos; lra|lra].
Qed.

(** ** Every history *)
Lemma tau_small : tau2 <= / 1267650600228229401496703205376.
Proof. rewrite <- bpow_neg100. apply bpow_le. lia. Qed.
Lemma orientation_norm L b theta phi : good_library L -> exists b', fset_orientation L b theta phi = Ok b' /\ Rabs (q_dot (t_rotation b') (t_rotation b') - 1) <= 60 * E /\ t_model b' = fq_rotmatrix (t_rotation b') /\ t_count b' = t_count b.
Proof.
  intros (GS & GC & _). unfold fset_orientation. rewrite fdiv_ok by lra. cbn [bind]. eexists. split; [reflexivity|]. cbn [t_rotation t_model t_count]. split; [|split; reflexivity].
  set (s := m_sin L _). set (c := m_cos L _). set (s' := m_sin L (fmul (/ 2) (fmul phi _))). set (c' := m_cos L (fmul (/ 2) (fmul phi _))).
  assert (P : exists h, Rabs (s - sin h) <= E /\ Rabs (c - cos h) <= E) by (eexists; split; apply good_near; [apply GS|apply Rabs_le, SIN_bound|apply GC|apply Rabs_le, COS_bound]).
  assert (P' : exists h, Rabs (s' - sin h) <= E /\ Rabs (c' - cos h) <= E) by (eexists; split; apply good_near; [apply GS|apply Rabs_le, SIN_bound|apply GC|apply Rabs_le, COS_bound]).
  clearbody s c s' c'. destruct P as (h & S & C), P' as (h' & S' & C'). assert (E0 : 0 < E) by (unfold E; lra).
  pose proof (sc2 h) as N. pose proof (sc2 h') as N'. pose proof (SIN_bound h) as SB.
  assert (R : Rabs (fmul 1 s - sin h) <= 2 * E).
  { unfold fmul. rewrite Rmult_1_l. apply Rabs_le_iff in S. pose proof (rnd7 s ltac:(apply Rabs_le; unfold E in *; lra)) as R. apply Rabs_le_iff in R. apply Rabs_le. lra. }
  assert (Z : Rabs (0 - 0) <= 2 * E) by (rewrite Rminus_0_r, Rabs_R0; lra).
  pose proof (perturbed (sin h) 0 0 (cos h) (fmul 1 s) 0 0 c (2 * E) ltac:(lra) ltac:(unfold E; lra) R Z Z ltac:(lra)) as Q. pose proof (perturbed 0 0 (sin h') (cos h') 0 0 s' c' (2 * E) ltac:(lra) ltac:(unfold E; lra) Z Z ltac:(lra) ltac:(lra)) as Q'.
  set (p := V4 (fmul 1 s) 0 0 c) in *. set (q := V4 0 0 s' c') in *.
  replace (fmul 1 s * fmul 1 s + 0 * 0 + 0 * 0 + c * c) with (q_dot p p) in Q by reflexivity. replace (0 * 0 + 0 * 0 + s' * s' + c' * c') with (q_dot q q) in Q' by reflexivity.
  apply Rabs_le_iff in Q, Q'. assert (QA : - (10 * E) <= q_dot p p - 1 <= 10 * E) by lra. assert (QB : - (10 * E) <= q_dot q q - 1 <= 10 * E) by lra.
  destruct (fq_add_norm p q ltac:(unfold E in *; lra) ltac:(unfold E in *; lra)) as [_ M]. apply Rabs_le_iff in M.
  set (A := q_dot p p) in *. set (B := q_dot q q) in *. clearbody A B. clear - M QA QB E0.
  assert (K : Rabs (A * B - 1) <= 22 * E).
  { replace (A * B - 1) with ((A - 1) + (B - 1) * A) by ring. assert (X : Rabs ((B - 1) * A) <= 10 * E * (11 / 10)) by (rewrite Rabs_mult; apply Rmult_le_compat; try apply Rabs_pos; apply Rabs_le; unfold E in *; lra).
    apply Rabs_le_iff in X. apply Rabs_le. lra. }
  apply Rabs_le_iff in K. apply Rabs_le. lra.
Qed.
Lemma count_le n : (n <= 97)%nat -> INR n <= 97.
Proof. intros C. apply le_INR in C. replace 97 with (INR 97) by (rewrite INR_IZR_INZ; reflexivity). exact C. Qed.
Definition sound (b : trackball) : Prop :=
  (t_count b <= 97)%nat /\ Rabs (q_dot (t_rotation b) (t_rotation b) - 1) <= 60 * (INR (t_count b) + 1) * E /\ t_model b = fq_rotmatrix (t_rotation b).
Lemma sound_small b : sound b -> Rabs (q_dot (t_rotation b) (t_rotation b) - 1) <= 5880 * E.
Proof.
  intros (C & N & _). eapply Rle_trans; [exact N|]. apply Rmult_le_compat_r; [unfold E; lra|]. apply count_le in C. lra.
Qed.
Lemma fact_sound L b a : good_library L -> on_screen a -> sound b -> exists b', fact L b a = Ok b' /\ sound b'.
Proof.
  intros GL OS SB. assert (E0 : 0 < E) by (unfold E; lra). pose proof (sound_small b SB) as SM. destruct SB as (C & N & M).
  assert (SET : forall th ph, exists b', fset_orientation L b th ph = Ok b' /\ sound b').
  { intros th ph. destruct (orientation_norm L b th ph GL) as (b' & Hb & N' & M' & C'). exists b'. split; [exact Hb|]. unfold sound. rewrite C'. split; [exact C|]. split; [|exact M'].
    eapply Rle_trans; [exact N'|]. apply Rmult_le_compat_r; [lra|]. pose proof (pos_INR (t_count b)). lra. }
  destruct a as [x y dx dy|v|v| |]; cbn [fact]; try apply SET.
  - unfold fdrag_to. destruct (frotate_norm L x y dx dy GL OS) as (q & -> & Q). cbn [bind]. apply Rabs_le_iff in Q, SM.
    destruct (fq_add_norm q (t_rotation b) ltac:(unfold E in *; lra) ltac:(unfold E in *; lra)) as [_ K]. set (r := fq_add q (t_rotation b)) in *. clearbody r.
    set (A := q_dot q q) in *. set (B := q_dot (t_rotation b) (t_rotation b)) in *. clearbody A B.
    assert (G : Rabs (q_dot r r - 1) <= 60 * (INR (S (t_count b)) + 1) * E).
    { rewrite S_INR. assert (X : Rabs ((A - 1) * B) <= 24 * E * (101 / 100)) by (rewrite Rabs_mult; apply Rmult_le_compat; try apply Rabs_pos; apply Rabs_le; unfold E in *; lra).
      apply Rabs_le_iff in X, K, N. apply Rabs_le. lra. }
    destruct (Nat.ltb_spec renorm_count (S (t_count b))) as [T|T].
    + assert (G' : Rabs (q_dot r r - 1) <= 60 * 99 * E).
      { eapply Rle_trans; [exact G|]. apply Rmult_le_compat_r; [lra|]. rewrite S_INR. apply count_le in C. lra. }
      apply Rabs_le_iff in G'. pose proof tau_small. destruct (q_normalize_near r ltac:(unfold E in *; lra) ltac:(unfold E in *; lra)) as (n & -> & Nn). cbn [bind]. eexists. split; [reflexivity|].
      unfold sound. cbn [t_count t_rotation t_model]. split; [lia|]. split; [|reflexivity]. cbn [INR]. lra.
    + eexists. split; [reflexivity|]. unfold sound. cbn [t_count t_rotation t_model]. split; [exact T|]. split; [exact G|reflexivity].
  - destruct (fget_orientation L b) as [[th ph]|]; eexists; (split; [reflexivity|]); (split; [exact C|]); split; assumption.
  - destruct (fget_orientation L b) as [[th ph]|]; eexists; (split; [reflexivity|]); (split; [exact C|]); split; assumption.
Qed.
Lemma facts_sound L l : good_library L -> Forall on_screen l -> forall b, sound b -> exists b', facts L b l = Ok b' /\ sound b'.
Proof.
  intros GL. induction 1 as [|a l A _ IH]; intros b SB; [exists b; split; [reflexivity|exact SB]|]. cbn [facts]. destruct (fact_sound L b a GL A SB) as (b' & -> & S'). cbn [bind]. apply IH, S'.
Qed.
Lemma fnew_sound L theta phi : good_library L -> exists b, fnew L theta phi = Ok b /\ sound b.
Proof.
  intros GL. unfold fnew. edestruct (orientation_norm L) as (b & Hb & N & M & C); [exact GL|]. exists b. split; [exact Hb|]. cbn [t_count] in C. unfold sound. rewrite C. split; [lia|]. split; [|exact M]. cbn [INR]. lra.
Qed.
Lemma sound_rotation b : sound b -> nearly_rotation (/ 10 ^ 7) (t_model b).
Proof.
  intros SB. pose proof (sound_small b SB) as SM. destruct SB as (_ & _ & M). assert (SM' : Rabs (q_dot (t_rotation b) (t_rotation b) - 1) <= 5880 * E) by exact SM.
  exists (q_rotmatrix (unit_q (t_rotation b))). split.
  - apply rotmatrix_rotation, unit_q_unit. apply Rabs_le_iff in SM. unfold E in SM. lra.
  - rewrite M. pose proof (matrix_near (t_rotation b) (5880 * E) ltac:(unfold E; lra) SM') as H.
    assert (W : forall e e' A B, e <= e' -> near4 e A B -> near4 e' A B) by (unfold near4; intros e e' A B L (H0 & H1 & H2 & H3); repeat split; lra).
    assert (T : 10 * (5880 * E) + 10 * E + 9 / 100000000 <= / 10 ^ 7) by (cbn [pow]; unfold E; lra).
    destruct H as (H0 & H1 & H2 & H3). repeat split; (eapply W; [exact T|assumption]).
Qed.
Lemma never_distorted L theta phi l : good_library L -> Forall on_screen l -> exists b b', fnew L theta phi = Ok b /\ facts L b l = Ok b' /\
  nearly_rotation (/ 10 ^ 7) (t_model b') /\ Rabs (q_dot (t_rotation b') (t_rotation b') - 1) <= / 10 ^ 11 /\ (t_count b' <= 97)%nat.
Proof.
  intros GL OS. destruct (fnew_sound L theta phi GL) as (b & Hb & SB). destruct (facts_sound L l GL OS b SB) as (b' & Hb' & SB'). exists b, b'. split; [exact Hb|]. split; [exact Hb'|]. split; [now apply sound_rotation|]. split; [|apply SB'].
  pose proof (sound_small b' SB') as H. eapply Rle_trans; [exact H|]. unfold E. cbn [pow]. lra.
Qed.

(** ** Lengths *)
Lemma rotmatrix_length q p : q_dot q q = 1 -> dot (image (q_rotmatrix q) p) (image (q_rotmatrix q) p) = dot p p.
Proof.
  destruct q as [a b c d], p as [x y z]. unfold image, apply4, point, dot4, dot, q_dot, q_rotmatrix. cbn [x4 y4 z4 w4 x3 y3 z3 row0 row1 row2 row3]. intros H.
  rewrite <- H. set (N := a * a + b * b + c * c + d * d) in *.
  transitivity (N * N * (x * x + y * y + z * z)); [unfold N; ring|]. rewrite H. ring.
Qed.
Lemma sq_moved r e k l : 0 <= l -> Rabs r <= l -> Rabs e <= k * l -> 0 <= k <= 1 -> Rabs ((r + e) * (r + e) - r * r) <= 3 * k * (l * l).
Proof.
  intros L R K K1. replace ((r + e) * (r + e) - r * r) with (e * (2 * r + e)) by ring. rewrite Rabs_mult.
  assert (A : Rabs (2 * r + e) <= 3 * l). { eapply Rle_trans; [apply Rabs_triang|]. rewrite Rabs_mult, (Rabs_pos_eq 2) by lra. assert (k * l <= 1 * l) by (apply Rmult_le_compat_r; lra). lra. }
  apply Rle_trans with (k * l * (3 * l)); [apply Rmult_le_compat; try apply Rabs_pos; assumption|]. right. ring.
Qed.
Lemma near_length m q p e : 0 <= e <= / 10 -> only_block m -> q_dot q q = 1 -> near e m (q_rotmatrix q) -> Rabs (norm (image m p) - norm p) <= 27 * e * norm p.
Proof.
  intros E1 (W0 & W1 & W2 & W3) U (N0 & N1 & N2 & _). pose proof (rotmatrix_length q p U) as L. set (M := q_rotmatrix q) in *.
  assert (MW : w4 (row0 M) = 0 /\ w4 (row1 M) = 0 /\ w4 (row2 M) = 0) by (repeat split). destruct MW as (M0 & M1 & M2).
  set (l := norm p). assert (l0 : 0 <= l) by apply sqrt_pos. assert (ll : l * l = dot p p) by (apply sqrt_sqrt; unfold dot; pose proof (sq_nonneg (x3 p)); pose proof (sq_nonneg (y3 p)); pose proof (sq_nonneg (z3 p)); lra).
  assert (C : forall c, c * c <= dot p p -> Rabs c <= l). { intros c H. apply Rsqr_incr_0; [|apply Rabs_pos|exact l0]. rewrite <- Rsqr_abs. unfold Rsqr. lra. }
  pose proof (sq_nonneg (x3 p)) as S1. pose proof (sq_nonneg (y3 p)) as S2. pose proof (sq_nonneg (z3 p)) as S3.
  assert (CX : Rabs (x3 p) <= l) by (apply C; unfold dot; lra). assert (CY : Rabs (y3 p) <= l) by (apply C; unfold dot; lra). assert (CZ : Rabs (z3 p) <= l) by (apply C; unfold dot; lra).
  assert (ROW : forall r r', near4 e r r' -> w4 r = 0 -> w4 r' = 0 -> Rabs (dot4 r (point p) - dot4 r' (point p)) <= 3 * e * l).
  { intros r r' (H0 & H1 & H2 & _) V V'. unfold dot4, point. cbn [x4 y4 z4 w4]. rewrite V, V'.
    replace (x4 r * x3 p + y4 r * y3 p + z4 r * z3 p + 0 * 1 - (x4 r' * x3 p + y4 r' * y3 p + z4 r' * z3 p + 0 * 1)) with ((x4 r - x4 r') * x3 p + (y4 r - y4 r') * y3 p + (z4 r - z4 r') * z3 p) by ring.
    assert (P : forall a c, Rabs a <= e -> Rabs c <= l -> Rabs (a * c) <= e * l) by (intros; rewrite Rabs_mult; apply Rmult_le_compat; try apply Rabs_pos; assumption).
    eapply Rle_trans; [apply sum_le; [apply sum_le; apply P; eassumption|apply P; eassumption]|]. lra. }
  pose proof (ROW _ _ N0 W0 M0) as R0. pose proof (ROW _ _ N1 W1 M1) as R1. pose proof (ROW _ _ N2 W2 M2) as R2. clear ROW N0 N1 N2.
  unfold image, apply4 in *. cbn [x4 y4 z4] in *. unfold norm, dot in *. cbn [x3 y3 z3] in *.
  set (a0 := dot4 (row0 M) (point p)) in *. set (a1 := dot4 (row1 M) (point p)) in *. set (a2 := dot4 (row2 M) (point p)) in *.
  set (b0 := dot4 (row0 m) (point p)) in *. set (b1 := dot4 (row1 m) (point p)) in *. set (b2 := dot4 (row2 m) (point p)) in *. clearbody a0 a1 a2 b0 b1 b2.
  fold l. change (sqrt (x3 p * x3 p + y3 p * y3 p + z3 p * z3 p)) with l. rewrite <- ll in *. clearbody l. clear - E1 L R0 R1 R2 l0.
  pose proof (sq_nonneg a0). pose proof (sq_nonneg a1). pose proof (sq_nonneg a2). pose proof (sq_nonneg b0) as B0. pose proof (sq_nonneg b1) as B1. pose proof (sq_nonneg b2) as B2.
  assert (C : forall c, c * c <= l * l -> Rabs c <= l). { intros c H'. apply Rsqr_incr_0; [|apply Rabs_pos|exact l0]. rewrite <- Rsqr_abs. exact H'. }
  pose proof (sq_moved a0 (b0 - a0) (3 * e) l l0 (C a0 ltac:(lra)) R0 ltac:(lra)) as Q0. pose proof (sq_moved a1 (b1 - a1) (3 * e) l l0 (C a1 ltac:(lra)) R1 ltac:(lra)) as Q1. pose proof (sq_moved a2 (b2 - a2) (3 * e) l l0 (C a2 ltac:(lra)) R2 ltac:(lra)) as Q2.
  rewrite !Rplus_minus in Q0, Q1, Q2. set (S := b0 * b0 + b1 * b1 + b2 * b2).
  assert (Q : Rabs (S - l * l) <= 27 * e * (l * l)). { apply Rabs_le_iff in Q0, Q1, Q2. unfold S. apply Rabs_le. lra. }
  assert (S0 : 0 <= S) by (unfold S; lra). clearbody S. pose proof (sqrt_pos S) as s0. pose proof (sqrt_sqrt S S0) as ss. set (s := sqrt S) in *. clearbody s.
  destruct (Req_dec l 0) as [Z|Z].
  - subst l. rewrite !Rmult_0_r, Rminus_0_r in *. rewrite Rabs_pos_eq in Q by exact S0. assert (s * s = 0) by lra. assert (s = 0) by nra. subst s. rewrite Rabs_R0. lra.
  - assert (l1 : 0 < l) by lra. apply Rmult_le_reg_r with l; [exact l1|]. eapply Rle_trans; [|rewrite Rmult_assoc; exact Q]. rewrite <- ss. replace (s * s - l * l) with ((s - l) * (s + l)) by ring. rewrite Rabs_mult, (Rabs_pos_eq (s + l)) by lra.
    apply Rmult_le_compat_l; [apply Rabs_pos|lra].
Qed.
Lemma sound_lengths b p : sound b -> only_block (t_model b) /\ Rabs (norm (image (t_model b) p) - norm p) <= 27 / 10 ^ 7 * norm p.
Proof.
  intros SB. pose proof (sound_small b SB) as SM. destruct SB as (_ & _ & M). assert (O : only_block (t_model b)) by (rewrite M; repeat split). split; [exact O|].
  assert (P : 0 < q_dot (t_rotation b) (t_rotation b)) by (apply Rabs_le_iff in SM; unfold E in SM; lra).
  pose proof (matrix_near (t_rotation b) (5880 * E) ltac:(unfold E; lra) SM) as H. rewrite <- M in H.
  eapply Rle_trans; [refine (near_length _ (unit_q (t_rotation b)) p _ _ O (unit_q_unit _ P) H); unfold E; lra|].
  apply Rmult_le_compat_r; [apply sqrt_pos|]. cbn [pow]. unfold E. lra.
Qed.
Lemma lengths_kept L theta phi l p : good_library L -> Forall on_screen l -> exists b b', fnew L theta phi = Ok b /\ facts L b l = Ok b' /\
  only_block (t_model b') /\ Rabs (norm (image (t_model b') p) - norm p) <= 27 / 10 ^ 7 * norm p.
Proof.
  intros GL OS. destruct (fnew_sound L theta phi GL) as (b & Hb & SB). destruct (facts_sound L l GL OS b SB) as (b' & Hb' & SB'). exists b, b'. split; [exact Hb|]. split; [exact Hb'|]. now apply sound_lengths.
Qed.

(** ** A library that rounds correctly *)
Lemma correct_good : good_library correct_library.
Proof.
  assert (G : forall x, good x (rnd x)).
  { intros x. unfold good. eapply Rle_trans; [apply rnd_err|]. pose proof (Rabs_pos x). assert (H1 : u * Rabs x <= / 2 ^ 51 * Rabs x) by (apply Rmult_le_compat_r; [assumption|unfold u; cbn [pow]; lra]).
    assert (H2 : eta <= bpow radix2 (-1074)) by (rewrite <- half_least; pose proof (bpow_gt_0 radix2 (-1074)); lra). lra. }
  split; [|split]; intros; apply G.
Qed.
