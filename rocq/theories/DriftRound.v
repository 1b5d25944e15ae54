(** Bounds on the errors of rounding in the operations of the trackball. *)
From Coq Require Import Reals ZArith Lra Lia Psatz.
From Flocq Require Import Core Relative.
From Verif Require Import Base Glm GlmSpec GlmFacts Trackball TrackballSpec TrackballFacts Drift DriftSpec.
Local Open Scope R_scope.

(** ** Rounding *)
Definition u : R := / 9007199254740992.
Definition eta : R := bpow radix2 (-1075).
Definition E : R := / 1125899906842624.
Lemma u_E : 8 * u = E.
Proof. unfold u, E. lra. Qed.
Lemma eta_pos : 0 < eta.
Proof. apply bpow_gt_0. Qed.
Lemma bpow_neg100 : bpow radix2 (-100) = / 1267650600228229401496703205376.
Proof. reflexivity. Qed.
Lemma eta_small : eta <= / 1267650600228229401496703205376.
Proof. rewrite <- bpow_neg100. apply bpow_le. lia. Qed.
Lemma half_ulp : / 2 * bpow radix2 (- 53 + 1) = u.
Proof. unfold u. cbn -[Rmult Rinv]. lra. Qed.
Lemma half_least : / 2 * bpow radix2 (-1074) = eta.
Proof. unfold eta. rewrite (bpow_plus radix2 (-1) (-1074) : bpow radix2 (-1075) = _). cbn [bpow Z.pow_pos Pos.iter radix_val radix2]. reflexivity. Qed.

Lemma rnd_form x : exists e d, Rabs e <= u /\ Rabs d <= eta /\ rnd x = x * (1 + e) + d.
Proof.
  destruct (error_N_FLT radix2 (-1074) 53 eq_refl (fun x => negb (Z.even x)) x) as (e & d & H1 & H2 & _ & H3).
  change (Rabs e <= / 2 * bpow radix2 (- 53 + 1)) in H1. rewrite half_ulp in H1. rewrite half_least in H2. exists e, d. repeat split; assumption.
Qed.
Lemma rnd_err x : Rabs (rnd x - x) <= u * Rabs x + eta.
Proof.
  destruct (rnd_form x) as (e & d & H1 & H2 & ->). replace (x * (1 + e) + d - x) with (e * x + d) by ring.
  eapply Rle_trans; [apply Rabs_triang|]. rewrite Rabs_mult. apply Rplus_le_compat; [|exact H2].
  apply Rmult_le_compat_r; [apply Rabs_pos|exact H1].
Qed.
Lemma rnd_abs M x : Rabs x <= M -> Rabs (rnd x - x) <= u * M + eta.
Proof. intros H. eapply Rle_trans; [apply rnd_err|]. apply Rplus_le_compat_r, Rmult_le_compat_l; [unfold u; lra|exact H]. Qed.
Lemma rnd4 x : Rabs x <= 4 -> Rabs (rnd x - x) <= E.
Proof. intros H. pose proof (rnd_abs 4 x H). pose proof eta_small. unfold u, E in *. lra. Qed.
Lemma rnd_0 : rnd 0 = 0.
Proof. apply round_0. apply valid_rnd_N. Qed.
Lemma rnd_le x y : x <= y -> rnd x <= rnd y.
Proof. apply round_le; [apply FLT_exp_valid; reflexivity|apply valid_rnd_N]. Qed.
Lemma rnd_nonneg x : 0 <= x -> 0 <= rnd x.
Proof. intros H. rewrite <- rnd_0. now apply rnd_le. Qed.
Lemma rnd_again x : rnd (rnd x) = rnd x.
Proof. apply round_generic; [apply valid_rnd_N|]. apply generic_format_round; [apply FLT_exp_valid; reflexivity|apply valid_rnd_N]. Qed.
Lemma rnd_least x : rnd x = 0 \/ 2 * eta <= Rabs (rnd x).
Proof.
  assert (G : generic_format radix2 (FIX_exp (-1074)) (rnd x)).
  { apply generic_format_FIX_FLT with 53%Z. apply generic_format_round; [apply FLT_exp_valid; reflexivity|apply valid_rnd_N]. }
  apply FIX_format_generic in G. destruct G as [[m e] H1 H2]. cbn in H2. subst e. rewrite H1. unfold F2R. cbn [Fnum Fexp].
  destruct (Z.eq_dec m 0) as [->|N]; [left; ring|right].
  rewrite Rabs_mult, (Rabs_pos_eq (bpow _ _)) by apply bpow_ge_0. rewrite <- half_least.
  replace (2 * (/ 2 * bpow radix2 (-1074))) with (1 * bpow radix2 (-1074)) by lra.
  apply Rmult_le_compat_r; [apply bpow_ge_0|]. rewrite <- abs_IZR. apply IZR_le. lia.
Qed.
Lemma rnd_rel x : bpow radix2 (-1022) <= Rabs x -> Rabs (rnd x - x) <= u * Rabs x.
Proof. intros H. rewrite <- half_ulp. apply relative_error_N_FLT; [reflexivity|exact H]. Qed.
Lemma rnd32_err x : Rabs x <= 9 / 8 -> Rabs (rnd32 x - x) <= 9 / 100000000.
Proof.
  intros H. destruct (error_N_FLT radix2 (-149) 24 eq_refl (fun x => negb (Z.even x)) x) as (e & d & H1 & H2 & _ & H3).
  unfold rnd32. rewrite H3. replace (x * (1 + e) + d - x) with (e * x + d) by ring.
  assert (A : / 2 * bpow radix2 (- 24 + 1) = / 16777216) by (cbn -[Rmult Rinv]; lra).
  change (Rabs e <= / 2 * bpow radix2 (- 24 + 1)) in H1. rewrite A in H1.
  assert (B : bpow radix2 (-149) <= bpow radix2 (-100)) by (apply bpow_le; lia). rewrite bpow_neg100 in B.
  eapply Rle_trans; [apply Rabs_triang|]. rewrite Rabs_mult.
  assert (C : Rabs e * Rabs x <= / 16777216 * (9 / 8)) by (apply Rmult_le_compat; try apply Rabs_pos; assumption). lra.
Qed.

(** ** Lengths *)
Lemma fsqrt_ok x : 0 <= x -> fsqrt x = Ok (rnd (sqrt x)).
Proof. intros H. unfold fsqrt. destruct (Rlt_dec x 0); [lra|reflexivity]. Qed.
Lemma fdiv_ok x y : y <> 0 -> fdiv x y = Ok (rnd (x / y)).
Proof. intros H. unfold fdiv. destruct (Req_EM_T y 0); [contradiction|reflexivity]. Qed.
Lemma sq_nonneg x : 0 <= x * x.
Proof. nra. Qed.
Lemma rnd_grows a b : 0 <= b -> rnd a <= rnd (rnd a + b).
Proof. intros H. rewrite <- (rnd_again a) at 1. apply rnd_le. lra. Qed.
Lemma rnd_grows' a b : 0 <= a -> rnd b <= rnd (a + rnd b).
Proof. intros H. rewrite Rplus_comm. now apply rnd_grows. Qed.
Lemma fv_dot_above v : 0 <= fv_dot v v /\ rnd (x3 v * x3 v) <= fv_dot v v /\ rnd (y3 v * y3 v) <= fv_dot v v /\ rnd (z3 v * z3 v) <= fv_dot v v.
Proof.
  destruct v as [x y z]. unfold fv_dot, fadd, fmul. cbn [x3 y3 z3].
  pose proof (rnd_nonneg _ (sq_nonneg x)) as A. pose proof (rnd_nonneg _ (sq_nonneg y)) as B. pose proof (rnd_nonneg _ (sq_nonneg z)) as C.
  pose proof (rnd_grows (x * x) (rnd (y * y)) B) as P. pose proof (rnd_grows' (rnd (x * x)) (y * y) A) as Q.
  pose proof (rnd_grows (rnd (x * x) + rnd (y * y)) (rnd (z * z)) C) as P'.
  assert (Q' : rnd (z * z) <= rnd (rnd (rnd (x * x) + rnd (y * y)) + rnd (z * z))) by (apply rnd_grows'; lra).
  lra.
Qed.
Lemma sq_bound x s : 2 * eta <= s -> rnd (x * x) <= s -> x * x <= 76 / 50 * s.
Proof.
  intros H1 H2. pose proof (rnd_err (x * x)) as R. rewrite (Rabs_pos_eq (x * x)) in R by apply sq_nonneg.
  pose proof eta_pos. pose proof (sq_nonneg x) as S. set (xx := x * x) in *. clearbody xx.
  assert (R' : xx - rnd xx <= u * xx + eta) by (unfold Rabs in R; destruct (Rcase_abs _); lra).
  unfold u in *. lra.
Qed.
Lemma sqrt_least : sqrt (2 * eta) = bpow radix2 (-537).
Proof.
  rewrite <- half_least. replace (2 * (/ 2 * bpow radix2 (-1074))) with (bpow radix2 (-1074)) by lra.
  change (-1074)%Z with (-537 + -537)%Z. rewrite bpow_plus. apply sqrt_square, bpow_ge_0.
Qed.
Lemma sqrt_rel s : 2 * eta <= s -> Rabs (rnd (sqrt s) - sqrt s) <= u * sqrt s.
Proof.
  intros H. pose proof (sqrt_pos s). rewrite <- (Rabs_pos_eq (sqrt s)) at 3 by assumption. apply rnd_rel. rewrite Rabs_pos_eq by assumption.
  apply Rle_trans with (bpow radix2 (-537)); [apply bpow_le; lia|]. rewrite <- sqrt_least. now apply sqrt_le_1_alt.
Qed.
Lemma fv_dot_least v : fv_dot v v = 0 \/ 2 * eta <= fv_dot v v.
Proof.
  destruct (rnd_least (fadd (fmul (x3 v) (x3 v)) (fmul (y3 v) (y3 v)) + fmul (z3 v) (z3 v))) as [H|H]; [left; exact H|right].
  rewrite Rabs_pos_eq in H; [exact H|]. apply fv_dot_above.
Qed.
Lemma scaled_le x s l : 0 < l -> 0 <= s -> x * x <= 76 / 50 * s -> Rabs (l - sqrt s) <= u * sqrt s -> Rabs (x / l) <= 1234 / 1000.
Proof.
  intros L S X H. pose proof (sqrt_pos s) as P. pose proof (sqrt_sqrt s S) as Q. set (r := sqrt s) in *. clearbody r.
  assert (r * (1 - u) <= l) by (unfold Rabs in H; destruct (Rcase_abs _); lra).
  unfold Rdiv. rewrite Rabs_mult, (Rabs_pos_eq (/ l)) by (left; now apply Rinv_0_lt_compat).
  apply Rmult_le_reg_r with l; [exact L|]. rewrite Rmult_assoc, Rinv_l by lra. rewrite Rmult_1_r.
  assert (Y : Rabs x <= 1233 / 1000 * r).
  { apply Rsqr_incr_0; try nra; [|apply Rabs_pos]. rewrite <- Rsqr_abs. unfold Rsqr. nra. }
  unfold u in *. lra.
Qed.
Lemma normalize_bounded v : Rabs (x3 v) <= 100000 -> Rabs (y3 v) <= 100000 -> Rabs (z3 v) <= 100000 ->
  exists n, fv_normalize v = Ok n /\ Rabs (x3 n) <= 5 / 4 /\ Rabs (y3 n) <= 5 / 4 /\ Rabs (z3 n) <= 5 / 4.
Proof.
  intros X Y Z. destruct (fv_dot_above v) as (D0 & DX & DY & DZ). unfold fv_normalize, fv_length. rewrite fsqrt_ok by exact D0. cbn [bind].
  destruct (fv_dot_least v) as [D|D].
  - rewrite D, sqrt_0, rnd_0. unfold fdiv. destruct (Req_EM_T 0 0) as [_|N]; [|contradiction]. exists v. split; [reflexivity|].
    assert (T : forall x, rnd (x * x) <= fv_dot v v -> Rabs x <= 5 / 4).
    { intros x H. pose proof (sq_bound x (2 * eta) ltac:(lra) ltac:(pose proof eta_pos; lra)) as B. pose proof eta_small. apply Rsqr_incr_0; try lra; [|apply Rabs_pos].
      rewrite <- Rsqr_abs. unfold Rsqr. lra. }
    repeat split; apply T; assumption.
  - pose proof (sqrt_rel _ D) as R. set (s := fv_dot v v) in *. clearbody s.
    assert (LP : bpow radix2 (-537) <= sqrt s) by (rewrite <- sqrt_least; now apply sqrt_le_1_alt). pose proof (bpow_gt_0 radix2 (-537)) as BP.
    assert (L0 : 0 < rnd (sqrt s)). { set (l := rnd (sqrt s)) in *. clearbody l. unfold u in R. unfold Rabs in R. destruct (Rcase_abs _); lra. }
    rewrite fdiv_ok by lra. eexists. split; [reflexivity|]. set (l := rnd (sqrt s)) in *. clearbody l.
    pose proof (rnd_err (1 / l)) as I. assert (IP : 0 < 1 / l) by (apply Rdiv_lt_0_compat; lra). rewrite (Rabs_pos_eq (1 / l)) in I by lra.
    assert (T : forall x, Rabs x <= 100000 -> rnd (x * x) <= s -> Rabs (fmul x (rnd (1 / l))) <= 5 / 4).
    { intros x HX HR. pose proof (sq_bound x s D HR) as B. pose proof (scaled_le x s l L0 ltac:(lra) B R) as C. unfold fmul.
      assert (P : Rabs (x * rnd (1 / l)) <= 1235 / 1000).
      { replace (x * rnd (1 / l)) with (x / l + x * (rnd (1 / l) - 1 / l)) by (field; lra). eapply Rle_trans; [apply Rabs_triang|].
        rewrite Rabs_mult. assert (Q : Rabs x * Rabs (rnd (1 / l) - 1 / l) <= Rabs x * (u * (1 / l) + eta)) by (apply Rmult_le_compat_l; [apply Rabs_pos|exact I]).
        assert (Q' : Rabs x * (u * (1 / l)) = u * Rabs (x / l)). { unfold Rdiv. rewrite Rabs_mult, (Rabs_pos_eq (/ l)) by (left; now apply Rinv_0_lt_compat). ring. }
        rewrite Rmult_plus_distr_l, Q' in Q. pose proof eta_small as ES. pose proof eta_pos as EP.
        assert (Rabs x * eta <= 100000 * / 1267650600228229401496703205376) by (apply Rmult_le_compat; try lra; apply Rabs_pos).
        unfold u in Q. lra. }
      pose proof (rnd4 _ ltac:(eapply Rle_trans; [exact P|lra])) as W. unfold E in W.
      replace (rnd (x * rnd (1 / l))) with (x * rnd (1 / l) + (rnd (x * rnd (1 / l)) - x * rnd (1 / l))) by ring.
      eapply Rle_trans; [apply Rabs_triang|]. lra. }
    unfold fv_mul. cbn [x3 y3 z3]. repeat split; apply T; assumption.
Qed.

Lemma Rabs_le_iff a b : Rabs a <= b -> - b <= a <= b.
Proof. intros H. unfold Rabs in H. destruct (Rcase_abs a); lra. Qed.
Lemma perturbed a0 a1 a2 a3 b0 b1 b2 b3 e :
  a0 * a0 + a1 * a1 + a2 * a2 + a3 * a3 <= 9 / 8 -> e <= / 1000 ->
  Rabs (b0 - a0) <= e -> Rabs (b1 - a1) <= e -> Rabs (b2 - a2) <= e -> Rabs (b3 - a3) <= e ->
  Rabs ((b0 * b0 + b1 * b1 + b2 * b2 + b3 * b3) - (a0 * a0 + a1 * a1 + a2 * a2 + a3 * a3)) <= 5 * e.
Proof.
  intros N S H0 H1 H2 H3. assert (EP : 0 <= e) by (eapply Rle_trans; [apply Rabs_pos|exact H0]).
  assert (T : forall a b, Rabs (b - a) <= e -> Rabs (b * b - a * a) <= 2 * (e * Rabs a) + e * e).
  { intros a b H. replace (b * b - a * a) with ((b - a) * (2 * a + (b - a))) by ring. rewrite Rabs_mult.
    apply Rle_trans with (e * (2 * Rabs a + e)); [|lra]. apply Rmult_le_compat; try apply Rabs_pos; [exact H|].
    eapply Rle_trans; [apply Rabs_triang|]. rewrite Rabs_mult, (Rabs_pos_eq 2) by lra. lra. }
  apply T in H0, H1, H2, H3.
  assert (Q : forall a, a * a = Rabs a * Rabs a) by (intros a; unfold Rabs; destruct (Rcase_abs a); ring).
  pose proof (Rabs_pos a0) as P0. pose proof (Rabs_pos a1) as P1. pose proof (Rabs_pos a2) as P2. pose proof (Rabs_pos a3) as P3.
  assert (B : Rabs a0 + Rabs a1 + Rabs a2 + Rabs a3 <= 213 / 100).
  { rewrite (Q a0), (Q a1), (Q a2), (Q a3) in N. set (c0 := Rabs a0) in *. set (c1 := Rabs a1) in *. set (c2 := Rabs a2) in *. set (c3 := Rabs a3) in *. clearbody c0 c1 c2 c3.
    clear - N P0 P1 P2 P3. apply Rsqr_incr_0; try lra. unfold Rsqr.
    pose proof (sq_nonneg (c0 - c1)). pose proof (sq_nonneg (c0 - c2)). pose proof (sq_nonneg (c0 - c3)).
    pose proof (sq_nonneg (c1 - c2)). pose proof (sq_nonneg (c1 - c3)). pose proof (sq_nonneg (c2 - c3)). lra. }
  replace (b0 * b0 + b1 * b1 + b2 * b2 + b3 * b3 - (a0 * a0 + a1 * a1 + a2 * a2 + a3 * a3))
    with ((b0 * b0 - a0 * a0) + ((b1 * b1 - a1 * a1) + ((b2 * b2 - a2 * a2) + (b3 * b3 - a3 * a3)))) by ring.
  eapply Rle_trans; [apply Rabs_triang|]. eapply Rle_trans; [apply Rplus_le_compat_l, Rabs_triang|].
  eapply Rle_trans; [apply Rplus_le_compat_l, Rplus_le_compat_l, Rabs_triang|].
  assert (C : e * (Rabs a0 + Rabs a1 + Rabs a2 + Rabs a3) <= e * (213 / 100)) by (apply Rmult_le_compat_l; lra).
  assert (D : e * e <= e * / 1000) by (apply Rmult_le_compat_l; lra). lra.
Qed.

Definition tau2 : R := bpow radix2 (-400).
Lemma eta_tau : 100 * eta <= u * tau2.
Proof.
  unfold eta, tau2. apply Rle_trans with (bpow radix2 7 * bpow radix2 (-1075)).
  - apply Rmult_le_compat_r; [apply bpow_ge_0|]. change (bpow radix2 7) with 128. lra.
  - replace u with (bpow radix2 (-53)) by reflexivity. rewrite <- !bpow_plus. apply bpow_le. lia.
Qed.
(** A sum of rounded terms, none negative, is right to some units. *)
Lemma sum_up a b A B k j S : 0 <= A -> 0 <= B -> Rabs (a - A) <= k -> Rabs (b - B) <= j -> A + B + k + j <= S -> Rabs (rnd (a + b) - (A + B)) <= k + j + u * S + eta.
Proof.
  intros PA PB HA HB HS. pose proof (rnd_err (a + b)) as R. apply Rabs_le_iff in HA, HB.
  assert (X : Rabs (a + b) <= S) by (apply Rabs_le; lra).
  assert (Y : u * Rabs (a + b) <= u * S) by (apply Rmult_le_compat_l; [unfold u; lra|exact X]).
  apply Rabs_le_iff in R. apply Rabs_le. lra.
Qed.
Lemma sq_rnd x : Rabs (rnd (x * x) - x * x) <= u * (x * x) + eta.
Proof. pose proof (rnd_err (x * x)) as R. now rewrite (Rabs_pos_eq (x * x)) in R by apply sq_nonneg. Qed.
Lemma fv_dot_rel v : tau2 <= v_dot v v -> Rabs (fv_dot v v - v_dot v v) <= 8 * u * v_dot v v.
Proof.
  destruct v as [x y z]. unfold fv_dot, v_dot, fadd, fmul. cbn [x3 y3 z3]. intros T.
  pose proof eta_tau as ET. pose proof eta_pos as EP. set (S := x * x + y * y + z * z) in *.
  assert (ES : 100 * eta <= u * S) by (eapply Rle_trans; [exact ET|]; apply Rmult_le_compat_l; [unfold u; lra|exact T]).
  pose proof (sq_nonneg x) as PX. pose proof (sq_nonneg y) as PY. pose proof (sq_nonneg z) as PZ.
  pose proof (sq_rnd x) as HX. pose proof (sq_rnd y) as HY. pose proof (sq_rnd z) as HZ.
  assert (UX : u * (x * x) <= S /\ u * (y * y) <= S /\ u * (z * z) <= S /\ u * S <= S /\ u * (x * x) + u * (y * y) + u * (z * z) = u * S).
  { subst S. unfold u. repeat split; lra. }
  pose proof (sum_up _ _ _ _ _ _ (2 * S) PX PY HX HY ltac:(subst S; unfold u in *; lra)) as HXY.
  pose proof (sum_up _ _ _ _ _ _ (2 * S) (Rplus_le_le_0_compat _ _ PX PY) PZ HXY HZ ltac:(subst S; unfold u in *; lra)) as H.
  subst S. unfold u in *. lra.
Qed.
Lemma fq_dot_rel q : tau2 <= q_dot q q -> Rabs (fq_dot q q - q_dot q q) <= 12 * u * q_dot q q.
Proof.
  destruct q as [x y z w]. unfold fq_dot, q_dot, fadd, fmul. cbn [x4 y4 z4 w4]. intros T.
  pose proof eta_tau as ET. pose proof eta_pos as EP. set (S := x * x + y * y + z * z + w * w) in *.
  assert (ES : 100 * eta <= u * S) by (eapply Rle_trans; [exact ET|]; apply Rmult_le_compat_l; [unfold u; lra|exact T]).
  pose proof (sq_nonneg x) as PX. pose proof (sq_nonneg y) as PY. pose proof (sq_nonneg z) as PZ. pose proof (sq_nonneg w) as PW.
  pose proof (sq_rnd x) as HX. pose proof (sq_rnd y) as HY. pose proof (sq_rnd z) as HZ. pose proof (sq_rnd w) as HW.
  pose proof (sum_up _ _ _ _ _ _ (2 * S) PX PY HX HY ltac:(subst S; unfold u in *; lra)) as HXY.
  pose proof (sum_up _ _ _ _ _ _ (2 * S) (Rplus_le_le_0_compat _ _ PX PY) PZ HXY HZ ltac:(subst S; unfold u in *; lra)) as HXYZ.
  pose proof (sum_up _ _ _ _ _ _ (2 * S) (Rplus_le_le_0_compat _ _ (Rplus_le_le_0_compat _ _ PX PY) PZ) PW HXYZ HW ltac:(subst S; unfold u in *; lra)) as H.
  subst S. unfold u in *. lra.
Qed.
(** The computed inverse of the computed length. *)
Lemma inverse_length S s : tau2 <= S -> S <= 1000000000000 -> Rabs (s - S) <= 12 * u * S ->
  let l := rnd (sqrt s) in 0 < l /\ Rabs (S * (rnd (1 / l) * rnd (1 / l)) - 1) <= 20 * u.
Proof.
  intros T U H. cbv zeta. assert (S0 : 0 < S) by (eapply Rlt_le_trans; [apply bpow_gt_0|exact T]). apply Rabs_le_iff in H.
  assert (s0 : 0 < s) by (unfold u in *; lra).
  assert (s1 : 2 * eta <= s). { pose proof eta_tau as X. assert (u * tau2 <= u * S) by (apply Rmult_le_compat_l; [unfold u; lra|exact T]). pose proof eta_pos. unfold u in *. lra. }
  pose proof (sqrt_rel s s1) as R. pose proof (sqrt_lt_R0 s s0) as r0. pose proof (sqrt_sqrt s ltac:(lra)) as rr. set (r := sqrt s) in *. clearbody r.
  apply Rabs_le_iff in R. set (l := rnd r) in *. clearbody l. assert (l0 : 0 < l) by (unfold u in *; lra). split; [exact l0|].
  assert (I : Rabs (rnd (1 / l) - 1 / l) <= u * (1 / l)).
  { assert (P : 0 < 1 / l) by (apply Rdiv_lt_0_compat; lra). rewrite <- (Rabs_pos_eq (1 / l)) at 3 by lra. apply rnd_rel. rewrite Rabs_pos_eq by lra.
    apply Rle_trans with (bpow radix2 (-100)); [apply bpow_le; lia|]. rewrite bpow_neg100.
    assert (r <= 2000000). { apply Rsqr_incr_0; try lra. unfold Rsqr. unfold u in *. lra. }
    unfold Rdiv. rewrite Rmult_1_l. apply Rinv_le_contravar; [exact l0|]. unfold u in *. lra. }
  apply Rabs_le_iff in I. set (i := rnd (1 / l)) in *. clearbody i.
  set (a := i * l). assert (A : 1 - u <= a <= 1 + u).
  { unfold a. assert (X : 1 / l * l = 1) by (field; lra). split.
    - apply Rle_trans with ((1 / l - u * (1 / l)) * l); [|apply Rmult_le_compat_r; lra]. rewrite Rmult_minus_distr_r, Rmult_assoc, X. lra.
    - apply Rle_trans with ((1 / l + u * (1 / l)) * l); [apply Rmult_le_compat_r; lra|]. rewrite Rmult_plus_distr_r, Rmult_assoc, X. lra. }
  assert (L2 : s * (1 - 3 * u) <= l * l <= s * (1 + 3 * u)).
  { rewrite <- rr. set (w := r * r). assert (0 < w) by (unfold w; nra). split.
    - apply Rle_trans with ((r * (1 - u)) * (r * (1 - u))); [|apply Rmult_le_compat; unfold u in *; lra].
      replace (r * (1 - u) * (r * (1 - u))) with (w * ((1 - u) * (1 - u))) by (unfold w; ring). apply Rmult_le_compat_l; [lra|]. unfold u. lra.
    - apply Rle_trans with ((r * (1 + u)) * (r * (1 + u))); [apply Rmult_le_compat; unfold u in *; lra|].
      replace (r * (1 + u) * (r * (1 + u))) with (w * ((1 + u) * (1 + u))) by (unfold w; ring). apply Rmult_le_compat_l; [lra|]. unfold u. lra. }
  set (X := S * (i * i)). assert (XP : 0 <= X) by (unfold X; pose proof (sq_nonneg i); nra).
  assert (XL : X * (l * l) = S * (a * a)) by (unfold X, a; ring).
  assert (AA : 1 - 3 * u <= a * a <= 1 + 3 * u). { unfold u in *. nra. }
  assert (LS : S * (1 - 15 * u) <= l * l <= S * (1 + 16 * u)) by (unfold u in *; lra).
  assert (M1 : X * (S * (1 - 15 * u)) <= S * (a * a)) by (rewrite <- XL; apply Rmult_le_compat_l; lra).
  assert (M2 : S * (a * a) <= X * (S * (1 + 16 * u))) by (rewrite <- XL; apply Rmult_le_compat_l; lra).
  assert (N1 : X * (1 - 15 * u) <= a * a) by (apply Rmult_le_reg_l with S; [exact S0|]; lra).
  assert (N2 : a * a <= X * (1 + 16 * u)) by (apply Rmult_le_reg_l with S; [exact S0|]; lra).
  apply Rabs_le. unfold u in *. lra.
Qed.
Lemma part_le x S i : x * x <= S -> Rabs (S * (i * i) - 1) <= 20 * u -> Rabs (x * i) <= 1001 / 1000.
Proof.
  intros H K. apply Rabs_le_iff in K. apply Rsqr_incr_0; try lra; [|apply Rabs_pos]. rewrite <- Rsqr_abs. unfold Rsqr.
  replace (x * i * (x * i)) with (x * x * (i * i)) by ring. pose proof (sq_nonneg i).
  apply Rle_trans with (S * (i * i)); [apply Rmult_le_compat_r; lra|]. unfold u in *. lra.
Qed.
Lemma normalize_unit v : tau2 <= v_dot v v -> v_dot v v <= 1000000000000 ->
  exists n, fv_normalize v = Ok n /\ Rabs (v_dot n n - 1) <= 8 * E.
Proof.
  intros T U. destruct (fv_dot_above v) as (D0 & _). unfold fv_normalize, fv_length. rewrite fsqrt_ok by exact D0. cbn [bind].
  pose proof (fv_dot_rel v T) as H. destruct (inverse_length (v_dot v v) (fv_dot v v) T U) as (L & I); [unfold u in *; pose proof (bpow_gt_0 radix2 (-400)); unfold tau2 in T; lra|].
  rewrite fdiv_ok by lra. eexists. split; [reflexivity|]. set (i := rnd (1 / rnd (sqrt (fv_dot v v)))) in *. clearbody i.
  destruct v as [x y z]. unfold v_dot, fv_mul, fmul in *. cbn [x3 y3 z3] in *.
  pose proof (sq_nonneg x). pose proof (sq_nonneg y). pose proof (sq_nonneg z).
  assert (K : forall a, a * a <= x * x + y * y + z * z -> Rabs (rnd (a * i) - a * i) <= E).
  { intros a Ha. apply rnd4. eapply Rle_trans; [exact (part_le _ _ _ Ha I)|]. lra. }
  assert (Q : x * i * (x * i) + y * i * (y * i) + z * i * (z * i) = (x * x + y * y + z * z) * (i * i)) by ring.
  apply Rabs_le_iff in I.
  pose proof (perturbed (x * i) (y * i) (z * i) 0 (rnd (x * i)) (rnd (y * i)) (rnd (z * i)) 0 E) as P.
  assert (P' := P ltac:(unfold u in *; lra) ltac:(unfold E; lra) ltac:(apply K; lra) ltac:(apply K; lra) ltac:(apply K; lra) ltac:(rewrite Rminus_0_r, Rabs_R0; unfold E; lra)).
  apply Rabs_le_iff in P'. apply Rabs_le. pose proof u_E. lra.
Qed.
Lemma q_normalize_near q : tau2 <= q_dot q q -> q_dot q q <= 1000000000000 ->
  exists n, fq_normalize q = Ok n /\ Rabs (q_dot n n - 1) <= 8 * E.
Proof.
  intros T U. assert (D0 : 0 <= fq_dot q q).
  { pose proof (fq_dot_rel q T) as H. apply Rabs_le_iff in H. pose proof (bpow_gt_0 radix2 (-400)). unfold tau2 in T. unfold u in H. lra. }
  unfold fq_normalize, fq_length. rewrite fsqrt_ok by exact D0. cbn [bind].
  pose proof (fq_dot_rel q T) as H. destruct (inverse_length (q_dot q q) (fq_dot q q) T U H) as (L & I).
  rewrite fdiv_ok by lra. eexists. split; [reflexivity|]. set (i := rnd (1 / rnd (sqrt (fq_dot q q)))) in *. clearbody i.
  destruct q as [x y z w]. unfold q_dot, fq_mul, fmul in *. cbn [x4 y4 z4 w4] in *.
  pose proof (sq_nonneg x). pose proof (sq_nonneg y). pose proof (sq_nonneg z). pose proof (sq_nonneg w).
  assert (K : forall a, a * a <= x * x + y * y + z * z + w * w -> Rabs (rnd (a * i) - a * i) <= E).
  { intros a Ha. apply rnd4. eapply Rle_trans; [exact (part_le _ _ _ Ha I)|]. lra. }
  assert (Q : x * i * (x * i) + y * i * (y * i) + z * i * (z * i) + w * i * (w * i) = (x * x + y * y + z * z + w * w) * (i * i)) by ring.
  apply Rabs_le_iff in I.
  pose proof (perturbed (x * i) (y * i) (z * i) (w * i) (rnd (x * i)) (rnd (y * i)) (rnd (z * i)) (rnd (w * i)) E) as P.
  assert (P' := P ltac:(unfold u in *; lra) ltac:(unfold E; lra) ltac:(apply K; lra) ltac:(apply K; lra) ltac:(apply K; lra) ltac:(apply K; lra)).
  apply Rabs_le_iff in P'. apply Rabs_le. pose proof u_E. lra.
Qed.

(** ** Products of quaternions *)
Lemma rnd7 x : Rabs x <= 7 -> Rabs (rnd x - x) <= E.
Proof. intros H. pose proof (rnd_abs 7 x H). pose proof eta_small. unfold u, E in *. lra. Qed.
Definition approx (k x X : R) : Prop := Rabs (x - X) <= k.
Lemma approx_range k x X : approx k x X -> X - k <= x <= X + k.
Proof. intros H. apply Rabs_le_iff in H. lra. Qed.
Lemma range_approx k x X : X - k <= x <= X + k -> approx k x X.
Proof. intros H. apply Rabs_le. lra. Qed.
Lemma approx_rnd k x X : approx k x X -> Rabs X <= 6 -> k <= 1 -> approx (k + E) (rnd x) X.
Proof.
  intros H M K. apply approx_range in H. apply Rabs_le_iff in M. pose proof (rnd7 x ltac:(apply Rabs_le; lra)) as R. apply Rabs_le_iff in R. apply range_approx. lra.
Qed.
Lemma fadd_ok a b A B k j : approx k a A -> approx j b B -> Rabs (A + B) <= 6 -> k + j <= 1 -> approx (k + j + E) (fadd a b) (A + B).
Proof. intros H1 H2 M K. apply approx_rnd; try assumption. apply approx_range in H1, H2. apply range_approx. lra. Qed.
Lemma fsub_ok a b A B k j : approx k a A -> approx j b B -> Rabs (A - B) <= 6 -> k + j <= 1 -> approx (k + j + E) (fsub a b) (A - B).
Proof. intros H1 H2 M K. apply approx_rnd; try assumption. apply approx_range in H1, H2. apply range_approx. lra. Qed.
Lemma fmul_ok a b : Rabs (a * b) <= 6 -> approx E (fmul a b) (a * b).
Proof. intros H. apply rnd7. lra. Qed.
Lemma approx_le k j x X : approx k x X -> k <= j -> approx j x X.
Proof. unfold approx. lra. Qed.
Lemma mul_le a b m : Rabs a <= m -> Rabs b <= m -> Rabs (a * b) <= m * m.
Proof. intros H K. rewrite Rabs_mult. apply Rmult_le_compat; try apply Rabs_pos; assumption. Qed.
Lemma sum_le a b m n : Rabs a <= m -> Rabs b <= n -> Rabs (a + b) <= m + n.
Proof. intros H K. eapply Rle_trans; [apply Rabs_triang|]. lra. Qed.
Lemma diff_le a b m n : Rabs a <= m -> Rabs b <= n -> Rabs (a - b) <= m + n.
Proof. intros H K. unfold Rminus. apply sum_le; [exact H|]. now rewrite Rabs_Ropp. Qed.
Definition near_q (k : R) (p q : vec4) : Prop := approx k (x4 p) (x4 q) /\ approx k (y4 p) (y4 q) /\ approx k (z4 p) (z4 q) /\ approx k (w4 p) (w4 q).

Lemma comps_le q m : q_dot q q <= m * m -> 0 <= m -> Rabs (x4 q) <= m /\ Rabs (y4 q) <= m /\ Rabs (z4 q) <= m /\ Rabs (w4 q) <= m.
Proof.
  destruct q as [x y z w]. unfold q_dot. cbn [x4 y4 z4 w4]. intros H M.
  pose proof (sq_nonneg x). pose proof (sq_nonneg y). pose proof (sq_nonneg z). pose proof (sq_nonneg w).
  repeat split; (apply Rsqr_incr_0; [rewrite <- Rsqr_abs; unfold Rsqr; lra|apply Rabs_pos|exact M]).
Qed.
Lemma fq_add_near p q : (forall c, In c [x4 p; y4 p; z4 p; w4 p; x4 q; y4 q; z4 q; w4 q] -> Rabs c <= 103 / 100) -> near_q (7 * E) (fq_add p q) (q_add p q).
Proof.
  destruct p as [a b c d], q as [a' b' c' d']. cbn [x4 y4 z4 w4]. intros H.
  assert (Ha := H a ltac:(cbn; tauto)). assert (Hb := H b ltac:(cbn; tauto)). assert (Hc := H c ltac:(cbn; tauto)). assert (Hd := H d ltac:(cbn; tauto)).
  assert (Ha' := H a' ltac:(cbn; tauto)). assert (Hb' := H b' ltac:(cbn; tauto)). assert (Hc' := H c' ltac:(cbn; tauto)). assert (Hd' := H d' ltac:(cbn; tauto)). clear H.
  assert (M : forall s t, Rabs s <= 103 / 100 -> Rabs t <= 103 / 100 -> Rabs (s * t) <= 107 / 100).
  { intros s t Hs Ht. eapply Rle_trans; [apply (mul_le s t (103 / 100)); assumption|]. lra. }
  assert (F : forall s t, Rabs s <= 103 / 100 -> Rabs t <= 103 / 100 -> approx E (fmul s t) (s * t)).
  { intros s t Hs Ht. apply fmul_ok. eapply Rle_trans; [apply M; assumption|]. lra. }
  assert (EE : 0 < E /\ E <= / 1000) by (unfold E; lra). destruct EE as [E0 E1].
  unfold near_q, fq_add, q_add, append, fv_add, fv_mul, fv_cross, fv_dot, v_add, v_mul, v_cross, v_dot, vec. cbn [x3 y3 z3 x4 y4 z4 w4].
  assert (T : forall s t p q v w x y, Rabs s <= 103 / 100 -> Rabs t <= 103 / 100 -> Rabs p <= 103 / 100 -> Rabs q <= 103 / 100 -> Rabs v <= 103 / 100 -> Rabs w <= 103 / 100 -> Rabs x <= 103 / 100 -> Rabs y <= 103 / 100 ->
    approx (7 * E) (fadd (fsub (fmul s t) (fmul p q)) (fadd (fmul v w) (fmul x y))) (s * t - p * q + (v * w + x * y))).
  { intros. assert (M1 := M s t ltac:(assumption) ltac:(assumption)). assert (M2 := M p q ltac:(assumption) ltac:(assumption)).
    assert (M3 := M v w ltac:(assumption) ltac:(assumption)). assert (M4 := M x y ltac:(assumption) ltac:(assumption)).
    assert (D := diff_le _ _ _ _ M1 M2). assert (S := sum_le _ _ _ _ M3 M4). assert (A := sum_le _ _ _ _ D S).
    assert (X1 := fsub_ok _ _ _ _ _ _ (F s t ltac:(assumption) ltac:(assumption)) (F p q ltac:(assumption) ltac:(assumption)) ltac:(lra) ltac:(lra)).
    assert (X2 := fadd_ok _ _ _ _ _ _ (F v w ltac:(assumption) ltac:(assumption)) (F x y ltac:(assumption) ltac:(assumption)) ltac:(lra) ltac:(lra)).
    assert (X3 := fadd_ok _ _ _ _ _ _ X1 X2 ltac:(lra) ltac:(lra)). eapply approx_le; [exact X3|lra]. }
  repeat split; try (apply T; assumption).
  assert (M1 := M a a' Ha Ha'). assert (M2 := M b b' Hb Hb'). assert (M3 := M c c' Hc Hc'). assert (M4 := M d d' Hd Hd').
  assert (S1 := sum_le _ _ _ _ M1 M2). assert (S2 := sum_le _ _ _ _ S1 M3). assert (D := diff_le _ _ _ _ M4 S2).
  assert (X1 := fadd_ok _ _ _ _ _ _ (F a a' Ha Ha') (F b b' Hb Hb') ltac:(lra) ltac:(lra)).
  assert (X2 := fadd_ok _ _ _ _ _ _ X1 (F c c' Hc Hc') ltac:(lra) ltac:(lra)).
  assert (X3 := fsub_ok _ _ _ _ _ _ (F d d' Hd Hd') X2 ltac:(lra) ltac:(lra)). eapply approx_le; [exact X3|lra].
Qed.
Lemma near_norm k p q : near_q k p q -> q_dot q q <= 9 / 8 -> k <= / 1000 -> Rabs (q_dot p p - q_dot q q) <= 5 * k.
Proof. intros (H0 & H1 & H2 & H3) N K. apply perturbed; assumption. Qed.
Lemma fq_add_norm p q : q_dot p p <= 21 / 20 -> q_dot q q <= 21 / 20 ->
  near_q (7 * E) (fq_add p q) (q_add p q) /\ Rabs (q_dot (fq_add p q) (fq_add p q) - q_dot p p * q_dot q q) <= 35 * E.
Proof.
  intros P Q. destruct (comps_le p (103 / 100) ltac:(lra) ltac:(lra)) as (P0 & P1 & P2 & P3). destruct (comps_le q (103 / 100) ltac:(lra) ltac:(lra)) as (Q0 & Q1 & Q2 & Q3).
  assert (N : near_q (7 * E) (fq_add p q) (q_add p q)).
  { apply fq_add_near. intros c I. cbn [In] in I. repeat destruct I as [<-|I]; try assumption; contradiction. }
  split; [exact N|].
  assert (PP : 0 <= q_dot p p) by (unfold q_dot; nra). assert (QP : 0 <= q_dot q q) by (unfold q_dot; nra).
  rewrite <- q_add_norm. replace (35 * E) with (5 * (7 * E)) by ring. apply near_norm; [exact N| |unfold E; lra].
  rewrite q_add_norm. apply Rle_trans with (21 / 20 * (21 / 20)); [apply Rmult_le_compat; assumption|lra].
Qed.

(** ** The matrix *)
Definition unit_q (q : vec4) : vec4 := q_mul q (/ sqrt (q_dot q q)).
Lemma unit_q_unit q : 0 < q_dot q q -> q_dot (unit_q q) (unit_q q) = 1.
Proof.
  intros H. unfold unit_q. set (s := sqrt (q_dot q q)). assert (S : s * s = q_dot q q) by (apply sqrt_sqrt; lra). assert (S0 : 0 < s) by (apply sqrt_lt_R0; exact H).
  replace (q_dot (q_mul q (/ s)) (q_mul q (/ s))) with (q_dot q q * (/ s * / s)) by (unfold q_dot, q_mul; cbn [x4 y4 z4 w4]; ring).
  rewrite <- S. field. lra.
Qed.
Lemma matrix_near q e : e <= / 1000 -> Rabs (q_dot q q - 1) <= e -> near (10 * e + 10 * E + 9 / 100000000) (fq_rotmatrix q) (q_rotmatrix (unit_q q)).
Proof.
  intros K H. assert (e0 : 0 <= e) by (eapply Rle_trans; [apply Rabs_pos|exact H]). apply Rabs_le_iff in H.
  destruct (comps_le q (1001 / 1000) ltac:(lra) ltac:(lra)) as (Q0 & Q1 & Q2 & Q3).
  assert (N0 : 0 < q_dot q q) by lra. set (N := q_dot q q) in *.
  set (i := / sqrt N). assert (I : i * i * N = 1).
  { unfold i. assert (0 < sqrt N) by (now apply sqrt_lt_R0). rewrite <- (sqrt_sqrt N) at 3 by lra. field. lra. }
  assert (J : Rabs (i * i - 1) <= 101 / 100 * e).
  { replace (i * i - 1) with (i * i * (1 - N)) by (rewrite Rmult_minus_distr_l, I; ring). pose proof (sq_nonneg i) as II.
    rewrite Rabs_mult, Rabs_pos_eq by exact II. assert (L : i * i <= 101 / 100) by nra. apply Rmult_le_compat; try lra; try apply Rabs_pos. apply Rabs_le. lra. }
  assert (EE : 0 < E /\ E <= / 1000) by (unfold E; lra). destruct EE as [E0 E1].
  assert (M : forall s t, Rabs s <= 1001 / 1000 -> Rabs t <= 1001 / 1000 -> Rabs (s * t) <= 1003 / 1000).
  { intros s t Hs Ht. eapply Rle_trans; [apply (mul_le s t (1001 / 1000)); assumption|]. lra. }
  assert (F : forall s t, Rabs s <= 1001 / 1000 -> Rabs t <= 1001 / 1000 -> approx E (fmul s t) (s * t)).
  { intros s t Hs Ht. apply fmul_ok. eapply Rle_trans; [apply M; assumption|]. lra. }
  assert (S32 : forall x X, approx (8 * E) x X -> Rabs X <= 1 -> approx (8 * E + 9 / 100000000) (rnd32 x) X).
  { intros x X HX HM. apply approx_range in HX. apply Rabs_le_iff in HM. pose proof (rnd32_err x ltac:(apply Rabs_le; unfold E in *; lra)) as R. apply Rabs_le_iff in R. apply range_approx. lra. }
  (* twice a sum or a difference *)
  assert (TW : forall s S, approx (3 * E) s S -> Rabs S <= 21 / 10 -> approx (7 * E) (fmul 2 s) (2 * S)).
  { intros s S HS HM. apply approx_range in HS. apply Rabs_le_iff in HM. unfold fmul. replace (7 * E) with (6 * E + E) by ring. apply approx_rnd.
    - apply range_approx. lra. - apply Rabs_le. lra. - lra. }
  assert (X : forall a b c d, Rabs a <= 1001 / 1000 -> Rabs b <= 1001 / 1000 -> Rabs c <= 1001 / 1000 -> Rabs d <= 1001 / 1000 ->
    approx (7 * E) (fmul 2 (fadd (fmul a b) (fmul c d))) (2 * (a * b + c * d)) /\ approx (7 * E) (fmul 2 (fsub (fmul a b) (fmul c d))) (2 * (a * b - c * d))).
  { intros a b c d Ha Hb Hc Hd. assert (M1 := M a b Ha Hb). assert (M2 := M c d Hc Hd). assert (S1 := sum_le _ _ _ _ M1 M2). assert (D1 := diff_le _ _ _ _ M1 M2).
    split; (apply TW; [|lra]); eapply approx_le.
    - apply fadd_ok; [apply F|apply F| |]; try assumption; lra.
    - lra.
    - apply fsub_ok; [apply F|apply F| |]; try assumption; lra.
    - lra. }
  (* entries of the exact matrix of the quaternion are near those of the unit one *)
  destruct q as [a b c d]. unfold q_dot in N. cbn [x4 y4 z4 w4] in *.
  assert (SC : forall s, Rabs s <= 1001 / 1000 -> Rabs (2 * s - 2 * (s * (i * i))) <= 21 / 10 * e).
  { intros s Hs. replace (2 * s - 2 * (s * (i * i))) with (2 * s * (1 - i * i)) by ring. rewrite Rabs_mult, (Rabs_minus_sym 1). rewrite Rabs_mult, (Rabs_pos_eq 2) by lra.
    apply Rle_trans with (2 * (1001 / 1000) * (101 / 100 * e)); [apply Rmult_le_compat; try apply Rabs_pos; try lra; apply Rmult_le_pos; [lra|apply Rabs_pos]|lra]. }
  pose proof (sq_nonneg a) as Pa. pose proof (sq_nonneg b) as Pb. pose proof (sq_nonneg c) as Pc. pose proof (sq_nonneg d) as Pd.
  assert (NN : a * a + b * b + c * c + d * d = N) by reflexivity. clearbody N.
  assert (HALF : forall s t, s * s + t * t <= N -> Rabs (s * t) <= 1001 / 2000).
  { intros s t L. apply Rabs_le. pose proof (sq_nonneg (s + t)). pose proof (sq_nonneg (s - t)). lra. }
  assert (TWO : forall s t v w, s * s + t * t + v * v + w * w = N -> Rabs (s * t + v * w) <= 1001 / 2000 /\ Rabs (s * t - v * w) <= 1001 / 2000).
  { intros s t v w L. split; apply Rabs_le; pose proof (sq_nonneg (s + t)); pose proof (sq_nonneg (s - t)); pose proof (sq_nonneg (v + w)); pose proof (sq_nonneg (v - w)); lra. }
  assert (OFF : forall s t v w, s * s + t * t + v * v + w * w = N -> Rabs s <= 1001 / 1000 -> Rabs t <= 1001 / 1000 -> Rabs v <= 1001 / 1000 -> Rabs w <= 1001 / 1000 ->
    Rabs (rnd32 (fmul 2 (fadd (fmul s t) (fmul v w))) - 2 * (s * i * (t * i) + v * i * (w * i))) <= 10 * e + 10 * E + 9 / 100000000 /\
    Rabs (rnd32 (fmul 2 (fsub (fmul s t) (fmul v w))) - 2 * (s * i * (t * i) - v * i * (w * i))) <= 10 * e + 10 * E + 9 / 100000000).
  { intros s t v w L Hs Ht Hv Hw. destruct (X s t v w Hs Ht Hv Hw) as [X1 X2]. destruct (TWO s t v w L) as [W1 W2].
    replace (2 * (s * i * (t * i) + v * i * (w * i))) with (2 * ((s * t + v * w) * (i * i))) by ring.
    replace (2 * (s * i * (t * i) - v * i * (w * i))) with (2 * ((s * t - v * w) * (i * i))) by ring.
    pose proof (SC (s * t + v * w) ltac:(lra)) as SC1. pose proof (SC (s * t - v * w) ltac:(lra)) as SC2. apply Rabs_le_iff in SC1, SC2.
    assert (R1 : approx (8 * E + 9 / 100000000 + e) (rnd32 (fmul 2 (fadd (fmul s t) (fmul v w)))) (2 * (s * t + v * w))).
    { apply Rabs_le_iff in W1. apply approx_range in X1. pose proof (rnd32_err (fmul 2 (fadd (fmul s t) (fmul v w))) ltac:(apply Rabs_le; unfold E in *; lra)) as R. apply Rabs_le_iff in R. apply range_approx. lra. }
    assert (R2 : approx (8 * E + 9 / 100000000 + e) (rnd32 (fmul 2 (fsub (fmul s t) (fmul v w)))) (2 * (s * t - v * w))).
    { apply Rabs_le_iff in W2. apply approx_range in X2. pose proof (rnd32_err (fmul 2 (fsub (fmul s t) (fmul v w))) ltac:(apply Rabs_le; unfold E in *; lra)) as R. apply Rabs_le_iff in R. apply range_approx. lra. }
    apply approx_range in R1, R2. split; apply Rabs_le; lra. }
  assert (DIAG : forall s t, s * s + t * t <= N -> Rabs s <= 1001 / 1000 -> Rabs t <= 1001 / 1000 ->
    Rabs (rnd32 (fsub 1 (fmul 2 (fadd (fmul s s) (fmul t t)))) - (1 - 2 * (s * i * (s * i) + t * i * (t * i)))) <= 10 * e + 10 * E + 9 / 100000000).
  { intros s t L Hs Ht. destruct (X s s t t Hs Hs Ht Ht) as [X1 _].
    replace (1 - 2 * (s * i * (s * i) + t * i * (t * i))) with (1 - 2 * ((s * s + t * t) * (i * i))) by ring.
    pose proof (sq_nonneg s) as Ps. pose proof (sq_nonneg t) as Pt.
    pose proof (SC (s * s + t * t) ltac:(apply Rabs_le; lra)) as SC1. apply Rabs_le_iff in SC1.
    assert (Y : approx (8 * E) (fsub 1 (fmul 2 (fadd (fmul s s) (fmul t t)))) (1 - 2 * (s * s + t * t))).
    { eapply approx_le; [apply (fsub_ok 1 _ 1 _ 0 (7 * E)); [unfold approx; rewrite Rminus_diag_eq, Rabs_R0 by reflexivity; lra|exact X1|apply Rabs_le; lra|lra]|lra]. }
    apply approx_range in Y. pose proof (rnd32_err (fsub 1 (fmul 2 (fadd (fmul s s) (fmul t t)))) ltac:(apply Rabs_le; unfold E in *; lra)) as R. apply Rabs_le_iff in R. apply Rabs_le. lra. }
  assert (ZERO : forall x, Rabs (x - x) <= 10 * e + 10 * E + 9 / 100000000) by (intros x; rewrite Rminus_diag_eq, Rabs_R0 by reflexivity; lra).
  unfold near, near4, fq_rotmatrix, q_rotmatrix, unit_q, q_mul. cbn [x4 y4 z4 w4 row0 row1 row2 row3]. unfold q_dot. cbn [x4 y4 z4 w4]. rewrite NN. fold i.
  repeat split; try apply ZERO; try (apply DIAG; lra); try (apply OFF; lra).
Qed.
