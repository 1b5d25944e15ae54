(** Bounds on the rounding of matrices. *)
From Coq Require Import Reals Lra Psatz List Permutation ZArith.
From Flocq Require Import Core Relative.
From Verif Require Import Base Glm GlmSpec Trackball TrackballSpec Drift DriftSpec DriftRound DriftFacts DriftFollow Viewport Picture PictureSpec PictureFacts Single SingleSpec SingleFacts Optics OpticsSpec.
Import ListNotations.
Local Open Scope R_scope.

(** ** Relative errors, in units of 2^-53 *)
Definition rel (k x y : R) : Prop := exists e, Rabs e <= k * u /\ y = x * (1 + e).
Lemma rel_refl x : rel 0 x x.
Proof. exists 0. rewrite Rabs_R0. split; [lra|ring]. Qed.
Lemma rel_le a b x y : a <= b -> rel a x y -> rel b x y.
Proof. intros H (e & E & ->). exists e. split; [|reflexivity]. unfold u in *. lra. Qed.
Lemma prod_small a b e f : 0 <= a <= 50000 -> 0 <= b <= 50000 -> Rabs e <= a * u -> Rabs f <= b * u -> Rabs (e * f) <= u.
Proof.
  intros A B E F. rewrite Rabs_mult. apply Rle_trans with ((50000 * u) * (50000 * u)); [|unfold u; lra].
  apply Rmult_le_compat; try apply Rabs_pos; unfold u in *; lra.
Qed.
Lemma rel_mul a b x y x' y' : 0 <= a <= 50000 -> 0 <= b <= 50000 -> rel a x x' -> rel b y y' -> rel (a + b + 1) (x * y) (x' * y').
Proof.
  intros A B (e & E & ->) (f & F & ->). exists (e + f + e * f). split; [|ring]. pose proof (prod_small a b e f A B E F).
  eapply Rle_trans; [apply Rabs_triang|]. pose proof (Rabs_triang e f). lra.
Qed.
Lemma rel_trans a b x y z : 0 <= a <= 50000 -> 0 <= b <= 50000 -> rel a x y -> rel b y z -> rel (a + b + 1) x z.
Proof.
  intros A B (e & E & ->) (f & F & ->). exists (e + f + e * f). split; [|ring]. pose proof (prod_small a b e f A B E F).
  eapply Rle_trans; [apply Rabs_triang|]. pose proof (Rabs_triang e f). lra.
Qed.
Lemma rel_half k x y : 0 <= k <= 50000 -> rel k x y -> / 2 * Rabs x <= Rabs y <= 2 * Rabs x.
Proof.
  intros K (e & E & ->). rewrite Rabs_mult. assert (H : Rabs e <= / 2) by (unfold u in *; lra). apply Rabs_le_iff in H.
  rewrite (Rabs_pos_eq (1 + e)) by lra. pose proof (Rabs_pos x). split; nra.
Qed.
Lemma rel_nonzero k x y : 0 <= k <= 50000 -> rel k x y -> x <> 0 -> y <> 0.
Proof. intros K H N E. pose proof (rel_half k x y K H) as [A _]. subst y. rewrite Rabs_R0 in A. apply Rabs_pos_lt in N. lra. Qed.
Lemma rel_inv b y y' : 0 <= b <= 50000 -> y <> 0 -> rel b y y' -> rel (b + 1) (/ y) (/ y').
Proof.
  intros B N (f & F & ->). assert (H : Rabs f <= / 2) by (unfold u in *; lra). pose proof H as H'. apply Rabs_le_iff in H.
  exists (- f * / (1 + f)). split.
  - rewrite Rabs_mult, Rabs_Ropp, Rabs_inv, (Rabs_pos_eq (1 + f)) by lra.
    apply Rmult_le_reg_r with (1 + f); [lra|]. rewrite Rmult_assoc, Rinv_l, Rmult_1_r by lra.
    pose proof (prod_small b b f f B B F F) as P. rewrite Rabs_mult in P. pose proof (Rabs_pos f). pose proof (Rle_abs (- f)) as Q. rewrite Rabs_Ropp in Q.
    assert (U : 0 < u) by (unfold u; lra). assert (V : (b + 1) * u * (1 - Rabs f) <= (b + 1) * u * (1 + f)) by (apply Rmult_le_compat_l; [apply Rmult_le_pos; lra|lra]).
    assert (W : Rabs f * (b + 1) * u <= u * (/ 2)).
    { apply Rle_trans with ((b * u) * (b + 1) * u); [repeat apply Rmult_le_compat_r; lra|]. replace (b * u * (b + 1) * u) with (u * (b * (b + 1) * u)) by ring. apply Rmult_le_compat_l; [lra|].
      apply Rle_trans with (50000 * 50001 * u); [|unfold u; lra]. apply Rmult_le_compat_r; [lra|]. apply Rmult_le_compat; lra. }
    lra.
  - field. split; lra.
Qed.
Lemma rel_div a b x y x' y' : 0 <= a <= 20000 -> 0 <= b <= 20000 -> y <> 0 -> rel a x x' -> rel b y y' -> rel (a + b + 2) (x / y) (x' / y').
Proof. intros A B N X Y. unfold Rdiv. apply rel_le with (a + (b + 1) + 1); [lra|]. apply rel_mul; try lra; [exact X|]. apply rel_inv; [lra|exact N|exact Y]. Qed.
Lemma rel_opp k x y : rel k x y -> rel k (- x) (- y).
Proof. intros (e & E & ->). exists e. split; [exact E|ring]. Qed.
Lemma rel_close k x y : x <> 0 -> Rabs (y - x) <= k * u * Rabs x -> rel k x y.
Proof.
  intros N H. exists ((y - x) / x). split; [|field; exact N].
  unfold Rdiv. rewrite Rabs_mult, Rabs_inv. apply Rmult_le_reg_r with (Rabs x); [now apply Rabs_pos_lt|].
  rewrite Rmult_assoc, Rinv_l by (now apply Rabs_no_R0). lra.
Qed.
Definition normal (x : R) : Prop := / 10 ^ 25 <= Rabs x.
Lemma normal_nonzero x : normal x -> x <> 0.
Proof. unfold normal. intros H ->. rewrite Rabs_R0 in H. assert (0 < / 10 ^ 25) by (apply Rinv_0_lt_compat, pow_lt; lra). lra. Qed.
Lemma least_normal y : / 2 * / 10 ^ 25 <= Rabs y -> bpow radix2 (-1022) <= Rabs y.
Proof.
  intros H. assert (B : bpow radix2 (-1022) <= bpow radix2 (-100)) by (apply bpow_le; lia). pose proof SingleFacts.eta_small as E.
  assert (C : SingleFacts.eta <= / 2 * / 10 ^ 25).
  { unfold SingleFacts.eta. rewrite <- Rinv_mult. apply Rinv_le_contravar; [apply Rmult_lt_0_compat; [lra|apply pow_lt; lra]|].
    replace (10 ^ 30) with (10 ^ 5 * 10 ^ 25) by (rewrite <- pow_add; reflexivity). apply Rmult_le_compat_r; [apply pow_le; lra|]. cbn [pow]. lra. }
  lra.
Qed.
Lemma rel_rnd k x y : 0 <= k <= 40000 -> normal x -> rel k x y -> rel (k + 2) x (rnd y).
Proof.
  intros K N H. apply rel_le with (k + 1 + 1); [lra|]. apply rel_trans with y; try lra; [exact H|].
  pose proof (rel_half k x y ltac:(lra) H) as [A _]. apply rel_close.
  - apply rel_nonzero with k x; [lra|exact H|now apply normal_nonzero].
  - rewrite Rmult_1_l. apply rnd_rel. apply least_normal. unfold normal in N. lra.
Qed.
Lemma rel_rnd_zero y k : rel k 0 y -> y = 0 /\ rnd y = 0.
Proof. intros (e & _ & ->). rewrite Rmult_0_l. split; [reflexivity|apply rnd_0]. Qed.

(** ** Stored in single precision *)
Lemma held_0 : held 0 0.
Proof. unfold held. rewrite Rminus_eq_0, Rabs_R0. lra. Qed.
Lemma rnd32_0 : rnd32 0 = 0.
Proof. unfold rnd32. apply round_0, valid_rnd_N. Qed.
Lemma held_rel k x y : 0 <= k <= 50000 -> / 10 ^ 20 <= Rabs x -> rel k x y -> held x (rnd32 y).
Proof.
  intros K N H. pose proof (rel_half k x y K H) as [_ A]. destruct H as (e & E & Y).
  pose proof (round_err (-149) 24 y ltac:(lia) ltac:(lia) ltac:(lia)) as R. fold (rnd32 y) in R. unfold held.
  assert (D : Rabs (y - x) <= 50000 * u * Rabs x).
  { rewrite Y. replace (x * (1 + e) - x) with (e * x) by ring. rewrite Rabs_mult. apply Rmult_le_compat_r; [apply Rabs_pos|unfold u in *; lra]. }
  assert (B : Rabs y <= Rabs x + Rabs (y - x)) by (replace y with (x + (y - x)) at 1 by ring; apply Rabs_triang).
  assert (C : SingleFacts.eta <= / 10 ^ 10 * Rabs x).
  { unfold SingleFacts.eta. apply Rle_trans with (/ 10 ^ 10 * / 10 ^ 20); [|apply Rmult_le_compat_l; [left; apply Rinv_0_lt_compat, pow_lt; lra|exact N]].
    rewrite <- Rinv_mult. rewrite <- pow_add. right. reflexivity. }
  replace (rnd32 y - x) with ((rnd32 y - y) + (y - x)) by ring. eapply Rle_trans; [apply Rabs_triang|].
  pose proof (Rabs_pos x). unfold u24, u in *. cbn [pow] in *. lra.
Qed.

(** ** Angles and tangents *)
Lemma ten25 : / 10 ^ 25 <= / 10 ^ 10.
Proof. apply Rinv_le_contravar; [apply pow_lt; lra|]. apply Rle_pow; [lra|lia]. Qed.
Lemma ten20 : / 10 ^ 20 <= / 10 ^ 19.
Proof. apply Rinv_le_contravar; [apply pow_lt; lra|]. apply Rle_pow; [lra|lia]. Qed.
Lemma normal_big x : / 10 ^ 10 <= Rabs x -> normal x.
Proof. unfold normal. pose proof ten25. lra. Qed.
Lemma degree_rel : rel 3200 (PI / 180) (rnd (fpi / 180)).
Proof.
  pose proof degree_near as D. pose proof pi_bounds as P. apply rel_close; [lra|]. eapply Rle_trans; [exact D|].
  rewrite Rabs_pos_eq by lra. unfold u. lra.
Qed.
Lemma fradians_rel t : / 10 <= Rabs t -> rel 3203 (radians t) (fradians t).
Proof.
  intros T. unfold radians, fradians, fmul. pose proof pi_bounds as P. apply rel_le with (0 + 3200 + 1 + 2); [lra|].
  apply rel_rnd; [lra| |].
  - apply normal_big. rewrite Rabs_mult, (Rabs_pos_eq (PI / 180)) by lra.
    apply Rle_trans with (/ 10 * (/ 100)); [cbn [pow]; lra|]. apply Rmult_le_compat; lra.
  - apply rel_mul; try lra; [apply rel_refl|apply degree_rel].
Qed.
Lemma half_rel t : / 10 <= Rabs t -> rel 3206 (/ 2 * radians t) (fmul (/ 2) (fradians t)).
Proof.
  intros T. unfold fmul. pose proof pi_bounds as P. apply rel_le with (0 + 3203 + 1 + 2); [lra|].
  apply rel_rnd; [lra| |].
  - apply normal_big. unfold radians. rewrite !Rabs_mult, (Rabs_pos_eq (PI / 180)), (Rabs_pos_eq (/ 2)) by lra.
    apply Rle_trans with (/ 2 * (/ 10 * (/ 100))); [cbn [pow]; lra|]. repeat apply Rmult_le_compat; try lra. 
  - apply rel_mul; try lra; [apply rel_refl|now apply fradians_rel].
Qed.
Lemma tan_apart x y : 0 <= x <= 1 -> 0 <= y <= 1 -> Rabs (tan y - tan x) <= 4 * Rabs (y - x).
Proof.
  intros X Y. pose proof pi_bounds as P.
  assert (C : forall z, 0 <= z <= 1 -> / 2 <= cos z).
  { intros z Z. replace (/ 2) with (cos (PI / 3)) by (rewrite cos_PI3; lra). destruct (Req_dec z (PI / 3)) as [->|N]; [lra|].
    apply cos_decr_1; lra. }
  pose proof (C x X) as CX. pose proof (C y Y) as CY.
  replace (tan y - tan x) with (sin (y - x) * / (cos x * cos y)) by (rewrite sin_minus; unfold tan; field; lra).
  rewrite Rabs_mult, Rmult_comm. apply Rmult_le_compat; try apply Rabs_pos; [|apply sin_le_abs].
  assert (/ 4 <= cos x * cos y) by nra.
  rewrite Rabs_pos_eq by (left; apply Rinv_0_lt_compat; lra). replace 4 with (/ / 4) by (field). apply Rinv_le_contravar; lra.
Qed.
Lemma tan_rel k x y : 0 <= k <= 10000 -> 0 < x <= 99 / 100 -> rel k x y -> 0 <= y <= 1 /\ rel (4 * k) (tan x) (tan y).
Proof.
  intros K X R. pose proof pi_bounds as P. destruct R as (e & E & Y).
  assert (E' : Rabs e <= / 10000) by (unfold u in *; lra). apply Rabs_le_iff in E'.
  assert (B : 0 <= y <= 1) by (subst y; nra). split; [exact B|].
  pose proof (tan_above x ltac:(lra)) as T. apply rel_close; [lra|].
  eapply Rle_trans; [apply tan_apart; lra|]. rewrite (Rabs_pos_eq (tan x)) by lra. subst y. replace (x * (1 + e) - x) with (e * x) by ring.
  rewrite Rabs_mult, (Rabs_pos_eq x) by lra. assert (Rabs e * x <= k * u * tan x) by (apply Rmult_le_compat; try apply Rabs_pos; lra). lra.
Qed.
Lemma good_rel x y : normal x -> good x y -> rel 5 x y.
Proof.
  intros N G. apply rel_close; [now apply normal_nonzero|]. unfold good in G. eapply Rle_trans; [exact G|].
  assert (B : bpow radix2 (-1074) <= u * / 10 ^ 25).
  { apply Rle_trans with (bpow radix2 (-100 + -53)); [apply bpow_le; lia|]. rewrite bpow_plus. rewrite Rmult_comm. apply Rmult_le_compat; try apply bpow_ge_0.
    - right. reflexivity.
    - eapply Rle_trans; [apply SingleFacts.eta_small|]. unfold SingleFacts.eta. apply Rinv_le_contravar; [apply pow_lt; lra|]. apply Rle_pow; [lra|lia]. }
  unfold normal in N. assert (C : u * / 10 ^ 25 <= u * Rabs x) by (apply Rmult_le_compat_l; [unfold u; lra|exact N]).
  assert (D : / 2 ^ 51 = 4 * u) by (unfold u; cbn [pow]; lra). rewrite D. lra.
Qed.
Lemma tangent_rel T f : good_tangent T -> 1 <= f <= 110 ->
  / 200 <= tan (/ 2 * radians f) <= 10 /\ rel 12835 (tan (/ 2 * radians f)) (T (fmul (/ 2) (fradians f))).
Proof.
  intros G F. pose proof pi_bounds as P. pose proof (half_rel f ltac:(rewrite Rabs_pos_eq; lra)) as H. set (x := / 2 * radians f) in *.
  assert (X : / 200 <= x <= 97 / 100).
  { unfold x, radians. assert (1 * (PI / 180) <= f * (PI / 180) <= 110 * (PI / 180)) by (split; apply Rmult_le_compat_r; lra). lra. }
  destruct (tan_rel 3206 x _ ltac:(lra) ltac:(lra) H) as [Y R]. pose proof (tan_above x ltac:(lra)) as A.
  assert (U : tan x <= 10).
  { pose proof (tan_apart 0 x ltac:(lra) ltac:(lra)) as B. rewrite tan_0 in B. rewrite !Rminus_0_r, !Rabs_pos_eq in B by lra. lra. }
  split; [lra|]. pose proof (G _ Y) as GG. apply rel_le with (4 * 3206 + 5 + 1); [lra|]. apply rel_trans with (tan (fmul (/ 2) (fradians f))); try lra; [exact R|].
  apply good_rel; [|exact GG]. apply normal_big. pose proof (rel_half (4 * 3206) _ _ ltac:(lra) R) as [B _]. rewrite (Rabs_pos_eq (tan x)) in B by lra. cbn [pow]. lra.
Qed.

(** ** Projections *)
Lemma div_ok a b : b <> 0 -> div a b = Ok (a / b).
Proof. intros H. unfold div. destruct (Req_EM_T b 0); [contradiction|reflexivity]. Qed.
(** A quotient of things known up to relative errors, stored. *)
Lemma quotient_held a b x y x' y' : 0 <= a <= 15000 -> 0 <= b <= 15000 -> y <> 0 -> rel a x x' -> rel b y y' -> x = 0 \/ / 10 ^ 19 <= Rabs (x / y) ->
  exists q, fdiv x' y' = Ok q /\ held (x / y) (rnd32 q).
Proof.
  intros A B N X Y H. exists (rnd (x' / y')). split; [apply fdiv_ok; apply rel_nonzero with b y; [lra|exact Y|exact N]|].
  pose proof (rel_div a b x y x' y' ltac:(lra) ltac:(lra) N X Y) as Q. destruct H as [-> | H].
  - unfold Rdiv in *. rewrite Rmult_0_l in *. apply rel_rnd_zero in Q as [_ ->]. rewrite rnd32_0. apply held_0.
  - apply held_rel with (a + b + 2 + 2); [lra|pose proof ten20; lra|]. apply rel_rnd; [lra| |exact Q]. unfold normal.
    assert (/ 10 ^ 25 <= / 10 ^ 19) by (apply Rinv_le_contravar; [apply pow_lt; lra|]; apply Rle_pow; [lra|lia]). lra.
Qed.
Lemma rel_op x : normal x -> rel 2 x (rnd x).
Proof. intros N. apply rel_le with (0 + 2); [lra|]. apply rel_rnd; [lra|exact N|apply rel_refl]. Qed.
Lemma rel_exact x : x = 0 \/ normal x -> rel 2 x (rnd x).
Proof. intros [-> | N]; [rewrite rnd_0; apply rel_le with 0; [lra|apply rel_refl]|now apply rel_op]. Qed.
Lemma ratio_big x y a b : 0 < a -> a <= Rabs x -> Rabs y <= b -> y <> 0 -> a / b <= Rabs (x / y).
Proof.
  intros A X Y N. assert (P : 0 < Rabs y) by (now apply Rabs_pos_lt). unfold Rdiv. rewrite Rabs_mult, Rabs_inv.
  apply Rmult_le_compat; try lra; [left; apply Rinv_0_lt_compat; lra|]. apply Rinv_le_contravar; lra.
Qed.
Lemma stored_finish t A B : stored A B -> stored (finish t A) (finish t B).
Proof.
  destruct t; [|exact (fun H => H)]. unfold stored, held4, finish, transpose. cbn [row0 row1 row2 row3 x4 y4 z4 w4]. tauto.
Qed.
Lemma held_1 x : / 10 ^ 20 <= Rabs x -> held x (rnd32 x).
Proof. intros H. apply held_rel with 0; [lra|exact H|apply rel_refl]. Qed.
Lemma held_one : held 1 (rnd32 1).
Proof. apply single_held. right. rewrite Rabs_R1. lra. Qed.
Lemma held_minus : held (-1) (rnd32 (-1)).
Proof. apply single_held. right. rewrite Rabs_left; lra. Qed.

Lemma frustum_stored w h w' h' n f t : rel 12850 w w' -> rel 12850 h h' -> / 10 ^ 12 <= w <= 10 ^ 11 -> / 10 ^ 12 <= h <= 10 ^ 11 ->
  / 10 ^ 6 <= n -> n + / 10 ^ 6 <= f <= 10 ^ 6 ->
  exists A B, frustum (- w) w (- h) h n f t = Ok A /\ ffrustum (- w') w' (- h') h' n f t = Ok B /\ stored A B.
Proof.
  intros W H BW BH N F. unfold frustum, ffrustum.
  assert (S : forall v v', rel 12850 v v' -> / 10 ^ 12 <= v <= 10 ^ 11 -> v - - v <> 0 /\ rel 12853 (v - - v) (fsub v' (- v')) /\ fadd v' (- v') = 0 /\
     (exists q, fdiv (fmul 2 n) (fsub v' (- v')) = Ok q /\ held (2 * n / (v - - v)) (rnd32 q)) /\
     (exists q, fdiv (fadd v' (- v')) (fsub v' (- v')) = Ok q /\ held ((v + - v) / (v - - v)) (rnd32 q))).
  { intros v v' V B. assert (P : 0 < / 10 ^ 12) by (apply Rinv_0_lt_compat, pow_lt; lra). assert (Z : v - - v <> 0) by lra.
    assert (D : rel 12853 (v - - v) (fsub v' (- v'))).
    { unfold fsub. replace (v - - v) with (2 * v) by ring. replace (v' - - v') with (2 * v') by ring.
      apply rel_le with (0 + 12850 + 1 + 2); [lra|]. apply rel_rnd; [lra| |apply rel_mul; try lra; [apply rel_refl|exact V]].
      unfold normal. rewrite Rabs_pos_eq by lra. assert (/ 10 ^ 25 <= / 10 ^ 12) by (apply Rinv_le_contravar; [apply pow_lt; lra|]; apply Rle_pow; [lra|lia]). lra. }
    assert (E : fadd v' (- v') = 0) by (unfold fadd; rewrite Rplus_opp_r; apply rnd_0).
    split; [exact Z|]. split; [exact D|]. split; [exact E|]. split.
    - apply quotient_held with 2 12853; [lra|lra|exact Z| |exact D|].
      + unfold fmul. apply rel_exact. right. apply normal_big. rewrite Rabs_pos_eq; cbn [pow] in *; lra.
      + right. apply Rle_trans with (/ 10 ^ 6 / (2 * 10 ^ 11)); [cbn [pow]; lra|]. apply ratio_big; [apply Rinv_0_lt_compat, pow_lt; lra| | |exact Z]; rewrite Rabs_pos_eq; lra.
    - apply quotient_held with 0 12853; [lra|lra|exact Z| |exact D|left; ring]. rewrite E, Rplus_opp_r. apply rel_refl. }
  destruct (S w w' W BW) as (ZW & DW & EW & (q0 & Q0 & K0) & q2 & Q2 & K2), (S h h' H BH) as (ZH & DH & EH & (q1 & Q1 & K1) & q3 & Q3 & K3). clear S.
  assert (Pn : 0 < / 10 ^ 6) by (apply Rinv_0_lt_compat, pow_lt; lra).
  assert (ZF : f - n <> 0) by lra.
  assert (DF : rel 2 (f - n) (fsub f n)) by (unfold fsub; apply rel_exact; right; apply normal_big; rewrite Rabs_pos_eq; cbn [pow] in *; lra).
  assert (M22 : exists q, fdiv (- fadd f n) (fsub f n) = Ok q /\ held (- (f + n) / (f - n)) (rnd32 q)).
  { apply quotient_held with 2 2; [lra|lra|exact ZF| |exact DF|].
    - apply rel_opp. unfold fadd. apply rel_exact. right. apply normal_big. rewrite Rabs_pos_eq; cbn [pow] in *; lra.
    - right. apply Rle_trans with (/ 10 ^ 6 / 10 ^ 6); [cbn [pow]; lra|]. apply ratio_big; [exact Pn| | |exact ZF]; [rewrite Rabs_Ropp|]; rewrite Rabs_pos_eq; lra. }
  assert (M23 : exists q, fdiv (fmul (fmul (- 2) n) f) (fsub f n) = Ok q /\ held (- 2 * n * f / (f - n)) (rnd32 q)).
  { assert (NF : / 10 ^ 6 * / 10 ^ 6 <= n * f) by (apply Rmult_le_compat; lra).
    apply quotient_held with 5 2; [lra|lra|exact ZF| |exact DF|].
    - unfold fmul. apply rel_le with (2 + 0 + 1 + 2); [lra|]. apply rel_rnd; [lra| |].
      + unfold normal. replace (-2 * n * f) with (- (2 * (n * f))) by ring. rewrite Rabs_Ropp, Rabs_pos_eq by lra.
        assert (/ 10 ^ 25 <= / 10 ^ 12) by (apply Rinv_le_contravar; [apply pow_lt; lra|]; apply Rle_pow; [lra|lia]).
        assert (/ 10 ^ 12 = / 10 ^ 6 * / 10 ^ 6) by (cbn [pow]; lra). lra.
      + apply rel_mul; try lra; [|apply rel_refl]. apply rel_exact. right. apply normal_big. rewrite Rabs_left1; cbn [pow] in *; lra.
    - right. replace (-2 * n * f) with (- (2 * (n * f))) by ring. apply Rle_trans with (/ 10 ^ 6 * / 10 ^ 6 / 10 ^ 6 * (10 ^ 3)); [cbn [pow]; lra|].
      replace (- (2 * (n * f)) / (f - n)) with (- (2 * n * (f / (f - n)))) by (field; exact ZF). rewrite Rabs_Ropp.
      assert (G : 1 <= f / (f - n)) by (apply Rmult_le_reg_r with (f - n); [lra|]; unfold Rdiv; rewrite Rmult_assoc, Rinv_l by lra; lra).
      assert (G2 : 2 * n * 1 <= 2 * n * (f / (f - n))) by (apply Rmult_le_compat_l; lra).
      rewrite Rabs_pos_eq by lra. cbn [pow] in *. lra. }
  destruct M22 as (q22 & Q22 & K22), M23 as (q23 & Q23 & K23).
  rewrite !div_ok by assumption. cbn [bind]. rewrite Q0, Q1, Q22, Q2, Q3, Q23. cbn [bind].
  do 2 eexists. split; [reflexivity|]. split; [reflexivity|]. apply stored_finish. unfold stored, held4. cbn [row0 row1 row2 row3 x4 y4 z4 w4].
  repeat split; try assumption; try apply held_0. apply held_minus.
Qed.
Lemma perspective_stored T fovy aspect n f t : good_tangent T -> 1 <= fovy <= 110 -> / 1000 <= aspect <= 1000 -> / 10 ^ 6 <= n -> n + / 10 ^ 6 <= f <= 10 ^ 6 ->
  exists A B, perspective fovy aspect n f t = Ok A /\ fperspective T fovy aspect n f t = Ok B /\ stored A B.
Proof.
  intros G V A N F. destruct (tangent_rel T fovy G V) as [TB TR]. unfold perspective, fperspective. cbv zeta.
  assert (P6 : 0 < / 10 ^ 6) by (apply Rinv_0_lt_compat, pow_lt; lra).
  assert (H1 : / 200 * / 10 ^ 6 <= tan (/ 2 * radians fovy) * n) by (apply Rmult_le_compat; lra).
  assert (H2 : tan (/ 2 * radians fovy) * n <= 10 * 10 ^ 6) by (apply Rmult_le_compat; lra).
  assert (HR : rel 12838 (tan (/ 2 * radians fovy) * n) (fmul (T (fmul (/ 2) (fradians fovy))) n)).
  { unfold fmul at 1. apply rel_le with (12835 + 0 + 1 + 2); [lra|]. apply rel_rnd; [lra| |apply rel_mul; try lra; [exact TR|apply rel_refl]].
    apply normal_big. rewrite Rabs_pos_eq; cbn [pow] in *; lra. }
  set (h := tan (/ 2 * radians fovy) * n) in *. set (h' := fmul (T (fmul (/ 2) (fradians fovy))) n) in *. clearbody h h'.
  assert (W1 : / 200 * / 10 ^ 6 * / 1000 <= h * aspect) by (apply Rmult_le_compat; cbn [pow] in *; lra).
  assert (W2 : h * aspect <= 10 * 10 ^ 6 * 1000) by (apply Rmult_le_compat; cbn [pow] in *; lra).
  assert (WR : rel 12841 (h * aspect) (fmul h' aspect)).
  { unfold fmul. apply rel_le with (12838 + 0 + 1 + 2); [lra|]. apply rel_rnd; [lra| |apply rel_mul; try lra; [exact HR|apply rel_refl]].
    unfold normal. assert (/ 10 ^ 25 <= / 10 ^ 12) by (apply Rinv_le_contravar; [apply pow_lt; lra|]; apply Rle_pow; [lra|lia]). rewrite Rabs_pos_eq; cbn [pow] in *; lra. }
  apply frustum_stored; try assumption; [apply rel_le with 12841; [lra|exact WR]|apply rel_le with 12838; [lra|exact HR]| |]; cbn [pow] in *; lra.
Qed.
Lemma sides_facts a b : sides a b -> b - a <> 0 /\ rel 2 (b - a) (fsub b a) /\ rel 2 (- (b + a)) (- fadd b a) /\ (- (b + a) = 0 \/ / 10 ^ 19 <= Rabs (- (b + a) / (b - a))).
Proof.
  intros [[A B] C]. assert (P6 : 0 < / 10 ^ 6) by (apply Rinv_0_lt_compat, pow_lt; lra). assert (P : / 10 ^ 10 <= / 10 ^ 6) by (cbn [pow]; lra).
  assert (Z : b - a <> 0) by (intros E; rewrite E, Rabs_R0 in A; lra).
  split; [exact Z|]. split; [apply rel_exact; right; apply normal_big; lra|]. split.
  - apply rel_opp. apply rel_exact. destruct C as [C|C]; [left; exact C|right; apply normal_big; lra].
  - destruct C as [C|C]; [left; lra|right]. apply Rle_trans with (/ 10 ^ 6 / 10 ^ 6); [cbn [pow]; lra|]. apply ratio_big; [exact P6|rewrite Rabs_Ropp; exact C|exact B|exact Z].
Qed.
Lemma over_sides c a b : Rabs c = 2 -> sides a b -> exists q, fdiv c (fsub b a) = Ok q /\ held (c / (b - a)) (rnd32 q).
Proof.
  intros C S. destruct (sides_facts a b S) as (Z & D & _). destruct S as [[A B] _]. apply quotient_held with 0 2; [lra|lra|exact Z|apply rel_refl|exact D|].
  right. apply Rle_trans with (2 / 10 ^ 6); [cbn [pow]; lra|]. apply ratio_big; lra.
Qed.
Lemma middle_sides a b : sides a b -> exists q, fdiv (- fadd b a) (fsub b a) = Ok q /\ held (- (b + a) / (b - a)) (rnd32 q).
Proof. intros S. destruct (sides_facts a b S) as (Z & D & M & H). apply quotient_held with 2 2; [lra|lra|exact Z|exact M|exact D|exact H]. Qed.
Lemma ortho_stored l r b t n f tr : sides l r -> sides b t -> sides n f ->
  exists A B, ortho l r b t n f tr = Ok A /\ fortho l r b t n f tr = Ok B /\ stored A B.
Proof.
  intros X Y Z. unfold ortho, fortho. assert (T : Rabs 2 = 2) by (apply Rabs_pos_eq; lra). assert (T' : Rabs (- 2) = 2) by (rewrite Rabs_left; lra).
  destruct (over_sides 2 l r T X) as (q0 & Q0 & K0), (over_sides 2 b t T Y) as (q1 & Q1 & K1), (over_sides (- 2) n f T' Z) as (q2 & Q2 & K2),
    (middle_sides l r X) as (q3 & Q3 & K3), (middle_sides b t Y) as (q4 & Q4 & K4), (middle_sides n f Z) as (q5 & Q5 & K5).
  destruct (sides_facts l r X) as (ZX & _), (sides_facts b t Y) as (ZY & _), (sides_facts n f Z) as (ZZ & _).
  rewrite !div_ok by assumption. cbn [bind]. rewrite Q0, Q1, Q2, Q3, Q4, Q5. cbn [bind].
  do 2 eexists. split; [reflexivity|]. split; [reflexivity|]. apply stored_finish. unfold stored, held4. cbn [row0 row1 row2 row3 x4 y4 z4 w4].
  repeat split; try assumption; try apply held_0. apply held_one.
Qed.

(** ** Products with matrices that are mostly zero are exact *)
Definition f32 (x : R) : Prop := generic_format radix2 (FLT_exp (-149) 24) x.
Lemma f32_rnd32 x : f32 (rnd32 x).
Proof. apply generic_format_round; [apply FLT_exp_valid; reflexivity|apply valid_rnd_N]. Qed.
Lemma f32_0 : f32 0.
Proof. apply generic_format_0. Qed.
Lemma f32_stays x y : f32 x -> result x y -> y = x.
Proof.
  intros F [-> | ->].
  - apply round_generic; [apply valid_rnd_N|exact F].
  - apply round_generic; [apply valid_rnd_N|]. apply FLT_format_generic in F; [|reflexivity]. destruct F as [g E N X].
    apply generic_format_FLT. exists g; [exact E|apply Z.lt_trans with (2 ^ 24)%Z; [exact N|reflexivity]|]. cbn in *. lia.
Qed.
Definition some (ab : R * R) : bool := if Req_EM_T (fst ab * snd ab) 0 then false else true.
Lemma total_none l : filter some l = [] -> total l = 0.
Proof.
  induction l as [|[a b] l IH]; [reflexivity|]. unfold some at 1. cbn [filter fst snd total]. destruct (Req_EM_T (a * b) 0) as [E|E]; [|discriminate].
  intros H. rewrite E, IH by exact H. ring.
Qed.
Lemma total_app l m : total (l ++ m) = total l + total m.
Proof. induction l as [|[a b] l IH]; cbn [app total]; [ring|]. rewrite IH. ring. Qed.
Lemma total_perm l m : Permutation l m -> total l = total m.
Proof. induction 1 as [|[a b] l m _ IH|[a b] [c d] l|l m n _ IH1 _ IH2]; cbn [total]; lra. Qed.
Lemma filter_len (l m : list (R * R)) : Permutation l m -> length (filter some l) = length (filter some m).
Proof.
  induction 1 as [|x l m _ IH|x y l|l m n _ IH1 _ IH2]; cbn [filter]; [reflexivity|destruct (some x); cbn [length]; lia|destruct (some x), (some y); reflexivity|lia].
Qed.
Lemma summed_sparse l r : summed l r -> (length (filter some l) <= 1)%nat -> f32 (total l) -> r = total l.
Proof.
  induction 1 as [a b r R|a b l x r H IH R|l m x y r H1 IH1 H2 IH2 R|l m r H IH P]; intros N F.
  - cbn [total] in *. rewrite Rplus_0_r in *. now apply f32_stays.
  - cbn [filter] in N. cbn [total] in *. unfold some at 1 in N. cbn [fst snd] in N. destruct (Req_EM_T (a * b) 0) as [E|E].
    + rewrite E, Rplus_0_l in F. rewrite E, Rplus_0_l. rewrite (IH N F), E, Rplus_0_r in R. now apply f32_stays.
    + cbn [length] in N. assert (Z : filter some l = []) by (destruct (filter some l); [reflexivity|cbn in N; lia]).
      pose proof (total_none l Z) as T. rewrite Z, T in IH. rewrite (IH ltac:(cbn; lia) f32_0), Rplus_0_l in R. rewrite T, Rplus_0_r in *. now apply f32_stays.
  - rewrite filter_app, app_length in N. rewrite total_app in *.
    destruct (filter some l) as [|p k] eqn:Z.
    + pose proof (total_none l Z) as T. rewrite T in IH1. rewrite T, Rplus_0_l in F. rewrite T, Rplus_0_l.
      rewrite (IH1 ltac:(cbn; lia) f32_0), (IH2 ltac:(cbn in N; lia) F), Rplus_0_l in R. now apply f32_stays.
    + cbn [length] in N. assert (Z2 : filter some m = []) by (destruct (filter some m); [reflexivity|cbn in N; lia]).
      pose proof (total_none m Z2) as T. rewrite Z2, T in IH2. rewrite T, Rplus_0_r in F. rewrite T, Rplus_0_r.
      rewrite (IH2 ltac:(cbn; lia) f32_0), (IH1 ltac:(cbn; lia) F), Rplus_0_r in R. now apply f32_stays.
  - rewrite <- (total_perm l m P) in *. rewrite <- (filter_len l m P) in N. now apply IH.
Qed.
Lemma some_zero a b : a * b = 0 -> some (a, b) = false.
Proof. intros H. unfold some. cbn [fst snd]. destruct (Req_EM_T (a * b) 0); [reflexivity|contradiction]. Qed.
Lemma rnd32_int n : (Z.abs n < 2 ^ 24)%Z -> rnd32 (IZR n) = IZR n.
Proof.
  intros H. unfold rnd32. apply round_generic; [apply valid_rnd_N|]. apply generic_format_FLT. exists (Float radix2 n 0); cbn.
  - unfold F2R. cbn. ring.
  - exact H.
  - lia.
Qed.
(** The view of the camera is what its entries are when stored one by one. *)
Lemma view_exact zdist s V : camera_view_computed zdist s V ->
  V = Mat (V4 (rnd32 s) 0 0 0) (V4 0 (rnd32 s) 0 0) (V4 0 0 (rnd32 s) (rnd32 (- zdist))) (V4 0 0 0 1).
Proof.
  assert (O : rnd32 1 = 1) by (apply (rnd32_int 1); reflexivity).
  unfold camera_view_computed, product, row_product, ftranslate, fscale, finish, transpose, terms. cbn [row0 row1 row2 row3 x4 y4 z4 w4 x3 y3 z3]. rewrite O, rnd32_0.
  destruct V as [[a0 a1 a2 a3] [b0 b1 b2 b3] [c0 c1 c2 c3] [d0 d1 d2 d3]]. cbn [row0 row1 row2 row3 x4 y4 z4 w4].
  assert (G : forall l r e, summed l r -> total l = e -> (length (filter some l) <= 1)%nat -> f32 e -> r = e).
  { intros l r e H T N F. rewrite <- T. apply summed_sparse; [exact H|exact N|rewrite T; exact F]. }
  intros ((A0 & A1 & A2 & A3) & (B0 & B1 & B2 & B3) & (C0 & C1 & C2 & C3) & (D0 & D1 & D2 & D3)).
  assert (O32 : f32 1) by (rewrite <- O; apply f32_rnd32).
  assert (K : forall l : list (R * R), (length (filter some l) <= 1)%nat -> (length (filter some l) <= 1)%nat) by auto.
  assert (Q : forall p l, (length (filter some l) <= 0)%nat -> (length (filter some (p :: l)) <= 1)%nat) by (intros p l H; cbn [filter]; destruct (some p); cbn [length]; lia).
  assert (Q0 : forall n a b l, a * b = 0 -> (length (filter some l) <= n)%nat -> (length (filter some ((a, b) :: l)) <= n)%nat).
  { intros n a b l E H. cbn [filter]. rewrite (some_zero a b E). exact H. }
  f_equal; f_equal; (eapply G; [eassumption|cbn [total]; ring| |first [apply f32_rnd32|apply f32_0|exact O32]]);
    repeat first [cbn [filter length]; lia|apply Q0; [ring|]|apply Q].
Qed.
Lemma view_stored s V : / 1000 <= s -> camera_view_computed 5 s V -> stored (camera_view s) V.
Proof.
  intros S H. rewrite (view_exact 5 s V H). pose proof (single_stored s S) as [E _]. revert E. unfold single, single4, camera_view, stored, held4. cbn [row0 row1 row2 row3 x4 y4 z4 w4].
  rewrite !rnd32_0, (rnd32_int 1 ltac:(reflexivity)). replace (Ropp 5) with (-5) by lra. exact (fun E => E).
Qed.
Lemma proj_stored T : good_tangent T -> exists A B, perspective 35 1 1 100 false = Ok A /\ camera_proj_computed T = Ok B /\ stored A B.
Proof. intros G. apply perspective_stored; [exact G|lra|lra|cbn [pow]; lra|cbn [pow]; lra]. Qed.

(** ** Rotations *)
Lemma fradians_near t : Rabs t <= 10 ^ 6 -> Rabs (fradians t - radians t) <= / 10 ^ 7 * / 10.
Proof.
  intros T. pose proof degree_near as D. pose proof pi_bounds as P. unfold fradians, fmul, radians. set (g := rnd (fpi / 180)) in *. clearbody g.
  assert (A : Rabs (t * (g - PI / 180)) <= 10 ^ 6 * (6 / 1000000000000000)) by (rewrite Rabs_mult; apply Rmult_le_compat; try apply Rabs_pos; assumption).
  assert (B : Rabs (t * (PI / 180)) <= 10 ^ 6 * 1) by (rewrite Rabs_mult, (Rabs_pos_eq (PI / 180)) by lra; apply Rmult_le_compat; try apply Rabs_pos; lra).
  replace (t * (g - PI / 180)) with (t * g - t * (PI / 180)) in A by ring. set (a := t * (PI / 180)) in *. set (b := t * g) in *. clearbody a b.
  apply Rabs_le_iff in A, B. assert (C : Rabs b <= 2 * 10 ^ 6) by (apply Rabs_le; cbn [pow] in *; lra).
  pose proof (rnd_abs _ _ C) as E. apply Rabs_le_iff in E. pose proof DriftRound.eta_small as F. apply Rabs_le. unfold u in *. cbn [pow] in *. lra.
Qed.
Lemma stored_near exact given x : Rabs exact <= 1 -> Rabs (x - exact) <= / 10 ^ 7 * / 10 -> good x given -> Rabs x <= 1 -> Rabs (rnd32 given - exact) <= 11 / 10 ^ 8.
Proof.
  intros E X G B. unfold good in G. assert (S : bpow radix2 (-1074) <= bpow radix2 (-100)) by (apply bpow_le; lia). rewrite bpow_neg100 in S.
  assert (H : Rabs (given - x) <= / 10 ^ 14) by (eapply Rle_trans; [exact G|]; cbn [pow] in *; lra).
  apply Rabs_le_iff in B, H, X, E. assert (H' : Rabs given <= 9 / 8) by (apply Rabs_le; cbn [pow] in *; lra).
  pose proof (rnd32_err given H') as R. apply Rabs_le_iff in R. apply Rabs_le. cbn [pow] in *. lra.
Qed.
Lemma cosine_near L t : good_library L -> Rabs t <= 10 ^ 6 ->
  Rabs (rnd32 (m_cos L (fradians t)) - cos (radians t)) <= 11 / 10 ^ 8 /\ Rabs (rnd32 (m_sin L (fradians t)) - sin (radians t)) <= 11 / 10 ^ 8.
Proof.
  intros (GS & GC & _) T. pose proof (fradians_near t T) as N. split.
  - apply stored_near with (cos (fradians t)); [apply Rabs_le, COS_bound| |apply GC|apply Rabs_le, COS_bound]. eapply Rle_trans; [apply cos_apart|exact N].
  - apply stored_near with (sin (fradians t)); [apply Rabs_le, SIN_bound| |apply GS|apply Rabs_le, SIN_bound]. eapply Rle_trans; [apply sin_apart|exact N].
Qed.
Lemma near_finish e t A B : near e A B -> near e (finish t A) (finish t B).
Proof. destruct t; [|exact (fun H => H)]. unfold near, near4, finish, transpose. cbn [row0 row1 row2 row3 x4 y4 z4 w4]. tauto. Qed.
Lemma rotations_near L t tr : good_library L -> Rabs t <= 10 ^ 6 ->
  near (11 / 10 ^ 8) (fxrotate L t tr) (xrotate t tr) /\ near (11 / 10 ^ 8) (fyrotate L t tr) (yrotate t tr) /\ near (11 / 10 ^ 8) (fzrotate L t tr) (zrotate t tr).
Proof.
  intros G T. destruct (cosine_near L t G T) as [C S]. unfold fxrotate, fyrotate, fzrotate, xrotate, yrotate, zrotate. rewrite (rnd32_int 1 ltac:(reflexivity)).
  set (c := rnd32 _) in *. set (s := rnd32 (m_sin _ _)) in *. clearbody c s.
  assert (Z : forall x, Rabs (x - x) <= 11 / 10 ^ 8) by (intros x; rewrite Rminus_eq_0, Rabs_R0; cbn [pow]; lra).
  assert (S' : Rabs (- s - - sin (radians t)) <= 11 / 10 ^ 8) by (replace (- s - - sin (radians t)) with (- (s - sin (radians t))) by ring; rewrite Rabs_Ropp; exact S).
  repeat split; apply near_finish; unfold near, near4; cbn [row0 row1 row2 row3 x4 y4 z4 w4]; repeat split; try apply Z; assumption.
Qed.

(** ** Too near *)
Lemma rnd32_tiny x : Rabs x <= bpow radix2 (-158) -> rnd32 x = 0.
Proof.
  intros H. assert (G : generic_format radix2 (FIX_exp (-149)) (rnd32 x)).
  { apply generic_format_FIX_FLT with 24%Z. apply f32_rnd32. }
  apply FIX_format_generic in G. destruct G as [[m e] H1 H2]. cbn in H2. subst e. rewrite H1. unfold F2R in *. cbn [Fnum Fexp] in *.
  destruct (Z.eq_dec m 0) as [->|N]; [ring|exfalso].
  destruct (error_N_FLT radix2 (-149) 24 eq_refl (fun x => negb (Z.even x)) x) as (e & d & E1 & E2 & _ & E3). fold (rnd32 x) in E3.
  assert (A : / 2 * bpow radix2 (- 24 + 1) = / 16777216) by (cbn -[Rmult Rinv]; lra).
  change (Rabs e <= / 2 * bpow radix2 (- 24 + 1)) in E1. rewrite A in E1.
  assert (B : bpow radix2 (-158) = bpow radix2 (-149) * / 512) by (change (-158)%Z with (-149 + -9)%Z; rewrite bpow_plus; reflexivity).
  assert (P : 0 < bpow radix2 (-149)) by apply bpow_gt_0. set (w := bpow radix2 (-149)) in *. clearbody w.
  assert (M : w <= Rabs (rnd32 x)).
  { rewrite H1, Rabs_mult, (Rabs_pos_eq w) by lra. rewrite <- (Rmult_1_l w) at 1. apply Rmult_le_compat_r; [lra|]. rewrite <- abs_IZR. apply IZR_le. lia. }
  assert (C : Rabs (rnd32 x) <= Rabs x * 2 + / 2 * w).
  { change (rnd32 x = x * (1 + e) + d) in E3. rewrite E3. eapply Rle_trans; [apply Rabs_triang|]. apply Rplus_le_compat; [|exact E2].
    rewrite Rabs_mult. apply Rmult_le_compat_l; [apply Rabs_pos|]. apply Rabs_le_iff in E1. rewrite Rabs_pos_eq; lra. }
  lra.
Qed.
Lemma rnd_bpow k : (-1074 <= k)%Z -> rnd (bpow radix2 k) = bpow radix2 k.
Proof. intros H. apply round_generic; [apply valid_rnd_N|]. apply generic_format_FLT_bpow; [reflexivity|exact H]. Qed.
Lemma rnd_opp_bpow k : (-1074 <= k)%Z -> rnd (- bpow radix2 k) = - bpow radix2 k.
Proof. intros H. apply round_generic; [apply valid_rnd_N|]. apply generic_format_opp, generic_format_FLT_bpow; [reflexivity|exact H]. Qed.
Lemma near_lost n : n = bpow radix2 (-160) -> exists A B, frustum (-1) 1 (-1) 1 n 1 false = Ok A /\ ffrustum (-1) 1 (-1) 1 n 1 false = Ok B /\ w4 (row2 A) < 0 /\ w4 (row2 B) = 0.
Proof.
  intros ->. set (n := bpow radix2 (-160)). assert (N : 0 < n) by apply bpow_gt_0. assert (N2 : n <= / 2).
  { unfold n. apply Rle_trans with (bpow radix2 (-1)); [apply bpow_le; lia|right; reflexivity]. }
  assert (T1 : fsub 1 (-1) = 2).
  { unfold fsub. replace (1 - -1) with (bpow radix2 1) by (cbn; lra). rewrite rnd_bpow by lia. reflexivity. }
  assert (F1 : / 2 <= fsub 1 n <= 1).
  { unfold fsub. split.
    - change (/ 2) with (bpow radix2 (-1)) at 1. rewrite <- (rnd_bpow (-1)) by lia. apply rnd_le. change (bpow radix2 (-1)) with (/ 2). lra.
    - change 1 with (bpow radix2 0) at 2. rewrite <- (rnd_bpow 0) at 1 by lia. apply rnd_le. change (bpow radix2 0) with 1. lra. }
  assert (M : fmul (fmul (- 2) n) 1 = - bpow radix2 (-159)).
  { assert (E : - 2 * n = - bpow radix2 (-159)) by (unfold n; change (-159)%Z with (1 + -160)%Z; rewrite bpow_plus; change (bpow radix2 1) with 2; ring).
    unfold fmul. rewrite E, rnd_opp_bpow, Rmult_1_r, rnd_opp_bpow by lia. reflexivity. }
  unfold frustum, ffrustum. rewrite !div_ok by lra. rewrite !T1, M. rewrite !fdiv_ok by lra. cbn [bind].
  do 2 eexists. split; [reflexivity|]. split; [reflexivity|]. unfold finish. cbn [row2 w4]. split.
  - assert (0 < 2 * n * 1 / (1 - n)) by (apply Rdiv_lt_0_compat; lra). replace (- 2 * n * 1 / (1 - n)) with (- (2 * n * 1 / (1 - n))) by (field; lra). lra.
  - apply rnd32_tiny. set (y := fsub 1 n) in *. clearbody y.
    assert (P : 0 < bpow radix2 (-159)) by apply bpow_gt_0.
    assert (I : / y <= 2) by (replace 2 with (/ / 2) by field; apply Rinv_le_contravar; lra). assert (I0 : 0 < / y) by (apply Rinv_0_lt_compat; lra).
    assert (X : bpow radix2 (-158) = bpow radix2 (-159) * 2) by (change (-158)%Z with (-159 + 1)%Z; rewrite bpow_plus; reflexivity).
    assert (Q : - bpow radix2 (-158) <= - bpow radix2 (-159) / y <= 0) by (unfold Rdiv; nra).
    apply Rabs_le. split.
    + rewrite <- rnd_opp_bpow by lia. now apply rnd_le.
    + apply Rle_trans with 0; [|rewrite X; lra]. rewrite <- rnd_0. now apply rnd_le.
Qed.

(** ** The picture, with the matrices that the camera computes *)
Lemma optics_close L T theta phi l : good_library L -> good_tangent T -> Forall on_screen l ->
  exists b b' m proj proj', fnew L theta phi = Ok b /\ facts L b l = Ok b' /\ rotation m /\ near (/ 10 ^ 7) (t_model b') m /\
    perspective 35 1 1 100 false = Ok proj /\ camera_proj_computed T = Ok proj' /\
    forall s view' p q, / 1000 <= s <= 1000 -> in_cube s p -> camera_view_computed 5 s view' ->
      placed_computed (transpose (t_model b')) view' proj' p q ->
      within (/ 10 ^ 5) q (exact_place (clip (transpose m) (camera_view s) proj p)).
Proof.
  intros GL GT O. destruct (picture_close L theta phi l GL O) as (b & b' & m & proj & E1 & E2 & R & N & P & H).
  destruct (proj_stored T GT) as (A & B & PA & PB & S). rewrite P in PA. injection PA as <-.
  exists b, b', m, proj, B. repeat (split; [assumption|]). intros s view' p q Hs C V Q. apply (H s view' B p q Hs C); [apply view_stored; [lra|exact V]|exact S|exact Q].
Qed.
Lemma optics_pixels L T theta phi l : good_library L -> good_tangent T -> Forall on_screen l ->
  exists b b' m proj proj', fnew L theta phi = Ok b /\ facts L b l = Ok b' /\ rotation m /\ near (/ 10 ^ 7) (t_model b') m /\
    perspective 35 1 1 100 false = Ok proj /\ camera_proj_computed T = Ok proj' /\
    forall v s view' p q, usable v -> Rabs (unit_x v) <= 1000 -> Rabs (unit_y v) <= 1000 ->
      / 1000 <= s <= 1000 -> in_cube s p -> camera_view_computed 5 s view' ->
      placed_computed (transpose (t_model b')) view' proj' p q ->
      exists x y x' y', on_canvas v (Vec.Num (x3 q)) (Vec.Num (y3 q)) = Some (x, y) /\
        spot v (clip (transpose m) (camera_view s) proj p) = Some (x', y') /\ Rabs (x - x') <= / 100 /\ Rabs (y - y') <= / 100.
Proof.
  intros GL GT O. destruct (picture_pixels L theta phi l GL O) as (b & b' & m & proj & E1 & E2 & R & N & P & H).
  destruct (proj_stored T GT) as (A & B & PA & PB & S). rewrite P in PA. injection PA as <-.
  exists b, b', m, proj, B. repeat (split; [assumption|]). intros v s view' p q U X Y Hs C V Q. apply (H v s view' B p q U X Y Hs C); [apply view_stored; [lra|exact V]|exact S|exact Q].
Qed.
Lemma rounded_tangent : good_tangent (fun x => rnd (tan x)).
Proof.
  intros x _. unfold good. eapply Rle_trans; [apply rnd_err|]. pose proof (Rabs_pos (tan x)).
  assert (A : u * Rabs (tan x) <= / 2 ^ 51 * Rabs (tan x)) by (apply Rmult_le_compat_r; [assumption|unfold u; cbn [pow]; lra]).
  assert (B : DriftRound.eta <= bpow radix2 (-1074)) by (unfold DriftRound.eta; apply bpow_le; lia). lra.
Qed.
Lemma scale_translate_stored v t : (forall x, In x [x3 v; y3 v; z3 v] -> x = 0 \/ / 10 ^ 20 <= Rabs x) -> stored (scale v t) (fscale v t) /\ stored (translate v t) (ftranslate v t).
Proof.
  intros H. assert (K : forall x, In x [x3 v; y3 v; z3 v] -> held x (rnd32 x)).
  { intros x I. destruct (H x I) as [-> | B]; [rewrite rnd32_0; apply held_0|now apply held_1]. }
  split; apply stored_finish; unfold stored, held4; cbn [row0 row1 row2 row3 x4 y4 z4 w4]; repeat split; try apply held_0; try apply held_one; apply K; cbn; tauto.
Qed.
Lemma near_refuted : exists n A B, 0 < n < 1 /\ frustum (-1) 1 (-1) 1 n 1 false = Ok A /\ ffrustum (-1) 1 (-1) 1 n 1 false = Ok B /\
  w4 (row2 A) < 0 /\ w4 (row2 B) = 0 /\ ~ stored A B.
Proof.
  destruct (near_lost _ eq_refl) as (A & B & E1 & E2 & H1 & H2). exists (bpow radix2 (-160)), A, B. split.
  - split; [apply bpow_gt_0|]. change 1 with (bpow radix2 0). apply bpow_lt. lia.
  - repeat (split; [assumption|]). intros (_ & _ & (_ & _ & _ & H) & _). unfold held in H. rewrite H2, Rminus_0_l, Rabs_Ropp in H.
    assert (0 < Rabs (w4 (row2 A))) by (apply Rabs_pos_lt; lra). cbn [pow] in H. lra.
Qed.
Lemma camera_stored T s V : good_tangent T -> / 1000 <= s -> camera_view_computed 5 s V ->
  stored (camera_view s) V /\ exists A B, perspective 35 1 1 100 false = Ok A /\ camera_proj_computed T = Ok B /\ stored A B.
Proof. intros G S H. split; [now apply view_stored|now apply proj_stored]. Qed.
