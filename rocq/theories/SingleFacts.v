(** Bounds on the rounding of pictures. *)
From Coq Require Import Reals Lra Psatz List Permutation ZArith.
From Flocq Require Import Core.
From Flocq Require Import Relative.
From Verif Require Import Base Glm GlmSpec Trackball TrackballSpec Drift DriftSpec DriftRound DriftFacts DriftFollow Viewport Picture PictureSpec PictureFacts Single SingleSpec.
Import ListNotations.
Local Open Scope R_scope.

(** ** One operation *)
Definition u24 : R := / 16777216.
Definition eta : R := / 10 ^ 30.
Lemma eta_pos : 0 < eta. Proof. unfold eta. apply Rinv_0_lt_compat, pow_lt. lra. Qed.
Lemma eta_small : bpow radix2 (-100) <= eta.
Proof. rewrite bpow_neg100. unfold eta. apply Rinv_le_contravar; [apply pow_lt; lra|]. cbn [pow]. lra. Qed.
Lemma round_err emin prec x : (0 < prec)%Z -> (24 <= prec)%Z -> (emin <= -100)%Z ->
  Rabs (round radix2 (FLT_exp emin prec) ZnearestE x - x) <= u24 * Rabs x + eta.
Proof.
  intros P P' M. destruct (error_N_FLT radix2 emin prec P (fun x => negb (Z.even x)) x) as (e & d & H1 & H2 & _ & H3).
  rewrite H3. replace (x * (1 + e) + d - x) with (e * x + d) by ring.
  assert (A : / 2 * bpow radix2 (- prec + 1) <= u24).
  { replace u24 with (/ 2 * bpow radix2 (- 24 + 1)) by (unfold u24; cbn -[Rmult Rinv]; lra).
    apply Rmult_le_compat_l; [lra|]. apply bpow_le. lia. }
  assert (B : bpow radix2 emin <= bpow radix2 (-100)) by (apply bpow_le; lia). pose proof eta_small.
  pose proof (bpow_ge_0 radix2 emin).
  eapply Rle_trans; [apply Rabs_triang|]. rewrite Rabs_mult.
  assert (C : Rabs e * Rabs x <= u24 * Rabs x) by (apply Rmult_le_compat_r; [apply Rabs_pos|lra]). lra.
Qed.
Lemma result_err x y : result x y -> Rabs (y - x) <= u24 * Rabs x + eta.
Proof. intros [-> | ->]; apply round_err; lia. Qed.

(** ** Sums of products *)
Lemma total_app l m : total (l ++ m) = total l + total m.
Proof. induction l as [|[a b] l IH]; cbn; [ring|rewrite IH; ring]. Qed.
Lemma weight_app l m : weight (l ++ m) = weight l + weight m.
Proof. induction l as [|[a b] l IH]; cbn; [ring|rewrite IH; ring]. Qed.
Lemma total_perm l m : Permutation l m -> total l = total m.
Proof. induction 1 as [|[] ? ? ? ?|[] []|]; cbn; lra. Qed.
Lemma weight_perm l m : Permutation l m -> weight l = weight m.
Proof. induction 1 as [|[] ? ? ? ?|[] []|]; cbn; lra. Qed.
Lemma weight_pos l : 0 <= weight l.
Proof. induction l as [|[a b] l IH]; cbn; [lra|pose proof (Rabs_pos (a * b)); lra]. Qed.
Lemma total_weight l : Rabs (total l) <= weight l.
Proof. induction l as [|[a b] l IH]; cbn; [rewrite Rabs_R0; lra|]. eapply Rle_trans; [apply Rabs_triang|lra]. Qed.

Definition g (n : nat) : R := (1 + u24) ^ n - 1.
Lemma g_mono n m : (n <= m)%nat -> g n <= g m.
Proof. intros H. unfold g. pose proof (Rle_pow (1 + u24) n m ltac:(unfold u24; lra) H). lra. Qed.
Lemma g_S n : g (S n) = (1 + u24) * g n + u24.
Proof. unfold g. cbn [pow]. ring. Qed.
Lemma g_pos n : 0 <= g n.
Proof. pose proof (g_mono 0 n ltac:(lia)) as H. unfold g in H at 1. cbn [pow] in H. lra. Qed.
Lemma four_ge n : (1 <= n)%nat -> 4 <= 4 ^ n.
Proof. intros H. pose proof (Rle_pow 4 1 n ltac:(lra) H) as K. cbn [pow] in K. lra. Qed.

Lemma merge n m S1 S2 E1 E2 x y t1 t2 r : (1 <= n)%nat -> (1 <= m)%nat -> 0 <= S1 -> 0 <= S2 ->
  Rabs t1 <= S1 -> Rabs t2 <= S2 -> E1 = g n * S1 + 4 ^ n * eta -> E2 = g m * S2 + 4 ^ m * eta ->
  Rabs (x - t1) <= E1 -> Rabs (y - t2) <= E2 -> Rabs (r - (x + y)) <= u24 * Rabs (x + y) + eta ->
  Rabs (r - (t1 + t2)) <= g (n + m) * (S1 + S2) + 4 ^ (n + m) * eta.
Proof.
  intros N M P1 P2 T1 T2 D1 D2 A B C.
  assert (F : Rabs (x + y) <= S1 + S2 + E1 + E2).
  { replace (x + y) with ((x - t1) + (y - t2) + (t1 + t2)) by ring.
    pose proof (Rabs_triang (x - t1 + (y - t2)) (t1 + t2)). pose proof (Rabs_triang (x - t1) (y - t2)). pose proof (Rabs_triang t1 t2). lra. }
  assert (G : Rabs (r - (t1 + t2)) <= (1 + u24) * (E1 + E2) + u24 * (S1 + S2) + eta).
  { replace (r - (t1 + t2)) with ((r - (x + y)) + ((x - t1) + (y - t2))) by ring.
    pose proof (Rabs_triang (r - (x + y)) (x - t1 + (y - t2))). pose proof (Rabs_triang (x - t1) (y - t2)).
    assert (u24 * Rabs (x + y) <= u24 * (S1 + S2 + E1 + E2)) by (apply Rmult_le_compat_l; [unfold u24; lra|exact F]). lra. }
  eapply Rle_trans; [exact G|]. subst E1 E2.
  assert (K1 : g n <= g (n + m - 1)) by (apply g_mono; lia). assert (K2 : g m <= g (n + m - 1)) by (apply g_mono; lia).
  replace (n + m)%nat with (S (n + m - 1)) at 1 by lia. rewrite g_S. set (k := g (n + m - 1)) in *.
  pose proof (g_pos n). pose proof (g_pos m). rewrite pow_add. pose proof (four_ge n N) as Q1. pose proof (four_ge m M) as Q2.
  set (X := 4 ^ n) in *. set (Y := 4 ^ m) in *. pose proof eta_pos.
  assert (Z1 : g n * S1 <= k * S1) by (apply Rmult_le_compat_r; lra). assert (Z2 : g m * S2 <= k * S2) by (apply Rmult_le_compat_r; lra).
  assert (Z3 : (1 + u24) * (X + Y) + 1 <= X * Y) by (unfold u24; nra).
  assert (Z4 : ((1 + u24) * (X + Y) + 1) * eta <= X * Y * eta) by (apply Rmult_le_compat_r; lra).
  assert (Z5 : (1 + u24) * (g n * S1 + g m * S2) <= (1 + u24) * (k * S1 + k * S2)) by (apply Rmult_le_compat_l; [unfold u24|]; lra).
  lra.
Qed.

Lemma summed_len l r : summed l r -> (1 <= length l)%nat.
Proof.
  induction 1 as [| |? ? ? ? ? ? ? ? ? |l m r H IH P]; cbn; try lia.
  - rewrite app_length. lia.
  - now rewrite <- (Permutation_length P).
Qed.
Lemma summed_err l r : summed l r -> Rabs (r - total l) <= g (length l) * weight l + 4 ^ length l * eta.
Proof.
  induction 1 as [a b r H|a b l x r H IH K|l m x y r H IH H' IH' K|l m r H IH P].
  - apply result_err in H. cbn [total weight length]. rewrite !Rplus_0_r. pose proof eta_pos. unfold g. cbn [pow]. lra.
  - apply result_err in K. pose proof (summed_len _ _ H) as N. cbn [total weight length].
    replace (S (length l)) with (1 + length l)%nat by lia.
    eapply (merge 1 (length l) (Rabs (a * b)) (weight l) _ _ (a * b) x); try reflexivity; try lia; try exact IH.
    + apply Rabs_pos. + apply weight_pos. + lra. + apply total_weight.
    + rewrite Rminus_eq_0, Rabs_R0. pose proof (g_pos 1). pose proof (Rabs_pos (a * b)). pose proof eta_pos. cbn [pow]. nra.
    + now rewrite (Rplus_comm (a * b) x).
  - apply result_err in K. pose proof (summed_len _ _ H). pose proof (summed_len _ _ H').
    rewrite total_app, weight_app, app_length.
    eapply (merge (length l) (length m) (weight l) (weight m)); try reflexivity; eauto using weight_pos, total_weight.
  - now rewrite <- (total_perm _ _ P), <- (weight_perm _ _ P), <- (Permutation_length P).
Qed.

(** Four terms. *)
Definition e4 : R := 24 / 10 ^ 8.
Definition eta4 : R := 256 / 10 ^ 30.
Lemma g4_small : g 4 <= e4.
Proof. unfold g, e4, u24. cbn [pow]. lra. Qed.
Lemma e4_range : 0 <= e4 <= 24 / 10 ^ 8. Proof. unfold e4. cbn [pow]. lra. Qed.
Lemma eta4_eq : 4 ^ 4 * eta = eta4.
Proof. unfold eta4, eta, Rdiv. f_equal. cbn [pow]. lra. Qed.
Lemma eta4_range : 0 < eta4 <= / 10 ^ 27.
Proof. rewrite <- eta4_eq. split; [pose proof eta_pos; cbn [pow]; lra|]. unfold eta. cbn [pow]. lra. Qed.
Definition weight4 (a b : vec4) : R := Rabs (x4 a * x4 b) + Rabs (y4 a * y4 b) + Rabs (z4 a * z4 b) + Rabs (w4 a * w4 b).
Lemma terms_err a b r : summed (terms a b) r -> Rabs (r - dot4 a b) <= e4 * weight4 a b + eta4.
Proof.
  intros H. apply summed_err in H. change (length (terms a b)) with 4%nat in H. rewrite eta4_eq in H.
  assert (E : total (terms a b) = dot4 a b) by (unfold terms, dot4; cbn [total]; ring).
  assert (W : weight (terms a b) = weight4 a b) by (unfold terms, weight4; cbn [weight]; ring).
  rewrite E, W in H. assert (0 <= weight4 a b) by (rewrite <- W; apply weight_pos).
  pose proof (Rmult_le_compat_r _ _ _ H0 g4_small). lra.
Qed.

(** ** A row through a matrix *)
Definition off (e t a al ah : R) : Prop := Rabs (ah - a) <= e * al + t /\ Rabs a <= al.
Definition off4 (e t : R) (a al ah : vec4) : Prop :=
  off e t (x4 a) (x4 al) (x4 ah) /\ off e t (y4 a) (y4 al) (y4 ah) /\ off e t (z4 a) (z4 al) (z4 ah) /\ off e t (w4 a) (w4 al) (w4 ah).
Definition rel (mu v vh : R) : Prop := Rabs (vh - v) <= mu * Rabs v.
Definition rel4 (mu : R) (v vh : vec4) : Prop := rel mu (x4 v) (x4 vh) /\ rel mu (y4 v) (y4 vh) /\ rel mu (z4 v) (z4 vh) /\ rel mu (w4 v) (w4 vh).

Lemma one_off e t mu K a al ah v vh : 0 <= e -> 0 <= t -> 0 <= mu <= 1 -> off e t a al ah -> rel mu v vh -> Rabs v <= K ->
  Rabs (ah * vh - a * v) <= ((1 + e) * (1 + mu) - 1) * (al * Rabs v) + 2 * t * K /\
  Rabs (ah * vh) <= (1 + e) * (1 + mu) * (al * Rabs v) + 2 * t * K /\ Rabs (a * v) <= al * Rabs v.
Proof.
  intros E T M (A & B) V L. unfold rel in V.
  pose proof (Rabs_pos a) as PA. pose proof (Rabs_pos v) as PV. pose proof (Rabs_pos (ah - a)) as PD. pose proof (Rabs_pos (vh - v)) as PW.
  assert (H1 : Rabs ah <= (1 + e) * al + t).
  { replace ah with ((ah - a) + a) by ring. eapply Rle_trans; [apply Rabs_triang|]. lra. }
  assert (H2 : Rabs vh <= (1 + mu) * Rabs v).
  { replace vh with ((vh - v) + v) by ring. eapply Rle_trans; [apply Rabs_triang|]. lra. }
  assert (TK : (1 + mu) * Rabs v * t <= 2 * K * t) by (apply Rmult_le_compat_r; [exact T|]; apply Rmult_le_compat; lra).
  assert (H3 : Rabs (a * v) <= al * Rabs v) by (rewrite Rabs_mult; apply Rmult_le_compat_r; lra).
  assert (AL : 0 <= al) by lra.
  split; [|split].
  - replace (ah * vh - a * v) with ((ah - a) * vh + a * (vh - v)) by ring.
    eapply Rle_trans; [apply Rabs_triang|]. rewrite !Rabs_mult.
    assert (Q1 : Rabs (ah - a) * Rabs vh <= (e * al + t) * ((1 + mu) * Rabs v)) by (apply Rmult_le_compat; auto using Rabs_pos).
    assert (Q2 : Rabs a * Rabs (vh - v) <= al * (mu * Rabs v)) by (apply Rmult_le_compat; auto using Rabs_pos).
    nra.
  - rewrite Rabs_mult.
    assert (Q1 : Rabs ah * Rabs vh <= ((1 + e) * al + t) * ((1 + mu) * Rabs v)) by (apply Rmult_le_compat; auto using Rabs_pos).
    nra.
  - exact H3.
Qed.
Lemma step e t mu K a al ah v vh r : 0 <= e -> 0 <= t -> 0 <= mu <= 1 -> 0 <= K -> off4 e t a al ah -> rel4 mu v vh -> big K v ->
  summed (terms ah vh) r ->
  off ((1 + e) * (1 + mu) * (1 + e4) - 1) (16 * K * t + eta4) (dot4 a v) (dot4 al (vabs v)) r.
Proof.
  intros E T M P (X & Y & Z & W) (VX & VY & VZ & VW) (BX & BY & BZ & BW) H. apply terms_err in H.
  destruct (one_off _ _ _ _ _ _ _ _ _ E T M X VX BX) as (X1 & X2 & X3).
  destruct (one_off _ _ _ _ _ _ _ _ _ E T M Y VY BY) as (Y1 & Y2 & Y3).
  destruct (one_off _ _ _ _ _ _ _ _ _ E T M Z VZ BZ) as (Z1 & Z2 & Z3).
  destruct (one_off _ _ _ _ _ _ _ _ _ E T M W VW BW) as (W1 & W2 & W3).
  assert (TK : 0 <= t * K) by (apply Rmult_le_pos; lra).
  unfold off, dot4, vabs, weight4 in *. cbn [x4 y4 z4 w4] in *. set (k := (1 + e) * (1 + mu)) in *.
  set (sx := x4 al * Rabs (x4 v)) in *. set (sy := y4 al * Rabs (y4 v)) in *. set (sz := z4 al * Rabs (z4 v)) in *. set (sw := w4 al * Rabs (w4 v)) in *.
  split.
  - set (D := x4 ah * x4 vh + y4 ah * y4 vh + z4 ah * z4 vh + w4 ah * w4 vh) in *.
    set (D0 := x4 a * x4 v + y4 a * y4 v + z4 a * z4 v + w4 a * w4 v).
    assert (Q : Rabs (D - D0) <= (k - 1) * (sx + sy + sz + sw) + 8 * (t * K)).
    { replace (D - D0) with ((x4 ah * x4 vh - x4 a * x4 v) + (y4 ah * y4 vh - y4 a * y4 v) + (z4 ah * z4 vh - z4 a * z4 v) + (w4 ah * w4 vh - w4 a * w4 v)) by (unfold D, D0; ring).
      eapply Rle_trans; [apply Rabs_triang|]. eapply Rle_trans; [apply Rplus_le_compat_r, Rabs_triang|].
      eapply Rle_trans; [apply Rplus_le_compat_r, Rplus_le_compat_r, Rabs_triang|]. lra. }
    replace (r - D0) with ((r - D) + (D - D0)) by ring. eapply Rle_trans; [apply Rabs_triang|].
    assert (Q2 : e4 * (Rabs (x4 ah * x4 vh) + Rabs (y4 ah * y4 vh) + Rabs (z4 ah * z4 vh) + Rabs (w4 ah * w4 vh)) <= e4 * (k * (sx + sy + sz + sw) + 8 * (t * K))).
    { apply Rmult_le_compat_l; [unfold e4; lra|]. lra. }
    assert (Q3 : e4 * (8 * (t * K)) <= 8 * (t * K)) by (unfold e4; lra). lra.
  - eapply Rle_trans; [apply Rabs_triang|]. eapply Rle_trans; [apply Rplus_le_compat_r, Rabs_triang|].
    eapply Rle_trans; [apply Rplus_le_compat_r, Rplus_le_compat_r, Rabs_triang|]. lra.
Qed.
Definition through (a : vec4) (B : mat) : vec4 :=
  V4 (dot4 a (row0 (transpose B))) (dot4 a (row1 (transpose B))) (dot4 a (row2 (transpose B))) (dot4 a (row3 (transpose B))).
Definition mrel (mu : R) (A B : mat) : Prop := rel4 mu (row0 A) (row0 B) /\ rel4 mu (row1 A) (row1 B) /\ rel4 mu (row2 A) (row2 B) /\ rel4 mu (row3 A) (row3 B).
Lemma row_step e t mu K a al ah B Bh c : 0 <= e -> 0 <= t -> 0 <= mu <= 1 -> 0 <= K -> off4 e t a al ah -> mrel mu B Bh -> mbig K B ->
  row_product ah Bh c -> off4 ((1 + e) * (1 + mu) * (1 + e4) - 1) (16 * K * t + eta4) (through a B) (through al (mabs B)) c.
Proof.
  intros E T M P O (R0 & R1 & R2 & R3) (B0 & B1 & B2 & B3) (H0 & H1 & H2 & H3).
  unfold rel4, big in *. unfold off4, through. cbn [x4 y4 z4 w4].
  split; [|split; [|split]]; (refine (step _ _ mu K _ _ _ _ _ _ E T M P O _ _ _); [| |eassumption]; unfold rel4, big, transpose; cbn; tauto).
Qed.
(** ** The transform and one vertex *)
Definition eps : R := / 10 ^ 6.
Definition tau : R := / 10 ^ 12.
Lemma coordinate (pr : vec4) prh (model view viewh : mat) p c1 c2 r :
  rel4 (/ 2 ^ 23) pr prh -> mrel (/ 2 ^ 23) view viewh -> mbig 1000 view -> mbig 1000 model -> big 1000 (point p) ->
  row_product prh viewh c1 -> row_product c1 model c2 -> summed (terms c2 (point p)) r ->
  Rabs (r - dot4 (through (through pr view) model) (point p)) <=
    eps * dot4 (through (through (vabs pr) (mabs view)) (mabs model)) (vabs (point p)) + tau.
Proof.
  intros HP HV BV BM BP H1 H2 H3. set (mu := / 2 ^ 23) in *. assert (MU : 0 <= mu <= 1) by (unfold mu; cbn [pow]; lra).
  assert (O : off4 mu 0 pr (vabs pr) prh).
  { unfold off4, off, rel4, rel, vabs in *. cbn [x4 y4 z4 w4]. rewrite !Rplus_0_r. intuition; lra. }
  pose proof e4_range as E4. pose proof eta4_range as T4.
  assert (Z0 : mrel 0 model model) by (unfold mrel, rel4, rel; rewrite ?Rminus_eq_0, Rabs_R0, !Rmult_0_l, ?Rminus_eq_0, ?Rabs_R0; repeat split; rewrite ?Rminus_eq_0, ?Rabs_R0; lra).
  assert (Z1 : rel4 0 (point p) (point p)) by (unfold rel4, rel; repeat split; rewrite ?Rminus_eq_0, ?Rabs_R0; lra).
  pose proof (row_step mu 0 mu 1000 pr (vabs pr) prh view viewh c1 ltac:(lra) ltac:(lra) MU ltac:(lra) O HV BV H1) as O1.
  set (e1 := (1 + mu) * (1 + mu) * (1 + e4) - 1) in *. set (t1 := 16 * 1000 * 0 + eta4) in *.
  assert (E1 : 0 <= e1 <= 479 / 10 ^ 9) by (unfold e1, mu, e4; cbn [pow]; lra).
  assert (T1 : 0 <= t1 <= / 10 ^ 27) by (unfold t1; lra).
  pose proof (row_step e1 t1 0 1000 _ _ c1 model model c2 ltac:(lra) ltac:(lra) ltac:(lra) ltac:(lra) O1 Z0 BM H2) as O2.
  set (e2 := (1 + e1) * (1 + 0) * (1 + e4) - 1) in *. set (t2 := 16 * 1000 * t1 + eta4) in *.
  assert (E2 : 0 <= e2 <= 72 / 10 ^ 8) by (unfold e2, e4; cbn [pow] in *; nra).
  assert (T2 : 0 <= t2 <= / 10 ^ 22) by (unfold t2; cbn [pow] in *; lra).
  pose proof (step e2 t2 0 1000 _ _ c2 (point p) (point p) r ltac:(lra) ltac:(lra) ltac:(lra) ltac:(lra) O2 Z1 BP H3) as (O3 & O4).
  eapply Rle_trans; [exact O3|]. clear O O1 O2 O3 H1 H2 H3.
  set (W := dot4 _ (vabs (point p))) in *. assert (PW : 0 <= W) by (eapply Rle_trans; [apply Rabs_pos|exact O4]).
  assert (E3 : (1 + e2) * (1 + 0) * (1 + e4) - 1 <= eps) by (unfold e4, eps in *; cbn [pow] in *; nra).
  assert (T3 : 16 * 1000 * t2 + eta4 <= tau) by (unfold tau; cbn [pow] in *; lra).
  pose proof (Rmult_le_compat_r _ _ _ PW E3). lra.
Qed.

Lemma through_clip pr view model v : dot4 (through (through pr view) model) v = dot4 pr (apply4 view (apply4 model v)).
Proof. unfold through, dot4, apply4, transpose, dot4. cbn [row0 row1 row2 row3 x4 y4 z4 w4]. ring. Qed.
Lemma vabs_point p : vabs (point p) = point (pabs p).
Proof. unfold vabs, point, pabs. cbn [x3 y3 z3 x4 y4 z4 w4]. now rewrite Rabs_R1. Qed.
Lemma rel_same v : rel4 (/ 2 ^ 23) v v.
Proof.
  assert (K : forall x, rel (/ 2 ^ 23) x x) by (intros x; unfold rel; rewrite Rminus_eq_0, Rabs_R0; apply Rmult_le_pos; [cbn [pow]; lra|apply Rabs_pos]).
  repeat split; apply K.
Qed.
Lemma any_matrices model view proj p T c : mbig 1000 model -> mbig 1000 view -> big 1000 (point p) ->
  transform_computed model view proj T -> moved T p c ->
  let e := clip model view proj p in let w := clip (mabs model) (mabs view) (mabs proj) (pabs p) in
  millionth (x4 c) (x4 e) (x4 w) /\ millionth (y4 c) (y4 e) (y4 w) /\ millionth (z4 c) (z4 e) (z4 w) /\ millionth (w4 c) (w4 e) (w4 w).
Proof.
  intros BM BV BP (PV & (P0 & P1 & P2 & P3) & (Q0 & Q1 & Q2 & Q3)) (M0 & M1 & M2 & M3).
  assert (RV : mrel (/ 2 ^ 23) view view) by (repeat split; apply rel_same).
  pose proof (coordinate _ _ model _ _ p _ _ _ (rel_same (row0 proj)) RV BV BM BP P0 Q0 M0) as C0.
  pose proof (coordinate _ _ model _ _ p _ _ _ (rel_same (row1 proj)) RV BV BM BP P1 Q1 M1) as C1.
  pose proof (coordinate _ _ model _ _ p _ _ _ (rel_same (row2 proj)) RV BV BM BP P2 Q2 M2) as C2.
  pose proof (coordinate _ _ model _ _ p _ _ _ (rel_same (row3 proj)) RV BV BM BP P3 Q3 M3) as C3.
  rewrite !through_clip, vabs_point in C0, C1, C2, C3. cbv zeta. auto.
Qed.

(** ** The camera of the examples *)
Definition lens (f : R) : mat := Mat (V4 f 0 0 0) (V4 0 f 0 0) (V4 0 0 (-101 / 99) (-200 / 99)) (V4 0 0 (-1) 0).
Lemma tan_above x : 0 < x < PI / 2 -> x <= tan x.
Proof.
  intros H. destruct (MVT_cor2 (fun t => sin t - t * cos t) (fun t => cos t - (1 * cos t + t * - sin t)) 0 x) as (c & E & C); [lra| |].
  - intros c _. apply (derivable_pt_lim_minus sin (fun t => t * cos t)); [apply derivable_pt_lim_sin|].
    apply (derivable_pt_lim_mult (fun t => t) cos); [apply derivable_pt_lim_id|apply derivable_pt_lim_cos].
  - rewrite sin_0, cos_0 in E. assert (S : 0 < sin c) by (apply sin_gt_0; lra). assert (P : 0 < c * sin c * x) by (repeat apply Rmult_lt_0_compat; lra).
    assert (K : 0 < cos x) by (apply cos_gt_0; lra). unfold tan. apply Rmult_le_reg_r with (cos x); [exact K|].
    unfold Rdiv. rewrite Rmult_assoc, Rinv_l by lra. lra.
Qed.
Lemma lens_ok : exists f, 0 < f <= 328 / 100 /\ 1 <= f /\ perspective 35 1 1 100 false = Ok (lens f).
Proof.
  set (h := tan (/ 2 * radians 35)). assert (H : 305 / 1000 <= h).
  { unfold h, radians. set (x := / 2 * (35 * (PI / 180))). assert (X : 305 / 1000 <= x < PI / 2).
    { unfold x. pose proof pi_bounds. lra. }
    apply Rle_trans with x; [lra|]. apply tan_above. lra. }
  assert (H1 : h <= 1).
  { rewrite <- tan_PI4. left. unfold h, radians. pose proof pi_bounds. apply tan_increasing; lra. }
  exists (/ h). split; [|split].
  - split; [apply Rinv_0_lt_compat; lra|]. apply Rmult_le_reg_l with h; [lra|]. rewrite Rinv_r by lra. lra.
  - rewrite <- Rinv_1 at 1. apply Rinv_le_contravar; lra.
  - unfold perspective. fold h. cbv zeta. rewrite !Rmult_1_r. unfold frustum, div.
    repeat (destruct (Req_EM_T _ 0); [lra|cbn [bind]]). f_equal. unfold finish, lens. f_equal; f_equal; field; lra.
Qed.

(** The sums of the absolute values in a row of a matrix that keeps lengths. *)
Definition row_weight (r : vec4) (p : vec3) : R := Rabs (x4 r) * Rabs (x3 p) + Rabs (y4 r) * Rabs (y3 p) + Rabs (z4 r) * Rabs (z3 p).
Definition signed (a b : R) : R := if Rle_dec 0 a then Rabs b else - Rabs b.
Lemma signed_mul a b : a * signed a b = Rabs a * Rabs b.
Proof. unfold signed. destruct (Rle_dec 0 a); [rewrite (Rabs_pos_eq a) by lra; ring|rewrite (Rabs_left a) by lra; ring]. Qed.
Lemma signed_sq a b : signed a b * signed a b = b * b.
Proof. unfold signed. pose proof (Rsqr_abs b) as H. unfold Rsqr in H. destruct (Rle_dec 0 a); lra. Qed.
Lemma row_bound N p : (forall q, dot (block N q) (block N q) = dot q q) ->
  row_weight (row0 N) p * row_weight (row0 N) p <= dot p p /\ row_weight (row1 N) p * row_weight (row1 N) p <= dot p p /\
  row_weight (row2 N) p * row_weight (row2 N) p <= dot p p.
Proof.
  intros H.
  assert (K : forall r, exists q, dot q q = dot p p /\ x4 r * x3 q + y4 r * y3 q + z4 r * z3 q = row_weight r p).
  { intros r. exists (V3 (signed (x4 r) (x3 p)) (signed (y4 r) (y3 p)) (signed (z4 r) (z3 p))). split.
    - unfold dot. cbn [x3 y3 z3]. now rewrite !signed_sq.
    - unfold row_weight. cbn [x3 y3 z3]. now rewrite !signed_mul. }
  destruct (K (row0 N)) as (q0 & Q0 & <-). destruct (K (row1 N)) as (q1 & Q1 & <-). destruct (K (row2 N)) as (q2 & Q2 & <-).
  pose proof (H q0) as H0. pose proof (H q1) as H1. pose proof (H q2) as H2. rewrite Q0 in H0. rewrite Q1 in H1. rewrite Q2 in H2.
  split; [rewrite <- H0|split; [rewrite <- H1|rewrite <- H2]]; clear; unfold dot, block; cbn [x3 y3 z3];
  match goal with |- ?a * ?a <= ?b * ?b + ?c * ?c + ?d * ?d => pose proof (Rle_0_sqr b); pose proof (Rle_0_sqr c); pose proof (Rle_0_sqr d); unfold Rsqr in *; lra end.
Qed.
Lemma row_entry r K : (forall p, row_weight r p * row_weight r p <= dot p p) -> 1 <= K -> Rabs (x4 r) <= K /\ Rabs (y4 r) <= K /\ Rabs (z4 r) <= K.
Proof.
  intros H L. pose proof (H (V3 1 0 0)) as A. pose proof (H (V3 0 1 0)) as B. pose proof (H (V3 0 0 1)) as C.
  unfold row_weight, dot in *. cbn [x3 y3 z3] in *. rewrite !Rabs_R1, !Rabs_R0 in *.
  pose proof (Rabs_pos (x4 r)). pose proof (Rabs_pos (y4 r)). pose proof (Rabs_pos (z4 r)). repeat split; nra.
Qed.
Lemma sum3 a b c a' b' c' k : Rabs (a - a') <= k -> Rabs (b - b') <= k -> Rabs (c - c') <= k -> Rabs (a + b + c - (a' + b' + c')) <= 3 * k.
Proof. intros A B C. apply Rabs_le_iff in A, B, C. apply Rabs_le. lra. Qed.
Lemma turn_close s r r' p : 0 < s -> in_cube s p -> near4 (/ 10 ^ 7) r r' ->
  Rabs (s * (x4 r * x3 p + y4 r * y3 p + z4 r * z3 p) - s * (x4 r' * x3 p + y4 r' * y3 p + z4 r' * z3 p)) <= 3 / 10 ^ 7 /\
  s * row_weight r p <= s * row_weight r' p + 3 / 10 ^ 7.
Proof.
  intros S (X & Y & Z) (A & B & C & _). set (k := / 10 ^ 7) in *.
  assert (D : forall m m' x, Rabs (m - m') <= k -> Rabs (s * x) <= 1 -> Rabs (m * (s * x) - m' * (s * x)) <= k /\ Rabs m * (s * Rabs x) - Rabs m' * (s * Rabs x) <= k).
  { intros m m' x HM HX. assert (P : Rabs (m - m') * Rabs (s * x) <= k * 1) by (apply Rmult_le_compat; auto using Rabs_pos).
    split.
    - rewrite <- Rmult_minus_distr_r, Rabs_mult. lra.
    - rewrite Rabs_mult, (Rabs_pos_eq s) in HX by lra. rewrite Rabs_mult, (Rabs_pos_eq s) in P by lra.
      pose proof (Rabs_triang_inv m m') as T. assert (0 <= s * Rabs x) by (apply Rmult_le_pos; [lra|apply Rabs_pos]).
      pose proof (Rmult_le_compat_r _ _ _ H T). lra. }
  destruct (D _ _ _ A X) as [A1 A2], (D _ _ _ B Y) as [B1 B2], (D _ _ _ C Z) as [C1 C2]. split.
  - replace (s * (x4 r * x3 p + y4 r * y3 p + z4 r * z3 p)) with (x4 r * (s * x3 p) + y4 r * (s * y3 p) + z4 r * (s * z3 p)) by ring.
    replace (s * (x4 r' * x3 p + y4 r' * y3 p + z4 r' * z3 p)) with (x4 r' * (s * x3 p) + y4 r' * (s * y3 p) + z4 r' * (s * z3 p)) by ring.
    replace (3 / 10 ^ 7) with (3 * k) by (unfold k; lra). now apply sum3.
  - unfold row_weight. replace (3 / 10 ^ 7) with (3 * k) by (unfold k; lra). lra.
Qed.
Lemma sq_le a : 0 <= a -> a * a <= 3 -> a <= 173206 / 100000.
Proof. intros. nra. Qed.

Section Core.
Variables (f s : R) (M N viewh projh T : mat) (p : vec3) (c : vec4).
Hypotheses (F : 0 < f <= 328 / 100) (S : / 1000 <= s <= 1000) (I : in_cube s p) (BM : only_block M)
  (NE : near (/ 10 ^ 7) M N) (NN : forall q, dot (block N q) (block N q) = dot q q)
  (SV : stored (camera_view s) viewh) (SP : stored (lens f) projh)
  (HT : transform_computed M viewh projh T) (HM : moved T p c).
Let X (r : vec4) : R := s * (x4 r * x3 p + y4 r * y3 p + z4 r * z3 p).
Let A (r : vec4) : R := s * row_weight r p.

Lemma scaled_dot : s * s * dot p p <= 3.
Proof.
  destruct I as (X1 & Y1 & Z1). apply Rabs_le_iff in X1, Y1, Z1. unfold dot.
  assert (K : forall t, -1 <= t <= 1 -> t * t <= 1) by (intros; nra). pose proof (K _ X1). pose proof (K _ Y1). pose proof (K _ Z1). lra.
Qed.
Lemma rows_N : (forall q, row_weight (row0 N) q * row_weight (row0 N) q <= dot q q) /\ (forall q, row_weight (row1 N) q * row_weight (row1 N) q <= dot q q) /\
  (forall q, row_weight (row2 N) q * row_weight (row2 N) q <= dot q q).
Proof. repeat split; intros q; apply (row_bound N q NN). Qed.
Lemma weight_N r : (forall q, row_weight r q * row_weight r q <= dot q q) -> 0 <= A r <= 173206 / 100000 /\ Rabs (X r) <= A r.
Proof.
  intros H. pose proof scaled_dot. assert (P : 0 <= row_weight r p).
  { unfold row_weight. pose proof (Rabs_pos (x4 r)). pose proof (Rabs_pos (y4 r)). pose proof (Rabs_pos (z4 r)). pose proof (Rabs_pos (x3 p)). pose proof (Rabs_pos (y3 p)). pose proof (Rabs_pos (z3 p)).
    repeat apply Rplus_le_le_0_compat; now apply Rmult_le_pos. }
  assert (Q : 0 <= A r) by (unfold A; apply Rmult_le_pos; lra). split; [split; [exact Q|]|].
  - apply sq_le; [exact Q|]. unfold A. replace (s * row_weight r p * (s * row_weight r p)) with (s * s * (row_weight r p * row_weight r p)) by ring.
    assert (0 <= s * s) by nra. pose proof (Rmult_le_compat_l _ _ _ H1 (H p)). lra.
  - unfold X, A, row_weight. rewrite Rabs_mult, (Rabs_pos_eq s) by lra. apply Rmult_le_compat_l; [lra|].
    eapply Rle_trans; [apply Rabs_triang|]. rewrite Rabs_mult. apply Rplus_le_compat_r.
    eapply Rle_trans; [apply Rabs_triang|]. rewrite !Rabs_mult. lra.
Qed.
Lemma close_M : Rabs (X (row0 M) - X (row0 N)) <= 3 / 10 ^ 7 /\ Rabs (X (row1 M) - X (row1 N)) <= 3 / 10 ^ 7 /\ Rabs (X (row2 M) - X (row2 N)) <= 3 / 10 ^ 7 /\
  A (row0 M) <= 17321 / 10000 /\ A (row1 M) <= 17321 / 10000 /\ A (row2 M) <= 17321 / 10000.
Proof.
  destruct NE as (E0 & E1 & E2 & _). destruct rows_N as (N0 & N1 & N2).
  destruct (turn_close s _ _ p ltac:(lra) I E0) as [P0 Q0], (turn_close s _ _ p ltac:(lra) I E1) as [P1 Q1], (turn_close s _ _ p ltac:(lra) I E2) as [P2 Q2].
  destruct (weight_N _ N0) as [R0 _], (weight_N _ N1) as [R1 _], (weight_N _ N2) as [R2 _]. unfold A in *. cbn [pow] in Q0, Q1, Q2.
  do 3 (split; [assumption|]). repeat split; lra.
Qed.
Lemma bigs : mbig 1000 (camera_view s) /\ mbig 1000 M /\ big 1000 (point p).
Proof.
  split; [|split].
  - unfold mbig, big, camera_view. cbn [row0 row1 row2 row3 x4 y4 z4 w4]. repeat split; apply Rabs_le; lra.
  - destruct NE as (E0 & E1 & E2 & E3). destruct rows_N as (N0 & N1 & N2).
    pose proof (row_entry _ 1 N0 ltac:(lra)) as K0. pose proof (row_entry _ 1 N1 ltac:(lra)) as K1. pose proof (row_entry _ 1 N2 ltac:(lra)) as K2.
    destruct BM as (W0 & W1 & W2 & R3). unfold near4 in *. unfold mbig, big. rewrite W0, W1, W2, R3. cbn [x4 y4 z4 w4]. rewrite Rabs_R0, Rabs_R1.
    assert (C : forall a b, Rabs (a - b) <= / 10 ^ 7 -> Rabs b <= 1 -> Rabs a <= 1000).
    { intros a b P Q. apply Rabs_le_iff in P, Q. apply Rabs_le. cbn [pow] in P. lra. }
    destruct E0 as (? & ? & ? & _), E1 as (? & ? & ? & _), E2 as (? & ? & ? & _), K0 as (? & ? & ?), K1 as (? & ? & ?), K2 as (? & ? & ?).
    repeat split; try lra; eapply C; eassumption.
  - destruct I as (X1 & Y1 & Z1). assert (K : forall t, Rabs (s * t) <= 1 -> Rabs t <= 1000).
    { intros t H. rewrite Rabs_mult, (Rabs_pos_eq s) in H by lra. pose proof (Rabs_pos t). nra. }
    unfold big, point. cbn [x4 y4 z4 w4]. rewrite Rabs_R1. repeat split; auto; lra.
Qed.
Lemma coordinates :
  Rabs (x4 c - f * X (row0 M)) <= eps * (f * A (row0 M)) + tau /\
  Rabs (y4 c - f * X (row1 M)) <= eps * (f * A (row1 M)) + tau /\
  Rabs (z4 c - (101 / 99 * (5 - X (row2 M)) - 200 / 99)) <= eps * (101 / 99 * (5 + A (row2 M)) + 200 / 99) + tau /\
  Rabs (w4 c - (5 - X (row2 M))) <= eps * (5 + A (row2 M)) + tau.
Proof.
  destruct bigs as (BV & BMM & BP). destruct HT as (PV & (P0 & P1 & P2 & P3) & (Q0 & Q1 & Q2 & Q3)). destruct HM as (M0 & M1 & M2 & M3).
  destruct SP as (L0 & L1 & L2 & L3).
  assert (RV : mrel (/ 2 ^ 23) (camera_view s) viewh) by exact SV.
  assert (RS : Rabs s = s) by (apply Rabs_pos_eq; lra). assert (RF : Rabs f = f) by (apply Rabs_pos_eq; lra).
  destruct BM as (W0 & W1 & W2 & R3).
  pose proof (coordinate (row0 (lens f)) _ M _ _ p _ _ _ L0 RV BV BMM BP P0 Q0 M0) as C0.
  pose proof (coordinate (row1 (lens f)) _ M _ _ p _ _ _ L1 RV BV BMM BP P1 Q1 M1) as C1.
  pose proof (coordinate (row2 (lens f)) _ M _ _ p _ _ _ L2 RV BV BMM BP P2 Q2 M2) as C2.
  pose proof (coordinate (row3 (lens f)) _ M _ _ p _ _ _ L3 RV BV BMM BP P3 Q3 M3) as C3.
  assert (H5 : Rabs (-5) = 5) by (rewrite Rabs_left; lra). assert (H1 : Rabs (-1) = 1) by (rewrite Rabs_left; lra).
  assert (Ha : Rabs (-101 / 99) = 101 / 99) by (rewrite Rabs_left; lra). assert (Hb : Rabs (-200 / 99) = 200 / 99) by (rewrite Rabs_left; lra).
  unfold through, mabs, vabs, lens, camera_view, transpose, dot4, point in *. cbn [row0 row1 row2 row3 x4 y4 z4 w4] in *.
  rewrite W0, W1, W2, R3 in *. cbn [x4 y4 z4 w4] in *. rewrite ?RS, ?RF, ?Rabs_R0, ?Rabs_R1, ?H5, ?H1, ?Ha, ?Hb in *.
  unfold X, A, row_weight.
  split; [|split; [|split]].
  - match type of C0 with Rabs (_ - ?e) <= eps * ?w + tau => replace e with (f * (s * (x4 (row0 M) * x3 p + y4 (row0 M) * y3 p + z4 (row0 M) * z3 p))) in C0 by ring;
      replace w with (f * (s * (Rabs (x4 (row0 M)) * Rabs (x3 p) + Rabs (y4 (row0 M)) * Rabs (y3 p) + Rabs (z4 (row0 M)) * Rabs (z3 p)))) in C0 by ring end. exact C0.
  - match type of C1 with Rabs (_ - ?e) <= eps * ?w + tau => replace e with (f * (s * (x4 (row1 M) * x3 p + y4 (row1 M) * y3 p + z4 (row1 M) * z3 p))) in C1 by ring;
      replace w with (f * (s * (Rabs (x4 (row1 M)) * Rabs (x3 p) + Rabs (y4 (row1 M)) * Rabs (y3 p) + Rabs (z4 (row1 M)) * Rabs (z3 p)))) in C1 by ring end. exact C1.
  - match type of C2 with Rabs (_ - ?e) <= eps * ?w + tau => replace e with (101 / 99 * (5 - s * (x4 (row2 M) * x3 p + y4 (row2 M) * y3 p + z4 (row2 M) * z3 p)) - 200 / 99) in C2 by field;
      replace w with (101 / 99 * (5 + s * (Rabs (x4 (row2 M)) * Rabs (x3 p) + Rabs (y4 (row2 M)) * Rabs (y3 p) + Rabs (z4 (row2 M)) * Rabs (z3 p))) + 200 / 99) in C2 by field end. exact C2.
  - match type of C3 with Rabs (_ - ?e) <= eps * ?w + tau => replace e with (5 - s * (x4 (row2 M) * x3 p + y4 (row2 M) * y3 p + z4 (row2 M) * z3 p)) in C3 by ring;
      replace w with (5 + s * (Rabs (x4 (row2 M)) * Rabs (x3 p) + Rabs (y4 (row2 M)) * Rabs (y3 p) + Rabs (z4 (row2 M)) * Rabs (z3 p))) in C3 by ring end. exact C3.
Qed.
(** The numbers. *)
Lemma coordinates_close :
  Rabs (x4 c - f * X (row0 N)) <= 68 / 10 ^ 7 /\ Rabs (y4 c - f * X (row1 N)) <= 68 / 10 ^ 7 /\
  Rabs (z4 c - (101 / 99 * (5 - X (row2 N)) - 200 / 99)) <= 93 / 10 ^ 7 /\ Rabs (w4 c - (5 - X (row2 N))) <= 71 / 10 ^ 7.
Proof.
  destruct coordinates as (C0 & C1 & C2 & C3). destruct close_M as (D0 & D1 & D2 & A0 & A1 & A2).
  unfold eps, tau in *. cbn [pow] in *. apply Rabs_le_iff in C0, C1, C2, C3, D0, D1, D2.
  assert (K : forall a, a <= 17321 / 10000 -> f * a <= 328 / 100 * (17321 / 10000)) by (intros; nra).
  pose proof (K _ A0). pose proof (K _ A1).
  assert (L : forall a b k, - k <= a - b <= k -> 0 <= k -> - (328 / 100 * k) <= f * a - f * b <= 328 / 100 * k) by (intros; nra).
  pose proof (L _ _ _ D0 ltac:(lra)). pose proof (L _ _ _ D1 ltac:(lra)).
  repeat split; apply Rabs_le; lra.
Qed.
Lemma depth_range : Rabs (X (row0 N)) <= 173206 / 100000 /\ Rabs (X (row1 N)) <= 173206 / 100000 /\ 3267 / 1000 <= 5 - X (row2 N) <= 6733 / 1000.
Proof.
  destruct rows_N as (N0 & N1 & N2). destruct (weight_N _ N0) as [? ?], (weight_N _ N1) as [? ?], (weight_N _ N2) as [? HH]. apply Rabs_le_iff in HH. repeat split; lra.
Qed.
End Core.

(** ** The division *)
Lemma quotient xh x wh w dx k : Rabs (xh - x) <= dx -> Rabs (wh - w) <= 71 / 10 ^ 7 -> 3267 / 1000 <= w -> 0 <= k -> Rabs (x / w) <= k ->
  0 < wh /\ Rabs (xh / wh - x / w) <= (dx + k * (71 / 10 ^ 7)) * (30611 / 100000).
Proof.
  intros X W P K Q. assert (WH : 32669 / 10000 <= wh) by (apply Rabs_le_iff in W; cbn [pow] in W; lra).
  split; [lra|]. replace (xh / wh - x / w) with (((xh - x) - (x / w) * (wh - w)) * / wh) by (field; lra).
  rewrite Rabs_mult. assert (V : Rabs (/ wh) <= 30611 / 100000).
  { rewrite Rabs_pos_eq by (left; apply Rinv_0_lt_compat; lra). apply Rmult_le_reg_l with wh; [lra|]. rewrite Rinv_r by lra. lra. }
  apply Rmult_le_compat; auto using Rabs_pos. eapply Rle_trans; [apply Rabs_triang|]. rewrite Rabs_Ropp, Rabs_mult.
  apply Rplus_le_compat; [exact X|]. apply Rmult_le_compat; auto using Rabs_pos.
Qed.
Lemma quotient_result xh x wh w dx k y : Rabs (xh - x) <= dx -> Rabs (wh - w) <= 71 / 10 ^ 7 -> 3267 / 1000 <= w -> 0 <= k -> Rabs (x / w) <= k ->
  k <= 174 / 100 -> dx <= 93 / 10 ^ 7 -> dx + k * (71 / 10 ^ 7) <= 1916 / 10 ^ 8 -> result (xh / wh) y -> Rabs (y - x / w) <= 65 / 10 ^ 7.
Proof.
  intros X W P K Q K2 D T H. destruct (quotient _ _ _ _ _ _ X W P K Q) as [_ E]. apply result_err in H.
  assert (B : Rabs (xh / wh - x / w) <= 59 / 10 ^ 7) by (cbn [pow] in *; lra).
  assert (C : Rabs (xh / wh) <= 2).
  { apply Rabs_le_iff in B, Q. apply Rabs_le. cbn [pow] in B. lra. }
  assert (E2 : eta <= / 10 ^ 10) by (unfold eta; apply Rinv_le_contravar; [apply pow_lt; lra|]; apply Rle_pow; [lra|lia]).
  assert (G : u24 * Rabs (xh / wh) <= u24 * 2) by (apply Rmult_le_compat_l; [unfold u24; lra|exact C]). unfold u24 in *.
  replace (y - x / w) with ((y - xh / wh) + (xh / wh - x / w)) by ring. eapply Rle_trans; [apply Rabs_triang|]. cbn [pow] in *. lra.
Qed.
Lemma bound_div x w b k : 3267 / 1000 <= w -> Rabs x <= b -> b <= k * (3267 / 1000) -> 0 <= k -> Rabs (x / w) <= k.
Proof.
  intros W X B K. unfold Rdiv. rewrite Rabs_mult, (Rabs_pos_eq (/ w)) by (left; apply Rinv_0_lt_compat; lra).
  apply Rmult_le_reg_r with w; [lra|]. rewrite Rmult_assoc, Rinv_l by lra. nra.
Qed.

Section Place.
Variables (f s : R) (M N viewh projh : mat) (p : vec3).
Hypotheses (F : 0 < f <= 328 / 100) (S : / 1000 <= s <= 1000) (I : in_cube s p) (BM : only_block M) (BN : only_block N)
  (NE : near (/ 10 ^ 7) M N) (NN : forall q, dot (block N q) (block N q) = dot q q)
  (SV : stored (camera_view s) viewh) (SP : stored (lens f) projh).
Lemma lens_clip : clip N (camera_view s) (lens f) p =
  V4 (f * (s * x3 (block N p))) (f * (s * y3 (block N p))) (101 / 99 * (5 - s * z3 (block N p)) - 200 / 99) (5 - s * z3 (block N p)).
Proof.
  unfold clip, eye. rewrite block_sends by exact BN. set (r := block N p). unfold lens, camera_view, apply4, point, dot4. cbn [row0 row1 row2 row3 x4 y4 z4 w4].
  f_equal; field.
Qed.
Lemma lens_eye : - z4 (eye N (camera_view s) p) = 5 - s * z3 (block N p).
Proof.
  unfold eye. rewrite block_sends by exact BN. set (r := block N p). unfold camera_view, apply4, point, dot4. cbn [row0 row1 row2 row3 x4 y4 z4 w4]. ring.
Qed.
Lemma positive T c : transform_computed M viewh projh T -> moved T p c -> 0 < w4 c.
Proof.
  intros HT HM. destruct (coordinates_close f s M N viewh projh T p c F S I BM NE NN SV SP HT HM) as (_ & _ & _ & C3).
  destruct (depth_range s N p S I NN) as (_ & _ & D). apply Rabs_le_iff in C3. cbn [pow] in C3. lra.
Qed.
Lemma close q : placed_computed M viewh projh p q -> within (65 / 10 ^ 7) q (exact_place (clip N (camera_view s) (lens f) p)).
Proof.
  intros (T & c & HT & HM & (_ & RX & RY & RZ)).
  destruct (coordinates_close f s M N viewh projh T p c F S I BM NE NN SV SP HT HM) as (C0 & C1 & C2 & C3).
  destruct (depth_range s N p S I NN) as (D0 & D1 & D2). rewrite lens_clip. unfold within, exact_place, block. cbn [x3 y3 z3 x4 y4 z4 w4].
  set (X0 := s * (x4 (row0 N) * x3 p + y4 (row0 N) * y3 p + z4 (row0 N) * z3 p)) in *. set (X1 := s * (x4 (row1 N) * x3 p + y4 (row1 N) * y3 p + z4 (row1 N) * z3 p)) in *.
  set (X2 := s * (x4 (row2 N) * x3 p + y4 (row2 N) * y3 p + z4 (row2 N) * z3 p)) in *.
  assert (FX : forall t, Rabs t <= 173206 / 100000 -> Rabs (f * t) <= 568116 / 100000).
  { intros t Ht. rewrite Rabs_mult, (Rabs_pos_eq f) by lra. pose proof (Rabs_pos t). nra. }
  assert (ZR : Rabs ((101 / 99 * (5 - X2) - 200 / 99) / (5 - X2)) <= 1).
  { apply Rabs_le. split; (apply Rmult_le_reg_r with (5 - X2); [lra|]); unfold Rdiv at 2; unfold Rdiv; rewrite ?Rmult_assoc, ?Rinv_l by lra; lra. }
  split; [|split].
  - refine (quotient_result _ _ _ _ _ (174 / 100) _ C0 C3 _ _ _ _ _ _ RX); try lra; try (cbn [pow]; lra). eapply bound_div; [|apply FX, D0| |]; lra.
  - refine (quotient_result _ _ _ _ _ (174 / 100) _ C1 C3 _ _ _ _ _ _ RY); try lra; try (cbn [pow]; lra). eapply bound_div; [|apply FX, D1| |]; lra.
  - refine (quotient_result _ _ _ _ _ 1 _ C2 C3 _ _ ZR _ _ _ RZ); try lra; try (cbn [pow]; lra).
Qed.
End Place.

(** ** What the user sees *)
Lemma near_transpose e A B : near e A B -> near e (transpose A) (transpose B).
Proof. unfold near, near4, transpose. cbn [row0 row1 row2 row3 x4 y4 z4 w4]. tauto. Qed.
Lemma block_transpose m : only_block m -> only_block (transpose m).
Proof.
  destruct m as [[a0 a1 a2 a3] [b0 b1 b2 b3] [c0 c1 c2 c3] r3]. unfold only_block, transpose. cbn [row0 row1 row2 row3 x4 y4 z4 w4].
  intros (-> & -> & -> & ->). cbn [x4 y4 z4 w4]. auto.
Qed.
Lemma turned L theta phi l : good_library L -> Forall on_screen l -> exists b b' m, fnew L theta phi = Ok b /\ facts L b l = Ok b' /\
  rotation m /\ near (/ 10 ^ 7) (t_model b') m /\ only_block (t_model b').
Proof.
  intros GL O. destruct (never_distorted L theta phi l GL O) as (b & b' & E1 & E2 & (m & R & NR) & _ & _).
  destruct (lengths_kept L theta phi l (V3 0 0 0) GL O) as (b1 & b1' & E3 & E4 & OB & _). rewrite E1 in E3. injection E3 as <-. rewrite E2 in E4. injection E4 as <-.
  exists b, b', m. auto.
Qed.
(** The histories of a camera, and all that is drawn with it. *)
Definition seen (L : libm) (theta phi : R) (l : list action) (Q : mat -> mat -> mat -> Prop) : Prop :=
  exists b b' m proj, fnew L theta phi = Ok b /\ facts L b l = Ok b' /\ rotation m /\ near (/ 10 ^ 7) (t_model b') m /\
    perspective 35 1 1 100 false = Ok proj /\ Q (transpose (t_model b')) (transpose m) proj.
Lemma seen_all L theta phi l (Q : mat -> mat -> mat -> Prop) : good_library L -> Forall on_screen l ->
  (forall f M N, 0 < f <= 328 / 100 -> only_block M -> only_block N -> near (/ 10 ^ 7) M N -> (forall q, dot (block N q) (block N q) = dot q q) -> Q M N (lens f)) ->
  seen L theta phi l Q.
Proof.
  intros GL O H. destruct (turned L theta phi l GL O) as (b & b' & m & E1 & E2 & R & NE & OB). destruct lens_ok as (f & F & _ & EF).
  exists b, b', m, (lens f). do 5 (split; [assumption|]). apply H; auto using near_transpose, block_transpose.
  - apply block_transpose, R. - intros q. now apply block_norm.
Qed.
Lemma picture_close L theta phi l : good_library L -> Forall on_screen l ->
  exists b b' m proj, fnew L theta phi = Ok b /\ facts L b l = Ok b' /\ rotation m /\ near (/ 10 ^ 7) (t_model b') m /\
    perspective 35 1 1 100 false = Ok proj /\
    forall s view' proj' p q, / 1000 <= s <= 1000 -> in_cube s p -> stored (camera_view s) view' -> stored proj proj' ->
      placed_computed (transpose (t_model b')) view' proj' p q ->
      within (/ 10 ^ 5) q (exact_place (clip (transpose m) (camera_view s) proj p)).
Proof.
  intros GL O. apply (seen_all L theta phi l (fun M N proj => forall s view' proj' p q, / 1000 <= s <= 1000 -> in_cube s p -> stored (camera_view s) view' -> stored proj proj' ->
      placed_computed M view' proj' p q -> within (/ 10 ^ 5) q (exact_place (clip N (camera_view s) proj p)))); auto.
  intros f M N F BM BN NE NN s v' p' p q S I SV SP HP.
  destruct (close f s M N v' p' p F S I BM BN NE NN SV SP q HP) as (A & B & C). repeat split; (eapply Rle_trans; [eassumption|cbn [pow]; lra]).
Qed.
Lemma picture_finite L theta phi l : good_library L -> Forall on_screen l -> exists b b', fnew L theta phi = Ok b /\ facts L b l = Ok b' /\
  forall s view proj view' proj' p T c, / 1000 <= s <= 1000 -> in_cube s p -> perspective 35 1 1 100 false = Ok proj ->
    view = camera_view s -> stored view view' -> stored proj proj' ->
    transform_computed (transpose (t_model b')) view' proj' T -> moved T p c -> 0 < w4 c.
Proof.
  intros GL O. destruct (turned L theta phi l GL O) as (b & b' & m & E1 & E2 & R & NE & OB). exists b, b'. split; [exact E1|]. split; [exact E2|].
  intros s view proj v' p' p T c S I EP -> SV SP HT HM. destruct lens_ok as (f & F & _ & EF). rewrite EF in EP. injection EP as <-.
  eapply (positive f s (transpose (t_model b')) (transpose m) v' p' p); eauto using near_transpose, block_transpose. intros q. now apply block_norm.
Qed.
Lemma ordered f M N s v' pr p p' q q' k k' : 0 < f <= 328 / 100 -> only_block M -> only_block N -> near (/ 10 ^ 7) M N -> (forall q, dot (block N q) (block N q) = dot q q) ->
  / 1000 <= s <= 1000 -> in_cube s p -> in_cube s p' -> stored (camera_view s) v' -> stored (lens f) pr ->
  placed_computed M v' pr p q -> placed_computed M v' pr p' q' -> sort_key q k -> sort_key q' k' ->
  - z4 (eye N (camera_view s) p) + / 1000 <= - z4 (eye N (camera_view s) p') -> z3 q < z3 q' /\ k' < k.
Proof.
  intros F BM BN NE NN S I I' SV SP HP HP' K K' D.
  destruct (close f s M N v' pr p F S I BM BN NE NN SV SP q HP) as (_ & _ & C).
  destruct (close f s M N v' pr p' F S I' BM BN NE NN SV SP q' HP') as (_ & _ & C').
  rewrite lens_clip in C, C' by assumption. rewrite !lens_eye in D by assumption. unfold exact_place in *. cbn [z3 z4 w4] in *.
  destruct (depth_range s N p S I NN) as (_ & _ & W). destruct (depth_range s N p' S I' NN) as (_ & _ & W').
  unfold block in *. cbn [z3] in *.
  set (w := 5 - s * (x4 (row2 N) * x3 p + y4 (row2 N) * y3 p + z4 (row2 N) * z3 p)) in *. set (w' := 5 - s * (x4 (row2 N) * x3 p' + y4 (row2 N) * y3 p' + z4 (row2 N) * z3 p')) in *.
  set (d := (101 / 99 * w - 200 / 99) / w) in *. set (d' := (101 / 99 * w' - 200 / 99) / w') in *.
  assert (E : 44 / 10 ^ 6 <= d' - d).
  { unfold d, d'. replace ((101 / 99 * w' - 200 / 99) / w' - (101 / 99 * w - 200 / 99) / w) with (200 / 99 * (w' - w) * / (w * w')) by (field; lra).
    apply Rmult_le_reg_r with (w * w'); [nra|]. rewrite Rmult_assoc, Rinv_l by nra. cbn [pow]. assert (w * w' <= 6733 / 1000 * (6733 / 1000)) by (apply Rmult_le_compat; lra). lra. }
  assert (U : forall w, 3267 / 1000 <= w -> 0 <= (101 / 99 * w - 200 / 99) / w <= 103 / 100).
  { intros y Y. split; (apply Rmult_le_reg_r with y; [lra|]); unfold Rdiv at 2; unfold Rdiv; rewrite ?Rmult_assoc, ?Rinv_l by lra; lra. }
  pose proof (U w ltac:(lra)) as U1. pose proof (U w' ltac:(lra)) as U2. fold d in U1. fold d' in U2.
  apply Rabs_le_iff in C, C'. cbn [pow] in *. split; [lra|].
  unfold sort_key in *. apply result_err in K, K'.
  assert (E2 : eta <= / 10 ^ 10) by (unfold eta; apply Rinv_le_contravar; [apply pow_lt; lra|]; apply Rle_pow; [lra|lia]).
  assert (V : Rabs (1 - z3 q) <= 2) by (apply Rabs_le; lra). assert (V' : Rabs (1 - z3 q') <= 2) by (apply Rabs_le; lra).
  assert (G : u24 * Rabs (1 - z3 q) <= u24 * 2) by (apply Rmult_le_compat_l; [unfold u24; lra|exact V]).
  assert (G' : u24 * Rabs (1 - z3 q') <= u24 * 2) by (apply Rmult_le_compat_l; [unfold u24; lra|exact V']).
  unfold u24 in *. assert (K1 : Rabs (k - (1 - z3 q)) <= 2 / 10 ^ 7) by (cbn [pow] in *; lra). assert (K2 : Rabs (k' - (1 - z3 q')) <= 2 / 10 ^ 7) by (cbn [pow] in *; lra).
  apply Rabs_le_iff in K1, K2. cbn [pow] in *. lra.
Qed.
Lemma picture_order L theta phi l : good_library L -> Forall on_screen l ->
  exists b b' m proj, fnew L theta phi = Ok b /\ facts L b l = Ok b' /\ rotation m /\ near (/ 10 ^ 7) (t_model b') m /\
    perspective 35 1 1 100 false = Ok proj /\
    forall s view' proj' p p' q q' k k', / 1000 <= s <= 1000 -> in_cube s p -> in_cube s p' -> stored (camera_view s) view' -> stored proj proj' ->
      placed_computed (transpose (t_model b')) view' proj' p q -> placed_computed (transpose (t_model b')) view' proj' p' q' ->
      sort_key q k -> sort_key q' k' ->
      - z4 (eye (transpose m) (camera_view s) p) + / 1000 <= - z4 (eye (transpose m) (camera_view s) p') ->
      z3 q < z3 q' /\ k' < k.
Proof.
  intros GL O. apply (seen_all L theta phi l (fun M N proj => forall s view' proj' p p' q q' k k', / 1000 <= s <= 1000 -> in_cube s p -> in_cube s p' -> stored (camera_view s) view' -> stored proj proj' ->
      placed_computed M view' proj' p q -> placed_computed M view' proj' p' q' -> sort_key q k -> sort_key q' k' ->
      - z4 (eye N (camera_view s) p) + / 1000 <= - z4 (eye N (camera_view s) p') -> z3 q < z3 q' /\ k' < k)); auto.
  intros f M N F BM BN NE NN s v' pr p p' q q' k k'. now apply ordered.
Qed.
(** Pixels. *)
Lemma pixels_close v c q e : usable v -> 0 < w4 c -> within e q (exact_place c) ->
  exists x y x' y', on_canvas v (Vec.Num (x3 q)) (Vec.Num (y3 q)) = Some (x, y) /\ spot v c = Some (x', y') /\
    Rabs (x - x') <= Rabs (unit_x v) * e /\ Rabs (y - y') <= Rabs (unit_y v) * e.
Proof.
  intros U W (A & B & _). rewrite (on_canvas_spot v _ _ U). unfold spot. destruct (Req_EM_T (w4 c) 0); [lra|]. do 4 eexists. do 2 (split; [reflexivity|]).
  unfold exact_place in *. cbn [x3 y3] in *.
  split.
  - replace (_ - _) with (unit_x v * (x3 q - x4 c / w4 c)) by ring. rewrite Rabs_mult. apply Rmult_le_compat_l; [apply Rabs_pos|exact A].
  - replace (_ - _) with (unit_y v * (y3 q - y4 c / w4 c)) by ring. rewrite Rabs_mult. apply Rmult_le_compat_l; [apply Rabs_pos|exact B].
Qed.
Lemma pixel_close f M N v s v' p' p q : 0 < f <= 328 / 100 -> only_block M -> only_block N -> near (/ 10 ^ 7) M N -> (forall q, dot (block N q) (block N q) = dot q q) ->
  usable v -> Rabs (unit_x v) <= 1000 -> Rabs (unit_y v) <= 1000 -> / 1000 <= s <= 1000 -> in_cube s p -> stored (camera_view s) v' -> stored (lens f) p' ->
  placed_computed M v' p' p q ->
  exists x y x' y', on_canvas v (Vec.Num (x3 q)) (Vec.Num (y3 q)) = Some (x, y) /\
    spot v (clip N (camera_view s) (lens f) p) = Some (x', y') /\ Rabs (x - x') <= / 100 /\ Rabs (y - y') <= / 100.
Proof.
  intros F BM BN NE NN U UX UY S I SV SP HP.
  pose proof (close f s M N v' p' p F S I BM BN NE NN SV SP q HP) as C.
  destruct (depth_range s N p S I NN) as (_ & _ & W).
  destruct (pixels_close v (clip N (camera_view s) (lens f) p) q _ U ltac:(rewrite lens_clip by assumption; cbn [w4]; unfold block; cbn [z3]; lra) C) as (x & y & x' & y' & E1 & E2 & DX & DY).
  exists x, y, x', y'. do 2 (split; [assumption|]). cbn [pow] in *. pose proof (Rabs_pos (unit_x v)). pose proof (Rabs_pos (unit_y v)). split; lra.
Qed.
Lemma picture_pixels L theta phi l : good_library L -> Forall on_screen l ->
  exists b b' m proj, fnew L theta phi = Ok b /\ facts L b l = Ok b' /\ rotation m /\ near (/ 10 ^ 7) (t_model b') m /\
    perspective 35 1 1 100 false = Ok proj /\
    forall v s view' proj' p q, usable v -> Rabs (unit_x v) <= 1000 -> Rabs (unit_y v) <= 1000 ->
      / 1000 <= s <= 1000 -> in_cube s p -> stored (camera_view s) view' -> stored proj proj' ->
      placed_computed (transpose (t_model b')) view' proj' p q ->
      exists x y x' y', on_canvas v (Vec.Num (x3 q)) (Vec.Num (y3 q)) = Some (x, y) /\
        spot v (clip (transpose m) (camera_view s) proj p) = Some (x', y') /\ Rabs (x - x') <= / 100 /\ Rabs (y - y') <= / 100.
Proof.
  intros GL O. apply (seen_all L theta phi l (fun M N proj => forall v s view' proj' p q, usable v -> Rabs (unit_x v) <= 1000 -> Rabs (unit_y v) <= 1000 ->
      / 1000 <= s <= 1000 -> in_cube s p -> stored (camera_view s) view' -> stored proj proj' -> placed_computed M view' proj' p q ->
      exists x y x' y', on_canvas v (Vec.Num (x3 q)) (Vec.Num (y3 q)) = Some (x, y) /\
        spot v (clip N (camera_view s) proj p) = Some (x', y') /\ Rabs (x - x') <= / 100 /\ Rabs (y - y') <= / 100)); auto.
  intros f M N F BM BN NE NN v s v' p' p q. now apply pixel_close.
Qed.
(** ** There is always such a computation *)
Lemma summed_exists l : l <> [] -> exists r, summed l r.
Proof.
  induction l as [|[a b] l IH]; [easy|]. intros _. destruct l as [|ab l].
  - exists (rnd32 (a * b)). constructor. now left.
  - destruct IH as [r Hr]; [easy|]. exists (rnd32 (r + a * b)). eapply sum_fused; [exact Hr|now left].
Qed.
Lemma row_exists a B : exists c, row_product a B c.
Proof.
  destruct (summed_exists (terms a (row0 (transpose B)))) as [x X]; [easy|]. destruct (summed_exists (terms a (row1 (transpose B)))) as [y Y]; [easy|].
  destruct (summed_exists (terms a (row2 (transpose B)))) as [z Z]; [easy|]. destruct (summed_exists (terms a (row3 (transpose B)))) as [w W]; [easy|].
  exists (V4 x y z w). repeat split; assumption.
Qed.
Lemma product_exists A B : exists C, product A B C.
Proof.
  destruct (row_exists (row0 A) B) as [x X], (row_exists (row1 A) B) as [y Y], (row_exists (row2 A) B) as [z Z], (row_exists (row3 A) B) as [w W].
  exists (Mat x y z w). exact (conj X (conj Y (conj Z W))).
Qed.
Lemma moved_exists T p : exists c, moved T p c.
Proof.
  destruct (summed_exists (terms (row0 T) (point p))) as [x X]; [easy|]. destruct (summed_exists (terms (row1 T) (point p))) as [y Y]; [easy|].
  destruct (summed_exists (terms (row2 T) (point p))) as [z Z]; [easy|]. destruct (summed_exists (terms (row3 T) (point p))) as [w W]; [easy|].
  exists (V4 x y z w). repeat split; assumption.
Qed.
Lemma always_computed model view proj p : exists T c, transform_computed model view proj T /\ moved T p c /\ (w4 c <> 0 -> exists q, divided c q).
Proof.
  destruct (product_exists proj view) as [PV E1], (product_exists PV model) as [T E2], (moved_exists T p) as [c E3].
  exists T, c. split; [exists PV; auto|]. split; [exact E3|]. intros W.
  exists (V3 (rnd32 (x4 c / w4 c)) (rnd32 (y4 c / w4 c)) (rnd32 (z4 c / w4 c))). unfold divided, result. auto.
Qed.
Lemma single_held x : x = 0 \/ / 1000 <= Rabs x -> held x (rnd32 x).
Proof.
  unfold held. intros [-> | H].
  - unfold rnd32. rewrite round_0 by apply valid_rnd_N. rewrite Rminus_eq_0, Rabs_R0. lra.
  - pose proof (round_err (-149) 24 x ltac:(lia) ltac:(lia) ltac:(lia)) as E. fold (rnd32 x) in E.
    assert (E2 : eta <= / 10 ^ 11) by (unfold eta; apply Rinv_le_contravar; [apply pow_lt; lra|]; apply Rle_pow; [lra|lia]).
    unfold u24 in E. cbn [pow] in *. lra.
Qed.
Lemma single_stored s : / 1000 <= s -> stored (camera_view s) (single (camera_view s)) /\ forall proj, perspective 35 1 1 100 false = Ok proj -> stored proj (single proj).
Proof.
  intros S. split; [|intros proj E; destruct lens_ok as (f & F & F1 & EF); rewrite EF in E; injection E as <-].
  - unfold stored, held4, single, single4, camera_view. cbn [row0 row1 row2 row3 x4 y4 z4 w4].
    repeat split; apply single_held; try (left; reflexivity); right; rewrite ?Rabs_R1, ?(Rabs_pos_eq s) by lra; try lra; rewrite Rabs_left; lra.
  - unfold stored, held4, single, single4, lens. cbn [row0 row1 row2 row3 x4 y4 z4 w4].
    repeat split; apply single_held; try (left; reflexivity); right; rewrite ?(Rabs_pos_eq f) by lra; try lra; rewrite Rabs_left; lra.
Qed.
Lemma camera_view_mats b s model view proj : camera_mats b 5 s = Ok (model, view, proj) -> view = camera_view s /\ model = transpose (t_model b) /\ perspective 35 1 1 100 false = Ok proj.
Proof.
  unfold camera_mats. destruct (perspective 35 1 1 100 false) as [m|]; cbn [bind]; [|discriminate]. intros E. injection E as <- <- <-.
  split; [|auto]. unfold scale, translate, finish, matmul, camera_view. cbn [row0 row1 row2 row3 x4 y4 z4 w4 x3 y3 z3]. f_equal; f_equal; ring.
Qed.
