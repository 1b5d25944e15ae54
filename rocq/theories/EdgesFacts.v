(** The place of viewports in floating point. *)
From Coq Require Import Reals Lra Psatz List ZArith Lia.
From Flocq Require Import Core.
From Verif Require Import Base Glm Drift DriftRound Zoom ZoomSpec ZoomFacts Edges EdgesSpec.
Local Open Scope R_scope.

Lemma size_about w d : usual w d -> exists s, canvas_size w d = Ok s /\ about 2 w s.
Proof.
  intros [W D]. unfold canvas_size. rewrite fdiv_ok by lra. cbn [bind]. eexists. split; [reflexivity|]. pose proof ten20' as T.
  assert (I : / 10000 <= / d) by (apply Rinv_le_contravar; lra).
  assert (Q : / 10000 <= w / d) by (unfold Rdiv; nra).
  assert (R1 : about 1 (w / d) (rnd (w / d))) by (apply about_rnd; lra).
  assert (R1' : / 20000 <= rnd (w / d)). { destruct R1 as (_ & _ & R1 & _). rewrite pow_1 in R1. pose proof u_small. nra. }
  apply (about_scale 1 d) in R1; [|lra]. replace (d * (w / d)) with w in R1 by (field; lra). rewrite (Rmult_comm d) in R1.
  apply (about_trans 1 1 _ _ _ R1). apply about_rnd. nra.
Qed.
Lemma small_count k : (k <= 10)%nat -> INR k * u <= / 2.
Proof. intros H. apply le_INR in H. cbn [INR] in H. unfold u. lra. Qed.
Lemma canvas_close w d : usual w d -> exists s, canvas_size w d = Ok s /\ Rabs (s - w) <= / 2 ^ 51 * w.
Proof.
  intros H. destruct (size_about w d H) as (s & E & A). exists s. split; [exact E|].
  pose proof (about_close 2 w s (small_count 2 ltac:(lia)) A) as C. cbn [INR pow] in *. lra.
Qed.
Lemma pixel_about w d n : usual w d -> (0 < n <= 1000000)%Z -> exists p, placed_at w d (Pixels n) = Ok p /\ about 3 (IZR n / w) p.
Proof.
  intros H [N1 N2]. apply IZR_lt in N1. apply IZR_le in N2. assert (N : 1 <= IZR n). { apply IZR_le. apply lt_IZR in N1. lia. }
  destruct (size_about w d H) as (s & E & A). unfold placed_at. rewrite E. cbn [bind].
  pose proof (about_range 2 w s (small_count 2 ltac:(lia)) A) as [S1 S2]. destruct H as [W D]. rewrite fdiv_ok by lra. eexists. split; [reflexivity|].
  apply (about_trans 2 1 _ (IZR n / s)).
  - unfold Rdiv. apply about_scale; [lra|]. now apply about_inv.
  - apply about_rnd. pose proof ten20' as T. assert (I : / 2000000 <= / s) by (apply Rinv_le_contravar; lra).
    unfold Rdiv. pose proof (Rmult_le_compat 1 (IZR n) (/ 2000000) (/ s) ltac:(lra) ltac:(lra) N I). lra.
Qed.
Lemma pixel_zero w d : usual w d -> placed_at w d (Pixels 0) = Ok 0.
Proof.
  intros H. destruct (size_about w d H) as (s & E & A). unfold placed_at. rewrite E. cbn [bind]. destruct A as (_ & S & _).
  rewrite fdiv_ok by lra. unfold Rdiv. now rewrite Rmult_0_l, rnd_0.
Qed.
(** A pixel's place, with the error it has. *)
Lemma pixel_error w d n : usual w d -> (0 <= n <= 1000000)%Z -> exists p, placed_at w d (Pixels n) = Ok p /\ 0 <= p /\ Rabs (p * w - IZR n) <= 6 * u * IZR n.
Proof.
  intros H N. destruct (Z.eq_dec n 0) as [->|N0].
  - exists 0. split; [now apply pixel_zero|]. split; [lra|]. rewrite Rmult_0_l, Rminus_0_r, Rabs_R0. lra.
  - destruct (pixel_about w d n H ltac:(lia)) as (p & E & A). exists p. split; [exact E|]. destruct H as [W _].
    split; [apply Rlt_le, (proj1 (proj2 A))|]. apply (about_scale 3 w) in A; [|lra]. replace (w * (IZR n / w)) with (IZR n) in A by (field; lra).
    pose proof (about_close 3 _ _ (small_count 3 ltac:(lia)) A) as C. rewrite (Rmult_comm p).
    assert (U : / 2 ^ 52 = 2 * u) by (unfold u; cbn [pow]; lra). rewrite U in C. cbn [INR] in C. lra.
Qed.
Lemma sum_close w d x n : usual w d -> (0 <= x)%Z -> (0 <= n)%Z -> (x + n <= 1000000)%Z ->
  exists p q, placed_at w d (Pixels x) = Ok p /\ placed_at w d (Pixels n) = Ok q /\ at_pixel w p x /\ at_pixel w (fadd p q) (x + n).
Proof.
  intros H X N XN. destruct (pixel_error w d x H ltac:(lia)) as (p & Ep & P0 & P). destruct (pixel_error w d n H ltac:(lia)) as (q & Eq & Q0 & Q).
  exists p, q. split; [exact Ep|]. split; [exact Eq|]. apply IZR_le in X, N, XN. rewrite plus_IZR in XN. destruct H as [W _].
  assert (U : 6 * u * 1000000 <= / 10 ^ 9) by (unfold u; cbn [pow]; lra). pose proof u_small as US.
  assert (UX : 6 * u * IZR x <= 6 * u * 1000000) by (apply Rmult_le_compat_l; lra). assert (UN : 6 * u * IZR n <= 6 * u * 1000000) by (apply Rmult_le_compat_l; lra).
  apply Rabs_le_iff in P, Q. assert (T : / 10 ^ 9 = / 1000000000) by (f_equal; cbn [pow]; lra). assert (T8 : / 10 ^ 8 = / 100000000) by (f_equal; cbn [pow]; lra).
  unfold at_pixel. rewrite T8, plus_IZR. split; [apply Rabs_le; lra|].
  unfold fadd. pose proof (rnd_err (p + q)) as R. rewrite (Rabs_pos_eq (p + q)) in R by lra. apply Rabs_le_iff in R. pose proof eta_small as ES. pose proof eta_pos as EP.
  assert (PW : (p + q) * w <= 1000001) by lra.
  assert (RW : Rabs ((rnd (p + q) - (p + q)) * w) <= / 1000000000).
  { rewrite Rabs_mult, (Rabs_pos_eq w) by lra. pose proof (rnd_err (p + q)) as R'. rewrite (Rabs_pos_eq (p + q)) in R' by lra.
    apply Rle_trans with ((u * (p + q) + eta) * w); [apply Rmult_le_compat_r; lra|].
    assert (u * ((p + q) * w) <= u * 1000001) by (apply Rmult_le_compat_l; lra). assert (eta * w <= eta * 1000000) by (apply Rmult_le_compat_l; lra). unfold u in *. lra. }
  apply Rabs_le_iff in RW. apply Rabs_le. lra.
Qed.
Lemma edges_close w d x n : usual (IZR w) d -> (0 <= x)%Z -> (0 < n)%Z -> (x + n <= 1000000)%Z ->
  exists l r, edges w d (Pixels x) (Pixels n) = Ok (l, r) /\ at_pixel (IZR w) l x /\ at_pixel (IZR w) r (x + n).
Proof.
  intros H X N XN. destruct (sum_close (IZR w) d x n H X ltac:(lia) XN) as (p & q & P & Q & A & B). unfold edges, resized, or_canvas.
  destruct (Z.eqb_spec n 0); [lia|]. rewrite P, Q. cbn [bind]. eauto.
Qed.
Lemma zero_close w d x : usual (IZR w) d -> (0 <= x)%Z -> (x + w <= 1000000)%Z ->
  exists l r, edges w d (Pixels x) (Pixels 0) = Ok (l, r) /\ edges w d (Pixels x) (Fraction 0) = Ok (l, r) /\ at_pixel (IZR w) l x /\ at_pixel (IZR w) r (x + w).
Proof.
  intros H X XN. assert (W : (0 <= w)%Z) by (destruct H as [H _]; apply le_IZR; lra).
  destruct (sum_close (IZR w) d x w H X W XN) as (p & q & P & Q & A & B). unfold edges, resized, or_canvas. cbn [Z.eqb].
  destruct (Req_EM_T 0 0) as [_|F]; [|now destruct F]. rewrite P, Q. cbn [bind]. eauto 6.
Qed.
Lemma neighbours_close w d x n m : usual (IZR w) d -> (0 <= x)%Z -> (0 < n)%Z -> (0 < m)%Z -> (x + n + m <= 1000000)%Z ->
  exists l r l' r', edges w d (Pixels x) (Pixels n) = Ok (l, r) /\ edges w d (Pixels (x + n)) (Pixels m) = Ok (l', r') /\ Rabs (l' * IZR w - r * IZR w) <= 2 * / 10 ^ 8.
Proof.
  intros H X N M XN. destruct (edges_close w d x n H X N ltac:(lia)) as (l & r & E & _ & A). destruct (edges_close w d (x + n) m H ltac:(lia) M ltac:(lia)) as (l' & r' & E' & B & _).
  exists l, r, l', r'. split; [exact E|]. split; [exact E'|]. unfold at_pixel in *. apply Rabs_le_iff in A, B. apply Rabs_le. lra.
Qed.
(** Rounding to a known number. *)
Lemma rnd_is x m e : (-1074 <= e)%Z -> bpow radix2 (e + 52) <= x < bpow radix2 (e + 53) -> Rabs (x * bpow radix2 (- e) - IZR m) < / 2 -> rnd x = IZR m * bpow radix2 e.
Proof.
  intros E [X1 X2] H. unfold rnd, round. assert (P : 0 < x) by (pose proof (bpow_gt_0 radix2 (e + 52)); lra).
  assert (M : mag radix2 x = (e + 53)%Z :> Z). { apply mag_unique_pos. replace (e + 53 - 1)%Z with (e + 52)%Z by lia. lra. }
  assert (C : cexp radix2 (FLT_exp (-1074) 53) x = e). { unfold cexp, FLT_exp. rewrite M. lia. }
  unfold scaled_mantissa. rewrite C. unfold F2R. cbn [Fnum Fexp]. f_equal. f_equal. apply Znearest_imp. exact H.
Qed.
Lemma fifty_eight : canvas_size 58 100 = Ok (58 - / 2 ^ 47) /\ placed_at 58 100 (Pixels 58) = Ok (1 + / 2 ^ 52).
Proof.
  assert (A : rnd (58 / 100) = 5224175567749775 / 9007199254740992).
  { rewrite (rnd_is (58 / 100) 5224175567749775 (-53)); [reflexivity|lia| |]; cbn [bpow Z.add Z.opp Z.pow_pos Pos.iter Z.mul Pos.mul radix_val radix2 Z.pos_sub Pos.pred_double Pos.add Pos.succ Z.double Z.succ_double Z.pred_double];
      [simpl bpow; lra|apply Rabs_def1; simpl bpow; lra]. }
  assert (B : canvas_size 58 100 = Ok (58 - / 2 ^ 47)).
  { unfold canvas_size. rewrite fdiv_ok by lra. cbn [bind]. rewrite A. unfold fmul. f_equal.
    rewrite (rnd_is (5224175567749775 / 9007199254740992 * 100) 8162774324609023 (-47)); [simpl bpow; cbn [pow]; lra|lia|simpl bpow; lra|apply Rabs_def1; simpl bpow; lra]. }
  split; [exact B|]. unfold placed_at. rewrite B. cbn [bind]. assert (S : 58 - / 2 ^ 47 = 8162774324609023 / 140737488355328) by (cbn [pow]; lra).
  rewrite S, fdiv_ok by lra. f_equal. assert (Q : 58 / (8162774324609023 / 140737488355328) = 8162774324609024 / 8162774324609023) by (field).
  rewrite Q, (rnd_is (8162774324609024 / 8162774324609023) 4503599627370497 (-52)); [simpl bpow; cbn [pow]; lra|lia|simpl bpow; lra|apply Rabs_def1; simpl bpow; lra].
Qed.
Lemma both_ways w d n f : usual w d -> (0 <= n <= 1000000)%Z -> fdiv (IZR n) w = Ok f ->
  exists p q, placed_at w d (Pixels n) = Ok p /\ placed_at w d (Fraction f) = Ok q /\ at_pixel w p n /\ at_pixel w q n.
Proof.
  intros H N F. destruct (pixel_error w d n H N) as (p & E & P0 & P). destruct (size_about w d H) as (s & Es & _). exists p, f. split; [exact E|].
  split; [unfold placed_at; now rewrite Es|]. destruct H as [W _]. destruct N as [N1 N2]. apply IZR_le in N1, N2. pose proof u_small as US.
  assert (T8 : / 10 ^ 8 = / 100000000) by (f_equal; cbn [pow]; lra). unfold at_pixel. rewrite T8. split.
  - apply Rle_trans with (1 := P). apply Rle_trans with (6 * u * 1000000); [apply Rmult_le_compat_l; lra|unfold u; lra].
  - rewrite fdiv_ok in F by lra. injection F as <-. set (x := IZR n / w). assert (X : IZR n = x * w) by (unfold x; field; lra).
    assert (X0 : 0 <= x) by (unfold x, Rdiv; apply Rmult_le_pos; [lra|left; apply Rinv_0_lt_compat; lra]).
    rewrite X. replace (rnd x * w - x * w) with ((rnd x - x) * w) by ring. rewrite Rabs_mult, (Rabs_pos_eq w) by lra.
    pose proof (rnd_err x) as R. rewrite (Rabs_pos_eq x X0) in R. apply Rle_trans with ((u * x + eta) * w); [apply Rmult_le_compat_r; lra|].
    pose proof eta_small. pose proof eta_pos. assert (u * (x * w) <= u * 1000000) by (apply Rmult_le_compat_l; lra). assert (eta * w <= eta * 1000000) by (apply Rmult_le_compat_l; lra). unfold u in *. lra.
Qed.
Lemma whole_canvas w d : usual (IZR w) d -> exists l r, edges w d (Pixels 0) (Pixels w) = Ok (l, r) /\ l = 0 /\ Rabs (r * IZR w - IZR w) <= / 10 ^ 8.
Proof.
  intros H. pose proof H as [W D]. assert (B : (1 <= w <= 1000000)%Z) by (split; apply le_IZR; lra).
  destruct (edges_close w d 0 w H ltac:(lia) ltac:(lia) ltac:(lia)) as (l & r & E & _ & R). exists l, r. split; [exact E|].
  unfold at_pixel in R. rewrite Z.add_0_l in R. split; [|exact R].
  unfold edges, resized in E. rewrite (pixel_zero (IZR w) d H) in E. cbn [bind] in E. destruct (placed_at (IZR w) d (or_canvas w (Pixels w))); [|discriminate]. cbn [bind] in E. now injection E as <- _.
Qed.
Lemma sticks_out : exists r, edges 58 100 (Pixels 0) (Pixels 58) = Ok (0, r) /\ 1 < r.
Proof.
  destruct fifty_eight as [_ B]. unfold edges, resized, or_canvas. cbn [Z.eqb]. rewrite (pixel_zero 58 100) by (unfold usual; lra). rewrite B. cbn [bind]. eexists. split; [reflexivity|].
  unfold fadd. rewrite Rplus_0_l, (rnd_is (1 + / 2 ^ 52) 4503599627370497 (-52)); [simpl bpow; lra|lia|simpl bpow; cbn [pow]; lra|apply Rabs_def1; simpl bpow; cbn [pow]; lra].
Qed.
Lemma ordinary : usual 58 100. Proof. unfold usual. lra. Qed.
Lemma inexact : canvas_size 58 100 <> Ok 58.
Proof. rewrite (proj1 fifty_eight). intros H. injection H as H. assert (0 < / 2 ^ 47) by (apply Rinv_0_lt_compat; cbn [pow]; lra). lra. Qed.
Lemma beyond : ~ (forall w d l r, usual (IZR w) d -> edges w d (Pixels 0) (Pixels w) = Ok (l, r) -> r <= 1).
Proof. intros H. destruct sticks_out as (r & E & R). pose proof (H 58%Z 100 0 r ordinary E). lra. Qed.
Lemma not_empty : ~ (forall w d x l r, usual (IZR w) d -> (0 <= x <= w)%Z -> edges w d (Pixels x) (Pixels 0) = Ok (l, r) -> at_pixel (IZR w) r x).
Proof.
  intros H. destruct (zero_close 58 100 0 ordinary ltac:(lia) ltac:(lia)) as (l & r & E & _ & _ & R). specialize (H 58%Z 100 0%Z l r ordinary ltac:(lia) E).
  unfold at_pixel in *. apply Rabs_le_iff in R, H. cbn [Z.add] in R. assert (/ 10 ^ 8 <= 1) by (cbn [pow]; lra). lra.
Qed.
Lemma fraction_edges w d a b : usual (IZR w) d -> rnd a = a -> 0 <= a -> 0 < b -> a + b <= 1 ->
  exists r, edges w d (Fraction a) (Fraction b) = Ok (a, r) /\ Rabs (r - (a + b)) <= / 2 ^ 52 /\ a <= r <= 1.
Proof.
  intros H G A B AB. destruct (size_about (IZR w) d H) as (s & E & _). unfold edges, resized, or_canvas. destruct (Req_EM_T b 0); [lra|]. unfold placed_at. rewrite E. cbn [bind].
  exists (fadd a b). split; [reflexivity|]. unfold fadd. pose proof (rnd_err (a + b)) as R. rewrite (Rabs_pos_eq (a + b)) in R by lra.
  pose proof eta_small. pose proof eta_pos. pose proof u_small. split.
  - apply Rle_trans with (1 := R). assert (u * (a + b) <= u * 1) by (apply Rmult_le_compat_l; lra). unfold u in *. cbn [pow]. lra.
  - split; [rewrite <- G|rewrite <- rnd_1]; apply rnd_le; lra.
Qed.
Lemma resolutions_close w d d' x n : usual (IZR w) d -> usual (IZR w) d' -> (0 <= x)%Z -> (0 < n)%Z -> (x + n <= 1000000)%Z ->
  exists l r l' r', edges w d (Pixels x) (Pixels n) = Ok (l, r) /\ edges w d' (Pixels x) (Pixels n) = Ok (l', r') /\ Rabs (l' * IZR w - l * IZR w) <= 2 * / 10 ^ 8 /\ Rabs (r' * IZR w - r * IZR w) <= 2 * / 10 ^ 8.
Proof.
  intros H H' X N XN. destruct (edges_close w d x n H X N XN) as (l & r & E & L & R). destruct (edges_close w d' x n H' X N XN) as (l' & r' & E' & L' & R').
  exists l, r, l', r'. split; [exact E|]. split; [exact E'|]. unfold at_pixel in *. apply Rabs_le_iff in L, R, L', R'. split; apply Rabs_le; lra.
Qed.
Lemma half_float : rnd (1 / 2) = 1 / 2.
Proof. rewrite (rnd_is (1 / 2) 4503599627370496 (-53)); [simpl bpow; lra|lia|simpl bpow; lra|apply Rabs_def1; simpl bpow; lra]. Qed.
Lemma resized_close made now d x n : usual now d -> (0 <= x)%Z -> (0 < n)%Z -> (x + n <= 1000000)%Z ->
  exists l r, resized made now d (Pixels x) (Pixels n) = Ok (l, r) /\ at_pixel now l x /\ at_pixel now r (x + n).
Proof.
  intros H X N XN. destruct (sum_close now d x n H X ltac:(lia) XN) as (p & q & P & Q & A & B). unfold resized, or_canvas.
  destruct (Z.eqb_spec n 0); [lia|]. rewrite P, Q. cbn [bind]. eauto.
Qed.
Lemma resized_fractions made now d a b : usual (IZR made) d -> usual now d -> b <> 0 -> resized made now d (Fraction a) (Fraction b) = edges made d (Fraction a) (Fraction b).
Proof.
  intros H H' B. unfold edges, resized, or_canvas. destruct (Req_EM_T b 0); [contradiction|]. unfold placed_at.
  destruct (size_about (IZR made) d H) as (s & -> & _). destruct (size_about now d H') as (s' & -> & _). reflexivity.
Qed.
Lemma resized_empty made now d x : usual now d -> (0 <= x)%Z -> (0 <= made)%Z -> (x + made <= 1000000)%Z ->
  exists l r, resized made now d (Pixels x) (Pixels 0) = Ok (l, r) /\ at_pixel now l x /\ at_pixel now r (x + made).
Proof.
  intros H X M XM. destruct (sum_close now d x made H X M XM) as (p & q & P & Q & A & B). unfold resized, or_canvas. cbn [Z.eqb]. rewrite P, Q. cbn [bind]. eauto.
Qed.
Lemma not_filled : ~ (forall made now d l r, usual (IZR made) d -> usual now d -> resized made now d (Pixels 0) (Pixels 0) = Ok (l, r) -> Rabs (r * now - now) <= 1).
Proof.
  intros H. destruct (resized_empty 58 116 100 0 ltac:(unfold usual; lra) ltac:(lia) ltac:(lia) ltac:(lia)) as (l & r & E & _ & R).
  specialize (H 58%Z 116 100 l r ordinary ltac:(unfold usual; lra) E). unfold at_pixel in R. cbn [Z.add] in R. apply Rabs_le_iff in R, H. assert (/ 10 ^ 8 <= 1) by (cbn [pow]; lra). lra.
Qed.
