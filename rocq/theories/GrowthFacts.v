(** Sizes that follow the zoom in floating point. *)
From Coq Require Import Reals Lra Psatz List ZArith Lia.
From Flocq Require Import Core.
From Verif Require Import Base Glm Drift DriftRound SingleFacts Zoom ZoomSpec ZoomFacts Growth GrowthSpec.
From Verif Require Viewport.
Import ListNotations.
Local Open Scope R_scope.

Lemma about_mul a b x y x' y' : about a x x' -> about b y y' -> about (a + b) (x * y) (x' * y').
Proof.
  intros A B. apply about_trans with (x' * y); [|apply about_scale; [exact (proj1 (proj2 A))|exact B]].
  rewrite (Rmult_comm x), (Rmult_comm x'). apply about_scale; [exact (proj1 B)|exact A].
Qed.
Lemma about_square square z : good_square square -> / 100 <= z <= 10 -> about 3 (z * z) (square z).
Proof.
  intros G Z. pose proof (G z Z) as H. assert (U : / 2 ^ 52 = 2 * DriftRound.u) by (unfold DriftRound.u; cbn [pow]; lra). rewrite U in H. apply Rabs_le_iff in H.
  pose proof u_small as S. unfold about. set (v := DriftRound.u) in *. assert (Q : 0 < z * z) by (apply Rmult_lt_0_compat; lra). set (q := z * z) in *. set (p := square z) in *.
  assert (S2 : 0 <= v * v <= v / 1000) by (split; nra). assert (S3 : 0 <= v * (v * v) <= v / 1000) by (split; nra). assert (S4 : 0 <= v * (v * (v * v))) by nra.
  assert (W : (1 - v) ^ 3 <= 1 - 2 * v) by (cbn [pow]; lra). assert (W' : (1 - v) ^ 3 * (1 + 2 * v) <= 1) by (cbn [pow]; lra).
  assert (W0 : 0 <= (1 - v) ^ 3) by (apply pow_le; lra).
  assert (P1 : (1 - 2 * v) * q <= p) by lra. assert (P2 : p <= (1 + 2 * v) * q) by lra.
  assert (P : 0 < p) by nra. repeat split; auto.
  - apply Rle_trans with ((1 - 2 * v) * q); [apply Rmult_le_compat_r; lra|exact P1].
  - apply Rle_trans with ((1 - v) ^ 3 * ((1 + 2 * v) * q)); [apply Rmult_le_compat_l; lra|]. rewrite <- Rmult_assoc. rewrite <- (Rmult_1_l q) at 2. apply Rmult_le_compat_r; lra.
Qed.
Lemma single_beside k x y : INR k <= 2000100 -> / 1000000000 <= x -> about k x y -> beside x (rnd32 y).
Proof.
  intros N X A.
  pose proof (pos_INR k) as N0. assert (H : INR k * DriftRound.u <= / 2) by (unfold DriftRound.u; lra).
  pose proof (about_close k x y H A) as C. pose proof (about_range k x y H A) as [_ B]. destruct A as (_ & Y & _).
  pose proof (round_err (-149) 24 y ltac:(lia) ltac:(lia) ltac:(lia)) as R. fold (rnd32 y) in R. rewrite (Rabs_pos_eq y) in R by lra.
  assert (D : INR k * / 2 ^ 52 * x <= / 1000000000 * x). { apply Rmult_le_compat_r; [lra|]. cbn [pow]. lra. }
  assert (Eta : eta <= / 1000000000 * x). { apply Rle_trans with (/ 1000000000 * / 1000000000); [|apply Rmult_le_compat_l; lra].
    unfold SingleFacts.eta. rewrite <- Rinv_mult. apply Rinv_le_contravar; [lra|]. cbn [pow]. lra. }
  unfold beside. apply Rabs_le_iff in C, R. unfold u24 in R. apply Rabs_le. cbn [pow] in *. split; lra.
Qed.
Lemma rnd32_le x y : x <= y -> rnd32 x <= rnd32 y.
Proof. apply round_le; [apply FLT_exp_valid; reflexivity|apply valid_rnd_N]. Qed.

Lemma limited_turns l : forall c z, limited z -> limited (turns c z l).
Proof.
  pose proof limits as K. assert (T : forall z b, limited z -> limited (turn z b)).
  { intros z b [A B]. destruct b; cbn [turn]; split; try lra; [apply Rmax_r|apply Rmax_lub; nra|apply Rmin_glb; nra|apply Rmin_r]. }
  induction l as [|e l IH]; intros c z L; cbn [turns]; [exact L|]. destruct e as [|[|] b|w h]; auto. apply IH. destruct c; auto.
Qed.
Lemma scaled_by k Z p b : / 1000 <= Z <= 1000 -> INR k <= 2000090 -> about k Z p -> sensible b -> beside (b / Z) (rnd32 (fmul (rnd (1 / p)) b)).
Proof.
  intros L N A [B1 B2].
  pose proof (pos_INR k) as N0. assert (H : INR k * DriftRound.u <= / 2) by (unfold DriftRound.u; lra). pose proof (about_range k Z p H A) as [P1 P2]. pose proof ten20' as T.
  assert (I : / 2000 <= / p) by (apply Rinv_le_contravar; lra). assert (IZ : / 1000 <= / Z) by (apply Rinv_le_contravar; lra).
  assert (R1 : about 1 (/ p) (rnd (1 / p))). { replace (1 / p) with (/ p) by lra. apply about_rnd. lra. }
  assert (R1' : / 4000 <= rnd (1 / p)). { destruct R1 as (_ & _ & R1 & _). rewrite pow_1 in R1. pose proof u_small. nra. }
  apply (single_beside (k + (1 + 1))); [rewrite plus_INR; cbn [INR Nat.add]; lra| |].
  - pose proof (Rmult_le_compat (/ 1000) b (/ 1000) (/ Z) ltac:(lra) ltac:(lra) ltac:(lra) ltac:(lra)). unfold Rdiv. lra.
  - unfold Rdiv at 1. apply about_trans with (b * / p); [apply about_scale; [lra|now apply about_inv]|].
    apply about_trans with (b * rnd (1 / p)); [apply about_scale; [lra|exact R1]|]. unfold fmul. rewrite (Rmult_comm b). apply about_rnd.
    pose proof (Rmult_le_compat (/ 4000) (rnd (1 / p)) (/ 1000) b ltac:(lra) ltac:(lra) ltac:(lra) ltac:(lra)). lra.
Qed.
Lemma grown square z l s base line : good_square square -> limited z -> INR (length l) <= 1000000 -> happens (znew z) l = Ok s -> Forall sensible base -> sensible line ->
  exists sizes widths, ftables square (z_zoom s) base line = Ok (sizes, widths) /\ let Z := turns false z l in
    Forall2 (fun b x => beside (b / (Z * Z)) x) base sizes /\ length widths = length base /\ Forall (beside (line / Z)) widths.
Proof.
  intros G L N H FB SL. pose proof limits as K. assert (Z0 : 0 < z) by (destruct L; lra).
  pose proof (turned_about l (znew z) s 0 z L (about_refl z Z0) H) as A. cbn [znew z_connected Nat.add] in A. pose proof (limited_turns l false z L) as [T1 T2].
  cbv zeta. set (Z := turns false z l) in *. set (t := z_zoom s) in *. pose proof (zoom_limited z l s L H) as [M1 M2]. fold t in M1, M2. assert (TP : / 100 <= t <= 10) by lra.
  pose proof (about_trans _ _ _ _ _ (about_mul _ _ _ _ _ _ A A) (about_square square t G TP)) as Q. assert (QP : 0 < square t) by exact (proj1 (proj2 Q)).
  unfold ftables. rewrite (fdiv_ok 1 (square t)), (fdiv_ok 1 t) by lra. cbn [bind]. eexists _, _. split; [reflexivity|].
  assert (ZZ : / 1000 <= Z * Z <= 1000) by (split; nra). split; [|split].
  - induction FB as [|b base SB _ IH]; cbn [map]; constructor; auto. apply (scaled_by (length l + length l + 3)); auto. rewrite !plus_INR. cbn [INR]. lra.
  - apply repeat_length.
  - apply Forall_forall. intros x I. apply repeat_spec in I as ->. apply (scaled_by (length l)); auto; lra.
Qed.
Lemma grown_order square zoom base line sizes widths : 0 < zoom -> 0 < square zoom -> ftables square zoom base line = Ok (sizes, widths) ->
  forall i j a b x y, nth_error base i = Some a -> nth_error base j = Some b -> nth_error sizes i = Some x -> nth_error sizes j = Some y -> a <= b -> x <= y.
Proof.
  intros Z Q H. unfold ftables in H. rewrite (fdiv_ok 1 (square zoom)), (fdiv_ok 1 zoom) in H by lra. cbn [bind] in H. injection H as <- <-.
  intros i j a b x y Ea Eb Ex Ey L. rewrite nth_error_map in Ex, Ey. rewrite Ea in Ex. rewrite Eb in Ey. cbn in Ex, Ey. injection Ex as <-. injection Ey as <-.
  apply rnd32_le, rnd_le. apply Rmult_le_compat_l; [|exact L]. apply rnd_nonneg. apply Rlt_le, Rdiv_lt_0_compat; lra.
Qed.
Lemma grown_zoom square z z' base line sizes widths sizes' widths' : good_square square -> rising square -> / 100 <= z' -> z' <= z -> z <= 10 -> Forall sensible base -> sensible line ->
  ftables square z base line = Ok (sizes, widths) -> ftables square z' base line = Ok (sizes', widths') -> Forall2 Rle sizes sizes' /\ Forall2 Rle widths widths'.
Proof.
  intros G RI Z' ZZ Z FB [SL _] H H'.
  assert (Q : 0 < square z) by exact (proj1 (proj2 (about_square square z G ltac:(lra)))). assert (Q' : 0 < square z') by exact (proj1 (proj2 (about_square square z' G ltac:(lra)))).
  unfold ftables in H, H'. rewrite (fdiv_ok 1 (square z)), (fdiv_ok 1 z) in H by lra. rewrite (fdiv_ok 1 (square z')), (fdiv_ok 1 z') in H' by lra. cbn [bind] in *.
  injection H as <- <-. injection H' as <- <-. pose proof (RI z' z ltac:(lra) ZZ) as QQ.
  assert (I1 : rnd (1 / square z) <= rnd (1 / square z')). { apply rnd_le. unfold Rdiv. rewrite !Rmult_1_l. apply Rinv_le_contravar; lra. }
  assert (I2 : rnd (1 / z) <= rnd (1 / z')). { apply rnd_le. unfold Rdiv. rewrite !Rmult_1_l. apply Rinv_le_contravar; lra. }
  split.
  - induction FB as [|b base [SB _] _ IH]; cbn [map]; constructor; auto. apply rnd32_le, rnd_le, Rmult_le_compat_r; lra.
  - clear FB. induction base as [|b base IH]; cbn [length repeat]; constructor; auto. apply rnd32_le, rnd_le, Rmult_le_compat_r; lra.
Qed.
Lemma rounded_square : good_square (fun z => rnd (z * z)) /\ rising (fun z => rnd (z * z)).
Proof.
  split.
  - intros z Z. assert (Q : / 10000 <= z * z) by nra. pose proof ten20' as T. pose proof (about_close 1 _ _ ltac:(cbn [INR]; unfold DriftRound.u; lra) (about_rnd (z * z) ltac:(lra))) as H.
    cbn [INR] in H. lra.
  - intros a b A B. apply rnd_le. nra.
Qed.
