(** The zoom in floating point. *)
From Coq Require Import Reals Lra Psatz List ZArith Lia.
From Flocq Require Import Core.
From Verif Require Import Base Glm Drift DriftRound OpticsFacts Zoom ZoomSpec.
From Verif Require Viewport.
Import ListNotations.
Local Open Scope R_scope.

(** ** Numbers that differ by at most [k] roundings *)
Definition about (k : nat) (x y : R) : Prop := 0 < x /\ 0 < y /\ (1 - u) ^ k * x <= y /\ (1 - u) ^ k * y <= x.
Lemma u_small : 0 < u <= / 1000000.
Proof. unfold u. lra. Qed.
Lemma w_pos k : 0 < (1 - u) ^ k.
Proof. apply pow_lt. pose proof u_small. lra. Qed.
Lemma w_le1 k : (1 - u) ^ k <= 1.
Proof. induction k as [|k IH]; cbn [pow]; [lra|]. pose proof u_small. pose proof (w_pos k). nra. Qed.
Lemma w_bern k : 1 - INR k * u <= (1 - u) ^ k.
Proof. induction k as [|k IH]; [cbn; lra|]. rewrite S_INR. cbn [pow]. pose proof u_small. pose proof (w_le1 k). nra. Qed.
Lemma about_refl x : 0 < x -> about 0 x x.
Proof. intros H. repeat split; cbn; lra. Qed.
Lemma about_sym k x y : about k x y -> about k y x.
Proof. intros (A & B & C & D). repeat split; auto. Qed.
Lemma about_trans a b x y z : about a x y -> about b y z -> about (a + b) x z.
Proof.
  intros (A & B & C & D) (_ & A' & C' & D'). repeat split; auto; rewrite pow_add; pose proof (w_pos a); pose proof (w_pos b).
  - apply Rle_trans with ((1 - u) ^ b * y); [|exact C']. rewrite (Rmult_comm ((1 - u) ^ a)), Rmult_assoc. apply Rmult_le_compat_l; lra.
  - apply Rle_trans with ((1 - u) ^ a * y); [|exact D]. rewrite Rmult_assoc. apply Rmult_le_compat_l; lra.
Qed.
Lemma about_le a b x y : (a <= b)%nat -> about a x y -> about b x y.
Proof.
  intros L (A & B & C & D). assert (W : (1 - u) ^ b <= (1 - u) ^ a).
  { replace b with (a + (b - a))%nat by lia. rewrite pow_add. pose proof (w_le1 (b - a)). pose proof (w_pos a). nra. }
  repeat split; auto; eapply Rle_trans; try eassumption; apply Rmult_le_compat_r; lra.
Qed.
Lemma about_scale k c x y : 0 < c -> about k x y -> about k (c * x) (c * y).
Proof.
  intros H (A & B & C & D). repeat split; try (apply Rmult_lt_0_compat; lra).
  - replace ((1 - u) ^ k * (c * x)) with (c * ((1 - u) ^ k * x)) by ring. apply Rmult_le_compat_l; lra.
  - replace ((1 - u) ^ k * (c * y)) with (c * ((1 - u) ^ k * y)) by ring. apply Rmult_le_compat_l; lra.
Qed.
Lemma about_inv k x y : about k x y -> about k (/ x) (/ y).
Proof.
  intros (A & B & C & D). pose proof (w_pos k). repeat split; try (apply Rinv_0_lt_compat; lra).
  - apply Rmult_le_reg_r with (x * y); [nra|]. replace ((1 - u) ^ k * / x * (x * y)) with ((1 - u) ^ k * y) by (field; lra). replace (/ y * (x * y)) with x by (field; lra). exact D.
  - apply Rmult_le_reg_r with (x * y); [nra|]. replace ((1 - u) ^ k * / y * (x * y)) with ((1 - u) ^ k * x) by (field; lra). replace (/ x * (x * y)) with y by (field; lra). exact C.
Qed.
Lemma about_rnd x : / 10 ^ 20 <= x -> about 1 x (rnd x).
Proof.
  intros H. assert (P : 0 < / 10 ^ 20) by (apply Rinv_0_lt_compat, pow_lt; lra).
  assert (B : bpow radix2 (-1022) <= Rabs x).
  { apply least_normal. rewrite Rabs_pos_eq by lra. pose proof (Rinv_le_contravar (10 ^ 20) (10 ^ 25) ltac:(apply pow_lt; lra) ltac:(apply Rle_pow; [lra|lia])). lra. }
  pose proof (rnd_rel x B) as R. rewrite (Rabs_pos_eq x) in R by lra. apply Rabs_le_iff in R. pose proof u_small. repeat split; rewrite ?pow_1; nra.
Qed.
Lemma about_close k x y : INR k * u <= / 2 -> about k x y -> Rabs (y - x) <= INR k * / 2 ^ 52 * x.
Proof.
  intros K (A & B & C & D). pose proof (w_bern k) as W. pose proof (pos_INR k) as P. pose proof u_small.
  assert (U : / 2 ^ 52 = 2 * u) by (unfold u; cbn [pow]; lra). rewrite U. set (t := INR k * u) in *. replace (INR k * (2 * u) * x) with (2 * t * x) by (unfold t; ring).
  assert (T : 0 <= t) by (unfold t; nra). apply Rabs_le. split; [nra|].
  assert (X : (1 - t) * y <= x) by nra. assert (Y : y <= 2 * x) by nra. nra.
Qed.
Lemma about_range k x y : INR k * u <= / 2 -> about k x y -> / 2 * x <= y <= 2 * x.
Proof. intros K (A & B & C & D). pose proof (w_bern k) as W. split; nra. Qed.

(** ** The zoom *)
Lemma limits : 0 < least /\ least < most /\ 9 / 100 <= least <= 11 / 100 /\ most = 5 /\ 89999 / 100000 <= inward <= 90001 / 100000 /\ 109999 / 100000 <= outward <= 110001 / 100000.
Proof. unfold least, most, inward, outward. lra. Qed.
Lemma ten20' : / 10 ^ 20 <= / 10000000000.
Proof. apply Rinv_le_contravar; [lra|]. replace 10000000000 with (10 ^ 10) by (cbn [pow]; lra). apply Rle_pow; [lra|lia]. Qed.
Lemma fmax_is a b : fmax a b = Rmax a b.
Proof. unfold fmax, Rmax. destruct (Rlt_dec a b), (Rle_dec a b); lra. Qed.
Lemma fmin_is a b : fmin a b = Rmin a b.
Proof. unfold fmin, Rmin. destruct (Rlt_dec b a), (Rle_dec a b); lra. Qed.
Lemma inward_about z : / 100000 <= z -> about 1 (inward * z) (fmul inward z).
Proof. intros H. apply about_rnd. pose proof limits. pose proof ten20'. nra. Qed.
Lemma outward_about z : / 100000 <= z -> about 1 (outward * z) (fmul outward z).
Proof. intros H. apply about_rnd. pose proof limits. pose proof ten20'. nra. Qed.
Lemma factor_range c a b z f : 0 < z -> 0 < a <= c -> c <= b -> about 1 (c * z) f -> 999999 / 1000000 * (a * z) <= f /\ 999999 / 1000000 * f <= b * z.
Proof.
  intros Z A B (_ & F & X & Y). rewrite pow_1 in *. pose proof u_small as U.
  assert (a * z <= c * z <= b * z) by (split; apply Rmult_le_compat_r; lra).
  assert (0 < a * z) by (apply Rmult_lt_0_compat; lra).
  assert (999999 / 1000000 * (c * z) <= (1 - u) * (c * z)) by (apply Rmult_le_compat_r; lra).
  assert (999999 / 1000000 * f <= (1 - u) * f) by (apply Rmult_le_compat_r; lra). split; lra.
Qed.
Lemma inward_range z : / 100000 <= z -> 8999 / 10000 * z <= fmul inward z <= 9001 / 10000 * z.
Proof. intros H. pose proof limits. destruct (factor_range inward (89999 / 100000) (90001 / 100000) z (fmul inward z)); try lra. now apply inward_about. Qed.
Lemma outward_range z : / 100000 <= z -> 10999 / 10000 * z <= fmul outward z <= 11001 / 10000 * z.
Proof. intros H. pose proof limits. destruct (factor_range outward (109999 / 100000) (110001 / 100000) z (fmul outward z)); try lra. now apply outward_about. Qed.
Lemma zoomed_limited z b : limited z -> limited (fzoomed z b).
Proof.
  intros [A B]. pose proof limits as L. assert (Z : / 100000 <= z) by lra. pose proof (inward_range z Z). pose proof (outward_range z Z).
  destruct b; cbn [fzoomed]; [unfold fmax; destruct Rlt_dec|unfold fmin; destruct Rlt_dec|]; split; lra.
Qed.
Lemma happen_limited s e s' : limited (z_zoom s) -> happen s e = Ok s' -> limited (z_zoom s').
Proof.
  intros L H. destruct e as [|i b|w h]; cbn [happen] in H; unfold show in H.
  - destruct (fdiv (z_y s) (z_x s)); [injection H as <-; exact L|discriminate].
  - destruct (z_connected s); [|injection H as <-; exact L]. destruct i; [|injection H as <-; exact L]. cbn [negb] in H.
    destruct (fdiv (z_y s) (z_x s)); [injection H as <-; now apply zoomed_limited|discriminate].
  - destruct (Rlt_dec h w); [destruct (fdiv (fmul (z_axes s) w) h)|destruct (fdiv (fmul (z_axes s) h) w)]; try discriminate; injection H as <-; exact L.
Qed.
Lemma always_limited l : forall s s', limited (z_zoom s) -> happens s l = Ok s' -> limited (z_zoom s').
Proof.
  induction l as [|e l IH]; intros s s' L H; cbn [happens] in H; [injection H as <-; exact L|].
  destruct (happen s e) as [t|] eqn:E; [|discriminate]. apply (IH t); [now apply (happen_limited s e)|exact H].
Qed.
Lemma zoom_limited z l s : limited z -> happens (znew z) l = Ok s -> limited (z_zoom s).
Proof. intros L. apply always_limited. exact L. Qed.
Lemma factor_close c d z f : 0 < z -> Rabs (c - d) <= u -> 0 < c <= 2 -> f <= 2 * z -> about 1 (c * z) f -> Rabs (f - d * z) <= 4 * u * z.
Proof.
  intros Z D C F (_ & _ & X & Y). rewrite pow_1 in *. pose proof u_small as U. apply Rabs_le_iff in D.
  assert (A1 : u * f <= u * (2 * z)) by (apply Rmult_le_compat_l; lra).
  assert (A2 : c * z <= 2 * z) by (apply Rmult_le_compat_r; lra). assert (A3 : u * (c * z) <= u * (2 * z)) by (apply Rmult_le_compat_l; lra).
  assert (A4 : (c - d) * z <= u * z) by (apply Rmult_le_compat_r; lra). assert (A5 : - u * z <= (c - d) * z) by (apply Rmult_le_compat_r; lra).
  assert (A6 : 0 < u * z) by (apply Rmult_lt_0_compat; lra).
  apply Rabs_le. split; lra.
Qed.
Lemma zoom_directions z : limited z ->
  (least < z -> fzoomed z Viewport.Up < z) /\ (z < most -> z < fzoomed z Viewport.Down) /\ fzoomed z Viewport.OtherButton = z /\
  (fzoomed z Viewport.Up = least \/ Rabs (fzoomed z Viewport.Up - 9 / 10 * z) <= / 2 ^ 51 * z) /\
  (fzoomed z Viewport.Down = most \/ Rabs (fzoomed z Viewport.Down - 11 / 10 * z) <= / 2 ^ 51 * z).
Proof.
  intros [A B]. pose proof limits as L. assert (Z : / 100000 <= z) by lra. pose proof (inward_range z Z). pose proof (outward_range z Z).
  assert (U : / 2 ^ 51 = 4 * u) by (unfold u; cbn [pow]; lra). rewrite U. clear U.
  assert (DI : Rabs (inward - 9 / 10) <= u) by (unfold inward, u; apply Rabs_le; lra). assert (DO : Rabs (outward - 11 / 10) <= u) by (unfold outward, u; apply Rabs_le; lra).
  assert (CI : Rabs (fmul inward z - 9 / 10 * z) <= 4 * u * z) by (apply (factor_close inward); [lra|exact DI|lra|lra|now apply inward_about]).
  assert (CO : Rabs (fmul outward z - 11 / 10 * z) <= 4 * u * z) by (apply (factor_close outward); [lra|exact DO|lra|lra|now apply outward_about]).
  cbn [fzoomed]. unfold fmax, fmin. split; [destruct Rlt_dec; lra|]. split; [destruct Rlt_dec; lra|]. split; [reflexivity|].
  split; destruct Rlt_dec; auto.
Qed.

(** ** Reaching the limits *)
Lemma wheel_zoom s b s' : z_connected s = true -> happen s (Wheel true b) = Ok s' -> z_zoom s' = fzoomed (z_zoom s) b /\ z_connected s' = true.
Proof.
  intros C H. cbn [happen] in H. rewrite C in H. cbn [negb] in H. unfold show in H. destruct (fdiv (z_y s) (z_x s)); [|discriminate]. injection H as <-. auto.
Qed.
Lemma ups n : forall s s' B, z_connected s = true -> limited (z_zoom s) -> z_zoom s <= B -> happens s (repeat (Wheel true Viewport.Up) n) = Ok s' ->
  z_zoom s' = least \/ z_zoom s' <= (9001 / 10000) ^ n * B.
Proof.
  induction n as [|n IH]; intros s s' B C L H E; cbn [repeat happens] in E; [injection E as <-; right; cbn; lra|].
  destruct (happen s (Wheel true Viewport.Up)) as [t|] eqn:Et; [|discriminate]. destruct (wheel_zoom s _ t C Et) as [Z Ct].
  assert (Lt : limited (z_zoom t)) by (rewrite Z; now apply zoomed_limited). pose proof limits as K.
  assert (R : z_zoom t = least \/ z_zoom t <= 9001 / 10000 * B).
  { rewrite Z. cbn [fzoomed]. unfold fmax. destruct Rlt_dec; [now left|right]. destruct L as [L1 L2]. pose proof (inward_range (z_zoom s) ltac:(lra)). lra. }
  destruct R as [R|R].
  - left. clear IH L H Et Z C. change (happens t (repeat (Wheel true Viewport.Up) n) = Ok s') in E. revert t Ct Lt R E. induction n as [|n IH]; intros t Ct Lt R E; cbn [repeat happens] in E; [injection E as <-; exact R|].
    destruct (happen t (Wheel true Viewport.Up)) as [t'|] eqn:Et'; [|discriminate]. destruct (wheel_zoom t _ t' Ct Et') as [Z' Ct'].
    assert (Z0 : z_zoom t' = least).
    { rewrite Z', R. cbn [fzoomed]. unfold fmax. destruct Rlt_dec as [|N]; [reflexivity|]. pose proof (inward_range least ltac:(lra)). lra. }
    apply (IH t'); auto. rewrite Z0. split; lra.
  - destruct (IH t s' _ Ct Lt R E) as [D|D]; [now left|right]. cbn [pow]. lra.
Qed.
Lemma downs n : forall s s' B, z_connected s = true -> limited (z_zoom s) -> B <= z_zoom s -> happens s (repeat (Wheel true Viewport.Down) n) = Ok s' ->
  z_zoom s' = most \/ (10999 / 10000) ^ n * B <= z_zoom s'.
Proof.
  induction n as [|n IH]; intros s s' B C L H E; cbn [repeat happens] in E; [injection E as <-; right; cbn; lra|].
  destruct (happen s (Wheel true Viewport.Down)) as [t|] eqn:Et; [|discriminate]. destruct (wheel_zoom s _ t C Et) as [Z Ct].
  assert (Lt : limited (z_zoom t)) by (rewrite Z; now apply zoomed_limited). pose proof limits as K.
  assert (R : z_zoom t = most \/ 10999 / 10000 * B <= z_zoom t).
  { rewrite Z. cbn [fzoomed]. unfold fmin. destruct Rlt_dec; [now left|right]. destruct L as [L1 L2]. pose proof (outward_range (z_zoom s) ltac:(lra)). lra. }
  destruct R as [R|R].
  - left. clear IH L H Et Z C. change (happens t (repeat (Wheel true Viewport.Down) n) = Ok s') in E. revert t Ct Lt R E. induction n as [|n IH]; intros t Ct Lt R E; cbn [repeat happens] in E; [injection E as <-; exact R|].
    destruct (happen t (Wheel true Viewport.Down)) as [t'|] eqn:Et'; [|discriminate]. destruct (wheel_zoom t _ t' Ct Et') as [Z' Ct'].
    assert (Z0 : z_zoom t' = most).
    { rewrite Z', R. cbn [fzoomed]. unfold fmin. destruct Rlt_dec as [|N]; [reflexivity|]. pose proof (outward_range most ltac:(lra)). lra. }
    apply (IH t'); auto. rewrite Z0. split; lra.
  - destruct (IH t s' _ Ct Lt R E) as [D|D]; [now left|right]. cbn [pow]. lra.
Qed.
Lemma zoom_reaches s s' : z_connected s = true -> limited (z_zoom s) ->
  (happens s (repeat (Wheel true Viewport.Up) 40) = Ok s' -> z_zoom s' = least) /\
  (happens s (repeat (Wheel true Viewport.Down) 45) = Ok s' -> z_zoom s' = most).
Proof.
  intros C L. pose proof limits as K. split; intros H; pose proof (always_limited _ _ _ L H) as [L1 L2].
  - destruct (ups 40 s s' 5 C L ltac:(destruct L; lra) H) as [E|E]; [exact E|]. cbn [pow] in E. lra.
  - destruct (downs 45 s s' (9 / 100) C L ltac:(destruct L; lra) H) as [E|E]; [exact E|]. cbn [pow] in E. lra.
Qed.

(** ** Beside the zoom without rounding *)
Lemma about_max k c x y : 0 < c -> about k x y -> about k (Rmax x c) (Rmax y c).
Proof.
  intros P (A & B & C & D). pose proof (w_pos k). pose proof (w_le1 k).
  assert (Q : (1 - u) ^ k * c <= c) by nra. unfold Rmax. destruct (Rle_dec x c), (Rle_dec y c); repeat split; nra.
Qed.
Lemma about_min k c x y : 0 < c -> about k x y -> about k (Rmin x c) (Rmin y c).
Proof.
  intros P (A & B & C & D). pose proof (w_pos k). pose proof (w_le1 k).
  assert (Q : (1 - u) ^ k * c <= c) by nra. unfold Rmin. destruct (Rle_dec x c), (Rle_dec y c); repeat split; nra.
Qed.
Lemma about_turn k Z z b : limited z -> about k Z z -> about (k + 1) (turn Z b) (fzoomed z b).
Proof.
  intros [L1 L2] H. pose proof limits as K. destruct b; cbn [turn fzoomed].
  - rewrite fmax_is. apply about_max; [lra|]. apply about_trans with (inward * z); [apply about_scale; [lra|exact H]|apply inward_about; lra].
  - rewrite fmin_is. apply about_min; [lra|]. apply about_trans with (outward * z); [apply about_scale; [lra|exact H]|apply outward_about; lra].
  - apply about_le with k; [lia|exact H].
Qed.
Lemma turned_about l : forall s s' k Z, limited (z_zoom s) -> about k Z (z_zoom s) -> happens s l = Ok s' ->
  about (k + length l) (turns (z_connected s) Z l) (z_zoom s').
Proof.
  induction l as [|e l IH]; intros s s' k Z L A H; cbn [happens] in H; [injection H as <-; cbn; now rewrite Nat.add_0_r|].
  destruct (happen s e) as [t|] eqn:E; [|discriminate]. pose proof (happen_limited s e t L E) as Lt. cbn [length].
  apply about_le with (k + 1 + length l)%nat; [lia|].
  destruct e as [|i b|w h]; cbn [happen] in E; unfold show in E; cbn [turns].
  - destruct (fdiv (z_y s) (z_x s)); [|discriminate]. injection E as <-. apply (IH _ s' (k + 1)%nat Z Lt); [apply about_le with k; [lia|exact A]|exact H].
  - destruct i.
    + destruct (z_connected s) eqn:C; cbn [negb] in E.
      * destruct (fdiv (z_y s) (z_x s)); [|discriminate]. injection E as <-. exact (IH _ s' (k + 1)%nat _ Lt (about_turn k Z _ b L A) H).
      * injection E as <-. rewrite <- C. apply IH; auto. apply about_le with k; [lia|exact A].
    + assert (t = s) by (destruct (z_connected s); cbn [negb] in E; congruence). subst t. apply IH; auto. apply about_le with k; [lia|exact A].
  - destruct (Rlt_dec h w); [destruct (fdiv (fmul (z_axes s) w) h)|destruct (fdiv (fmul (z_axes s) h) w)]; try discriminate; injection E as <-;
      apply (IH _ s' (k + 1)%nat Z Lt); try exact H; (apply about_le with k; [lia|exact A]).
Qed.
Lemma count_small n : INR n <= 2 ^ 50 -> INR (2 * n + 2) * u <= / 2.
Proof. intros H. rewrite plus_INR, mult_INR. cbn [INR pow] in *. unfold u. lra. Qed.
Lemma zoom_close z l s : limited z -> INR (length l) <= 2 ^ 50 -> happens (znew z) l = Ok s ->
  Rabs (z_zoom s - turns false z l) <= INR (length l) * / 2 ^ 52 * turns false z l.
Proof.
  intros L N H. pose proof limits as K. assert (Z : 0 < z) by (destruct L; lra).
  apply about_close; [|exact (turned_about l (znew z) s 0 z L (about_refl z Z) H)].
  cbn [pow] in N. unfold u. lra.
Qed.

(** ** The limits of the axes *)
Definition shaped (p : R) (n : nat) (s : zooming) : Prop :=
  about (2 * n + 2) p (z_y s / z_x s) /\ 0 < z_x s /\ 0 < z_y s /\ limited (z_zoom s) /\ limited (z_axes s) /\ / 10 ^ 9 <= p.
Lemma one_limited : limited 1.
Proof. pose proof limits. split; lra. Qed.
Lemma show_shaped p n s zoom c : limited zoom -> INR (2 * n + 2) * u <= / 2 -> shaped p n s -> exists s', show zoom c s = Ok s' /\ shaped p (S n) s'.
Proof.
  intros L N (A & X & Y & Z & AX & P). pose proof limits as K. unfold show. rewrite fdiv_ok by lra. cbn [bind]. eexists. split; [reflexivity|].
  pose proof (about_range _ _ _ N A) as [B _]. assert (P' : 0 < / 10 ^ 9) by (apply Rinv_0_lt_compat, pow_lt; lra).
  assert (Q : / 10 ^ 9 = / 1000000000) by (f_equal; cbn [pow]; lra). pose proof ten20' as T.
  assert (R1 : about 1 (z_y s / z_x s) (rnd (z_y s / z_x s))) by (apply about_rnd; lra).
  assert (R1' : / 4000000000 <= rnd (z_y s / z_x s)).
  { destruct R1 as (_ & _ & R1 & _). rewrite pow_1 in R1. pose proof u_small. nra. }
  destruct L as [L1 L2]. assert (R2 : about 1 (zoom * rnd (z_y s / z_x s)) (fmul zoom (rnd (z_y s / z_x s)))).
  { apply about_rnd. pose proof (Rmult_le_compat (9 / 100) zoom (/ 4000000000) (rnd (z_y s / z_x s)) ltac:(lra) ltac:(lra) ltac:(lra) R1'). lra. }
  unfold shaped. cbn [z_x z_y z_zoom z_axes]. split; [|split; [lra|split; [exact (proj1 (proj2 R2))|split; [split; lra|split; [split; lra|exact P]]]]].
  apply about_le with (2 * n + 2 + (1 + 1))%nat; [lia|]. eapply about_trans; [exact A|]. eapply about_trans; [exact R1|].
  pose proof (about_scale 1 (/ zoom) _ _ ltac:(apply Rinv_0_lt_compat; lra) R2) as R3.
  replace (/ zoom * (zoom * rnd (z_y s / z_x s))) with (rnd (z_y s / z_x s)) in R3 by (field; lra).
  replace (fmul zoom (rnd (z_y s / z_x s)) / zoom) with (/ zoom * fmul zoom (rnd (z_y s / z_x s))) by (unfold Rdiv; ring). exact R3.
Qed.
Lemma quotient_about a w h : limited a -> / 1000 <= w <= 1000000 -> / 1000 <= h <= 1000000 ->
  exists q, fdiv (fmul a w) h = Ok q /\ about 2 (a * w / h) q.
Proof.
  intros [A1 A2] W H. pose proof limits as K. rewrite fdiv_ok by lra. eexists. split; [reflexivity|]. pose proof ten20' as T.
  assert (P : / 100000 <= a * w) by nra. assert (R1 : about 1 (a * w) (fmul a w)) by (apply about_rnd; lra).
  assert (Q : / 1000000 <= / h) by (apply Rinv_le_contravar; lra).
  pose proof (about_scale 1 (/ h) _ _ ltac:(lra) R1) as R2. rewrite !(Rmult_comm (/ h)) in R2.
  apply (about_trans 1 1 _ (fmul a w / h)); [exact R2|]. apply about_rnd.
  assert (F : / 200000 <= fmul a w). { destruct R1 as (_ & _ & R1 & _). rewrite pow_1 in R1. pose proof u_small. nra. }
  pose proof (Rmult_le_compat (/ 200000) (fmul a w) (/ 1000000) (/ h) ltac:(lra) ltac:(lra) F Q). unfold Rdiv. lra.
Qed.
Lemma proportion_ok w h : / 1000 <= w <= 1000000 -> / 1000 <= h <= 1000000 -> / 10 ^ 9 <= h / w.
Proof.
  intros W H. replace (/ 10 ^ 9) with (/ 1000 * / 1000000) by (cbn [pow]; field_simplify; lra).
  apply Rmult_le_compat; try lra. apply Rinv_le_contravar; lra.
Qed.
Lemma happen_shaped p n s e : INR (2 * n + 2) * u <= / 2 -> sizes_ok e -> shaped p n s -> exists s', happen s e = Ok s' /\ shaped (proportion p e) (settings n e) s'.
Proof.
  intros N SZ H. pose proof H as (A & X & Y & Z & AX & P). destruct e as [|i b|w h]; cbn [happen proportion settings].
  - now apply show_shaped.
  - assert (G : shaped p (S n) s). { split; [apply about_le with (2 * n + 2)%nat; [lia|exact A]|exact (proj2 H)]. }
    destruct (z_connected s); cbn [negb]; [|exists s; auto]. destruct i; cbn [negb]; [|exists s; auto]. apply show_shaped; auto. now apply zoomed_limited.
  - cbn [sizes_ok] in SZ. destruct SZ as [W HH]. pose proof limits as K. pose proof AX as [A1 A2]. destruct (Rlt_dec h w).
    + destruct (quotient_about (z_axes s) w h AX W HH) as (q & Eq & Q). rewrite Eq. cbn [bind]. eexists. split; [reflexivity|].
      unfold shaped. cbn [z_x z_y z_zoom z_axes]. split; [|split; [exact (proj1 (proj2 Q))|split; [lra|split; [exact Z|split; [exact AX|now apply proportion_ok]]]]].
      apply about_inv in Q. apply (about_scale 2 (z_axes s)) in Q; [|lra]. replace (z_axes s * / (z_axes s * w / h)) with (h / w) in Q by (field; lra). exact Q.
    + destruct (quotient_about (z_axes s) h w AX HH W) as (q & Eq & Q). rewrite Eq. cbn [bind]. eexists. split; [reflexivity|].
      unfold shaped. cbn [z_x z_y z_zoom z_axes]. split; [|split; [lra|split; [exact (proj1 (proj2 Q))|split; [exact Z|split; [exact AX|now apply proportion_ok]]]]].
      apply (about_scale 2 (/ z_axes s)) in Q; [|apply Rinv_0_lt_compat; lra]. replace (/ z_axes s * (z_axes s * h / w)) with (h / w) in Q by (field; lra).
      replace (q / z_axes s) with (/ z_axes s * q) by (unfold Rdiv; ring). exact Q.
Qed.
Lemma happens_shaped l : forall p n s, INR (n + length l) <= 2 ^ 50 -> Forall sizes_ok l -> shaped p n s ->
  exists s', happens s l = Ok s' /\ shaped (fold_left proportion l p) (fold_left settings l n) s' /\ (fold_left settings l n <= n + length l)%nat.
Proof.
  induction l as [|e l IH]; intros p n s N SZ H; cbn [happens fold_left length] in *.
  - exists s. repeat split; try apply H. lia.
  - inversion SZ as [|? ? S1 S2]; subst. assert (N0 : INR (2 * n + 2) * u <= / 2).
    { apply count_small. eapply Rle_trans; [|exact N]. apply le_INR. lia. }
    destruct (happen_shaped p n s e N0 S1 H) as (t & Et & Ht). rewrite Et. cbn [bind].
    assert (NS : (settings n e <= S n)%nat) by (destruct e; cbn; lia).
    destruct (IH (proportion p e) (settings n e) t) as (s' & Es & Hs & Ls); auto.
    + eapply Rle_trans; [|exact N]. apply le_INR. lia.
    + exists s'. split; [exact Es|]. split; [exact Hs|lia].
Qed.
Lemma zoom_aspect z l : limited z -> INR (length l) <= 2 ^ 50 -> Forall sizes_ok l ->
  exists s, happens (znew z) l = Ok s /\ 0 < z_x s /\ 0 < z_y s /\
    Rabs (z_y s / z_x s - fold_left proportion l 1) <= (2 * INR (fold_left settings l 0%nat) + 2) * / 2 ^ 52 * fold_left proportion l 1.
Proof.
  intros L N SZ. destruct (happens_shaped l 1 0 (znew z) N SZ) as (s & E & (A & X & Y & _) & M).
  - unfold shaped, znew. cbn [z_x z_y z_zoom z_axes]. replace (1 / 1) with 1 by lra. split; [apply about_le with 0%nat; [lia|apply about_refl; lra]|].
    split; [lra|]. split; [lra|]. split; [exact L|]. split; [exact one_limited|]. rewrite <- Rinv_1. apply Rinv_le_contravar; [lra|]. cbn [pow]. lra.
  - exists s. split; [exact E|]. split; [exact X|]. split; [exact Y|].
    set (n := fold_left settings l 0%nat) in *. replace (2 * INR n + 2) with (INR (2 * n + 2)) by (rewrite plus_INR, mult_INR; cbn [INR]; lra).
    apply about_close; [|exact A]. apply count_small. eapply Rle_trans; [apply le_INR; exact M|exact N].
Qed.

(** ** Square viewports *)
Lemma dyadic m e : (Z.abs m < 2 ^ 53)%Z -> (-1074 <= e)%Z -> rnd (IZR m * bpow radix2 e) = IZR m * bpow radix2 e.
Proof. intros M E. apply round_generic; [apply valid_rnd_N|]. apply generic_format_FLT. exists (Float radix2 m e); [reflexivity|exact M|exact E]. Qed.
Lemma rnd_1 : rnd 1 = 1.
Proof. pose proof (dyadic 1 0 ltac:(reflexivity) ltac:(lia)) as H. cbn [bpow] in H. now rewrite Rmult_1_r in H. Qed.
Lemma inward_exact : rnd inward = inward.
Proof. pose proof (dyadic 8106479329266893 (-53) ltac:(reflexivity) ltac:(lia)) as H. exact H. Qed.
Lemma least_exact : rnd least = least.
Proof. pose proof (dyadic 3602879701896397 (-55) ltac:(reflexivity) ltac:(lia)) as H. exact H. Qed.
Lemma most_exact : rnd most = most.
Proof. pose proof (dyadic 5 0 ltac:(reflexivity) ltac:(lia)) as H. cbn [bpow] in H. now rewrite Rmult_1_r in H. Qed.
Lemma zoomed_exact z b : rnd z = z -> rnd (fzoomed z b) = fzoomed z b.
Proof.
  intros H. destruct b; cbn [fzoomed]; [unfold fmax|unfold fmin|exact H]; destruct Rlt_dec; auto using least_exact, most_exact; apply rnd_again.
Qed.
Definition even_sided (s : zooming) : Prop := limited (z_zoom s) /\ rnd (z_zoom s) = z_zoom s /\ 0 < z_x s /\ z_x s = z_y s.
Lemma show_even s zoom c : limited zoom -> rnd zoom = zoom -> even_sided s -> exists s', show zoom c s = Ok s' /\ even_sided s' /\ z_x s' = zoom.
Proof.
  intros L F (_ & _ & X & E). pose proof limits as K. unfold show. rewrite fdiv_ok by lra. cbn [bind]. eexists. split; [reflexivity|].
  assert (Q : z_y s / z_x s = 1) by (rewrite <- E; field; lra). rewrite Q, rnd_1. unfold fmul. rewrite Rmult_1_r, F.
  unfold even_sided. cbn [z_x z_y z_zoom]. destruct L. repeat split; auto; lra.
Qed.
Lemma happens_even l : forall s, Forall no_resize l -> even_sided s -> exists s', happens s l = Ok s' /\ even_sided s'.
Proof.
  induction l as [|e l IH]; intros s F H; cbn [happens]; [exists s; auto|]. inversion F as [|? ? F1 F2]; subst.
  assert (K : exists t, happen s e = Ok t /\ even_sided t).
  { pose proof H as (L & Z & _). destruct e as [|i b|w h]; cbn [happen]; [| |contradiction].
    - destruct (show_even s (z_zoom s) true L Z H) as (t & E & T & _). eauto.
    - destruct (z_connected s); cbn [negb]; [|eauto]. destruct i; cbn [negb]; [|eauto].
      destruct (show_even s (fzoomed (z_zoom s) b) true (zoomed_limited _ b L) (zoomed_exact _ b Z) H) as (t & E & T & _). eauto. }
  destruct K as (t & -> & T). cbn [bind]. exact (IH t F2 T).
Qed.
Lemma zoom_square z l : limited z -> rnd z = z -> Forall no_resize l -> exists s, happens (znew z) l = Ok s /\ z_x s = z_y s.
Proof.
  intros L F N. destruct (happens_even l (znew z) N) as (s & E & (_ & _ & _ & H)); [|eauto].
  unfold even_sided, znew. cbn [z_x z_y z_zoom]. repeat split; auto; try apply L; lra.
Qed.

(** ** Thirds *)
Lemma no_third y : rnd y = inward / 3 -> False.
Proof.
  intros H. assert (G : generic_format radix2 (FIX_exp (-1074)) (rnd y)).
  { apply generic_format_FIX_FLT with 53%Z. apply generic_format_round; [apply FLT_exp_valid; reflexivity|apply valid_rnd_N]. }
  apply FIX_format_generic in G. destruct G as [[m e] H1 H2]. cbn in H2. subst e. rewrite H1 in H. unfold F2R in H. cbn [Fnum Fexp] in H.
  assert (J : IZR (3 * m) = IZR 8106479329266893 * bpow radix2 1021).
  { rewrite mult_IZR. apply Rmult_eq_reg_r with (bpow radix2 (-1074)); [|apply Rgt_not_eq, bpow_gt_0].
    rewrite (Rmult_assoc (IZR 8106479329266893)), <- bpow_plus. rewrite Rmult_assoc, H. change (1021 + -1074)%Z with (-53)%Z.
    change (IZR 8106479329266893 * bpow radix2 (-53)) with inward. field. }
  rewrite <- IZR_Zpower in J by lia. rewrite <- mult_IZR in J. apply eq_IZR in J.
  assert (D : ((3 * m) mod 3 = (8106479329266893 * 2 ^ 1021) mod 3)%Z) by (f_equal; exact J).
  rewrite Z.mul_comm, Z.mod_mul in D by lia. vm_compute in D. discriminate.
Qed.
Lemma zoom_thirds : exists s s', happens (znew 1) [Connected; Resized 3 1] = Ok s /\ z_y s / z_x s = 1 / 3 /\
  happen s (Wheel true Viewport.Up) = Ok s' /\ z_y s' / z_x s' <> 1 / 3.
Proof.
  pose proof limits as K.
  assert (R3 : rnd 3 = 3). { pose proof (dyadic 3 0 ltac:(reflexivity) ltac:(lia)) as H. cbn [bpow] in H. now rewrite Rmult_1_r in H. }
  exists (mkZ 1 1 3 1 true), (mkZ inward inward inward (fmul inward (rnd (1 / 3))) true).
  split.
  { assert (C : happen (znew 1) Connected = Ok (mkZ 1 1 1 1 true)).
    { unfold happen, show, znew, z_y, z_x, z_zoom. rewrite (fdiv_ok 1 1) by lra. cbn [bind]. replace (1 / 1) with 1 by lra. unfold fmul. now rewrite rnd_1, Rmult_1_l, rnd_1. }
    assert (D : happen (mkZ 1 1 1 1 true) (Resized 3 1) = Ok (mkZ 1 1 3 1 true)).
    { unfold happen, z_axes, z_zoom, z_connected. destruct (Rlt_dec 1 3); [|lra].
      unfold fmul. rewrite Rmult_1_l, R3, (fdiv_ok 3 1) by lra. cbn [bind]. replace (3 / 1) with 3 by lra. now rewrite R3. }
    unfold happens. rewrite C. cbn [bind]. rewrite D. reflexivity. }
  split; [reflexivity|]. split.
  { cbn [happen z_connected negb z_zoom fzoomed]. unfold show. cbn [z_y z_x]. rewrite (fdiv_ok 1 3) by lra. cbn [bind].
    assert (Z : fmax (fmul inward 1) least = inward). { unfold fmul. rewrite Rmult_1_r, inward_exact. unfold fmax. destruct Rlt_dec; lra. }
    rewrite Z. reflexivity. }
  cbn [z_x z_y]. intros H. apply (no_third (inward * rnd (1 / 3))). fold (fmul inward (rnd (1 / 3))).
  apply Rmult_eq_reg_r with (/ inward); [|apply Rinv_neq_0_compat; lra]. eapply eq_trans; [exact H|]. field. lra.
Qed.

(** ** How far the axes reach *)
Lemma happens_app l e : forall s s', happens s (l ++ [e]) = Ok s' -> exists t, happens s l = Ok t /\ happen t e = Ok s'.
Proof.
  induction l as [|e0 l IH]; intros s s' H; cbn [app happens] in *.
  - exists s. split; [reflexivity|]. destruct (happen s e); [exact H|discriminate].
  - destruct (happen s e0) as [t|] eqn:E; [|discriminate]. cbn [bind] in *. exact (IH t s' H).
Qed.
Definition attached (s : zooming) : Prop := z_axes s = if z_connected s then z_zoom s else 1.
Lemma happen_reach s e s' : attached s -> happen s e = Ok s' ->
  attached s' /\ z_connected s' = (z_connected s || connects e)%bool /\ reach (z_zoom s') (z_connected s') (z_x s') (z_y s') e.
Proof.
  unfold attached. intros A H. destruct e as [|i b|w h]; cbn [happen connects reach] in *; unfold show in H.
  - destruct (fdiv (z_y s) (z_x s)); [|discriminate]. injection H as <-. cbn. repeat split. now rewrite Bool.orb_true_r.
  - rewrite Bool.orb_false_r. destruct (z_connected s) eqn:C; cbn [negb] in H.
    + destruct i; cbn [negb] in H; [destruct (fdiv (z_y s) (z_x s)); [|discriminate]|]; injection H as <-; cbn; rewrite ?C; repeat split; auto; discriminate.
    + injection H as <-. rewrite C. repeat split; auto; discriminate.
  - rewrite Bool.orb_false_r. destruct (Rlt_dec h w); [destruct (fdiv (fmul (z_axes s) w) h)|destruct (fdiv (fmul (z_axes s) h) w)]; try discriminate; injection H as <-; cbn; repeat split; auto; intros; lra.
Qed.
Lemma happens_attached l : forall s s', attached s -> happens s l = Ok s' -> attached s' /\ z_connected s' = (z_connected s || existsb connects l)%bool.
Proof.
  induction l as [|e l IH]; intros s s' A H; cbn [happens existsb] in *.
  - injection H as <-. now rewrite Bool.orb_false_r.
  - destruct (happen s e) as [t|] eqn:E; [|discriminate]. cbn [bind] in H. destruct (happen_reach s e t A E) as (B & C & _).
    destruct (IH t s' B H) as (D & F). split; [exact D|]. rewrite F, C. now rewrite Bool.orb_assoc.
Qed.
Lemma zoom_reach z l e s : happens (znew z) (l ++ [e]) = Ok s -> reach (z_zoom s) (existsb connects (l ++ [e])) (z_x s) (z_y s) e.
Proof.
  intros H. destruct (happens_app l e _ _ H) as (t & H1 & H2). destruct (happens_attached l (znew z) t eq_refl H1) as (A & C).
  destruct (happen_reach t e s A H2) as (_ & C' & Q). rewrite existsb_app. cbn [existsb]. rewrite Bool.orb_false_r.
  cbn [znew z_connected orb] in C. rewrite <- C, <- C'. exact Q.
Qed.
Lemma zoom_idle z l b s s' : happens (znew z) l = Ok s -> (happen s (Wheel false b) = Ok s' -> s' = s) /\ (existsb connects l = false -> happen s (Wheel true b) = Ok s' -> s' = s).
Proof.
  intros H. destruct (happens_attached l (znew z) s eq_refl H) as (_ & C). cbn [znew z_connected orb] in C. split.
  - cbn [happen]. destruct (z_connected s); cbn [negb]; congruence.
  - intros K. cbn [happen]. rewrite C, K. cbn [negb]. congruence.
Qed.
