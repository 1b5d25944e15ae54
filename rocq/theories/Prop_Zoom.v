(** C128: the zoom in floating point. *)
From Coq Require Import Reals Lra List.
From Verif Require Import Base Glm Drift DriftRound Zoom ZoomSpec ZoomFacts.
From Verif Require Viewport.
Import ListNotations.
Local Open Scope R_scope.

(** Whatever happens, the zoom stays between its limits. *)
Theorem C128_within_limits z l s : limited z -> happens (znew z) l = Ok s -> limited (z_zoom s).
Proof. exact (zoom_limited z l s). Qed.
Print Assumptions C128_within_limits.
(** Up zooms in and down zooms out, by a tenth until the limit; other buttons do nothing. *)
Theorem C128_directions z : limited z ->
  (least < z -> fzoomed z Viewport.Up < z) /\ (z < most -> z < fzoomed z Viewport.Down) /\ fzoomed z Viewport.OtherButton = z /\
  (fzoomed z Viewport.Up = least \/ Rabs (fzoomed z Viewport.Up - 9 / 10 * z) <= / 2 ^ 51 * z) /\
  (fzoomed z Viewport.Down = most \/ Rabs (fzoomed z Viewport.Down - 11 / 10 * z) <= / 2 ^ 51 * z).
Proof. exact (zoom_directions z). Qed.
Print Assumptions C128_directions.
(** Forty turns up or forty-five down reach the limit exactly, in spite of rounding. *)
Theorem C128_reaches_limits s s' : z_connected s = true -> limited (z_zoom s) ->
  (happens s (repeat (Wheel true Viewport.Up) 40) = Ok s' -> z_zoom s' = least) /\
  (happens s (repeat (Wheel true Viewport.Down) 45) = Ok s' -> z_zoom s' = most).
Proof. exact (zoom_reaches s s'). Qed.
Print Assumptions C128_reaches_limits.
(** After up to 2^50 events the zoom is what it is without rounding, but for a relative error of
    2^-52 for each event. *)
Theorem C128_close z l s : limited z -> INR (length l) <= 2 ^ 50 -> happens (znew z) l = Ok s ->
  Rabs (z_zoom s - turns false z l) <= INR (length l) * / 2 ^ 52 * turns false z l.
Proof. exact (zoom_close z l s). Qed.
Print Assumptions C128_close.
(** Nothing fails, and the limits of the axes keep the proportions of the viewport, but for a
    relative error that grows by 2^-51 each time they are set and is forgotten at a resize. *)
Theorem C128_aspect z l : limited z -> INR (length l) <= 2 ^ 50 -> Forall sizes_ok l ->
  exists s, happens (znew z) l = Ok s /\ 0 < z_x s /\ 0 < z_y s /\
    Rabs (z_y s / z_x s - fold_left proportion l 1) <= (2 * INR (fold_left settings l 0%nat) + 2) * / 2 ^ 52 * fold_left proportion l 1.
Proof. exact (zoom_aspect z l). Qed.
Print Assumptions C128_aspect.
(** Without a resize the two limits stay equal, exactly and for ever. *)
Theorem C128_square z l : limited z -> rnd z = z -> Forall no_resize l -> exists s, happens (znew z) l = Ok s /\ z_x s = z_y s.
Proof. exact (zoom_square z l). Qed.
Print Assumptions C128_square.
(** After a resize the axes reach as far as the zoom on the shorter side, after connecting and
    zooming from left to right. *)
Theorem C128_reach z l e s : happens (znew z) (l ++ [e]) = Ok s -> reach (z_zoom s) (existsb connects (l ++ [e])) (z_x s) (z_y s) e.
Proof. exact (zoom_reach z l e s). Qed.
Print Assumptions C128_reach.
(** The wheel outside of the axes, or before the camera is connected, changes nothing. *)
Theorem C128_idle z l b s s' : happens (znew z) l = Ok s ->
  (happen s (Wheel false b) = Ok s' -> s' = s) /\ (existsb connects l = false -> happen s (Wheel true b) = Ok s' -> s' = s).
Proof. exact (zoom_idle z l b s s'). Qed.
Print Assumptions C128_idle.
(** In a viewport three times as wide as it is high one turn of the wheel changes the proportions,
    which were exact. *)
Theorem C128_same_aspect_refuted : exists s s', happens (znew 1) [Connected; Resized 3 1] = Ok s /\ z_y s / z_x s = 1 / 3 /\
  happen s (Wheel true Viewport.Up) = Ok s' /\ z_y s' / z_x s' <> 1 / 3.
Proof. exact zoom_thirds. Qed.
Print Assumptions C128_same_aspect_refuted.

(** A zoom between the limits, and a history with a resize after which the limits are set twice. *)
Example C128_case : limited 1 /\ rnd 1 = 1 /\ ~ limited 10 /\
  let l := [Connected; Wheel true Viewport.Up; Resized 1024 256; Wheel true Viewport.Down; Wheel false Viewport.Up] in
  Forall sizes_ok l /\ INR (length l) <= 2 ^ 50 /\ fold_left proportion l 1 = 1 / 4 /\ fold_left settings l 0%nat = 2%nat /\
  turns false 1 l = outward * inward /\ exists s, happens (znew 1) l = Ok s.
Proof.
  pose proof limits as K. split; [exact one_limited|]. split; [exact rnd_1|]. split; [intros [_ H]; lra|]. cbv zeta.
  assert (A : Forall sizes_ok [Connected; Wheel true Viewport.Up; Resized 1024 256; Wheel true Viewport.Down; Wheel false Viewport.Up]) by (repeat constructor; cbn; lra).
  assert (B : INR (length [Connected; Wheel true Viewport.Up; Resized 1024 256; Wheel true Viewport.Down; Wheel false Viewport.Up]) <= 2 ^ 50) by (cbn [length INR pow]; lra).
  split; [exact A|]. split; [exact B|]. split; [cbn; lra|]. split; [reflexivity|]. split.
  - cbn [turns turn]. rewrite Rmult_1_r. rewrite Rmax_left by lra. apply Rmin_left. nra.
  - destruct (C128_aspect 1 _ one_limited B A) as (s & E & _). eauto.
Qed.
