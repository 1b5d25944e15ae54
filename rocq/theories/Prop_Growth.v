(** C129: sizes that follow the zoom, in floating point. *)
From Coq Require Import Reals Lra List.
From Verif Require Import Base Glm Drift Zoom ZoomSpec ZoomFacts Growth GrowthSpec GrowthFacts.
From Verif Require Viewport.
Import ListNotations.
Local Open Scope R_scope.

(** After up to a million events every point has its own base size over the square of the exact
    zoom, and the base width over the exact zoom, as near as single precision allows but for a
    factor of two. *)
Theorem C129_sizes square z l s base line : good_square square -> limited z -> INR (length l) <= 1000000 -> happens (znew z) l = Ok s -> Forall sensible base -> sensible line ->
  exists sizes widths, ftables square (z_zoom s) base line = Ok (sizes, widths) /\ let Z := turns false z l in
    Forall2 (fun b x => beside (b / (Z * Z)) x) base sizes /\ length widths = length base /\ Forall (beside (line / Z)) widths.
Proof. exact (grown square z l s base line). Qed.
Print Assumptions C129_sizes.
(** A point that was made larger than another is never drawn smaller. *)
Theorem C129_order square zoom base line sizes widths : 0 < zoom -> 0 < square zoom -> ftables square zoom base line = Ok (sizes, widths) ->
  forall i j a b x y, nth_error base i = Some a -> nth_error base j = Some b -> nth_error sizes i = Some x -> nth_error sizes j = Some y -> a <= b -> x <= y.
Proof. exact (grown_order square zoom base line sizes widths). Qed.
Print Assumptions C129_order.
(** Zooming in makes no point and no line smaller, as long as the square of the C library rises. *)
Theorem C129_zooming_in square z z' base line sizes widths sizes' widths' : good_square square -> rising square -> / 100 <= z' -> z' <= z -> z <= 10 -> Forall sensible base -> sensible line ->
  ftables square z base line = Ok (sizes, widths) -> ftables square z' base line = Ok (sizes', widths') -> Forall2 Rle sizes sizes' /\ Forall2 Rle widths widths'.
Proof. exact (grown_zoom square z z' base line sizes widths sizes' widths'). Qed.
Print Assumptions C129_zooming_in.

(** A correctly rounded square is such a square; the sizes of the example are sensible. *)
Example C129_case : good_square (fun z => rnd (z * z)) /\ rising (fun z => rnd (z * z)) /\ Forall sensible [25; 40] /\ sensible (1 / 4) /\ limited 1 /\
  (exists s, happens (znew 1) [Connected; Wheel true Viewport.Up] = Ok s) /\ turns false 1 [Connected; Wheel true Viewport.Up] = inward /\
  ~ beside 25 (25 + / 1000) /\ ~ good_square (fun z => z).
Proof.
  pose proof limits as K. split; [exact (proj1 rounded_square)|]. split; [exact (proj2 rounded_square)|].
  split; [repeat constructor; lra|]. split; [split; lra|]. split; [exact one_limited|]. split.
  { destruct (zoom_aspect 1 [Connected; Wheel true Viewport.Up] one_limited) as (s & E & _); [cbn; lra|repeat constructor|eauto]. }
  split; [cbn [turns turn]; rewrite Rmult_1_r; apply Rmax_left; lra|]. split.
  - unfold beside. rewrite Rabs_pos_eq by lra. cbn [pow]. lra.
  - intros H. specialize (H 2 ltac:(lra)). rewrite Rabs_left in H by lra. cbn [pow] in H. lra.
Qed.
