(** C94: measures in double precision. *)
From Verif Require Import Base Measure Precise PreciseSpec PreciseFacts.
Local Open Scope Qc_scope.

(** Whatever the unit, the context and the value, the computed measure is the exact
    one up to ten times 2^-53 in every component; an error is the same error. *)
Theorem C94_accurate u v x : match evaluate u v x with
  | Ok y => exists z, fevaluate u v x = Ok z /\ near_values 10 z y
  | Err e => fevaluate u v x = Err e
  end.
Proof. exact (accurate u v x). Qed.
Print Assumptions C94_accurate.
Theorem C94_errors u v x e : fevaluate u v x = Err e <-> evaluate u v x = Err e.
Proof. exact (errors u v x e). Qed.
Print Assumptions C94_errors.
Example C94_accurate_case : is_ok (evaluate Millimeter ex_view (Some (Arr 3 [[whole 7; q 1 3; 1]]))) = true /\
  is_ok (fevaluate Millimeter ex_view (Some (Arr 3 [[whole 7; q 1 3; 1]]))) = true /\
  fevaluate Inch (mkVars None None None None) None = Err ValueError.
Proof. split; [vm_compute; reflexivity|]. split; [vm_compute; reflexivity|reflexivity]. Qed.
(** Two ways to write the same length differ by twenty times 2^-53 of it at most. *)
Theorem C94_agree u v x u' v' x' y : evaluate u v x = Ok (Num y) -> evaluate u' v' x' = Ok (Num y) ->
  exists a b, fevaluate u v x = Ok (Num a) /\ fevaluate u' v' x' = Ok (Num b) /\ Qcabs (a - b) <= q 20 (2 ^ 53) * Qcabs y.
Proof. exact (agree u v x u' v' x' y). Qed.
Print Assumptions C94_agree.
Example C94_agree_case : exists y, evaluate Inch (at_dpi (whole 64)) (Some (Num 1)) = Ok (Num y) /\
  exists y', evaluate Centimeter (at_dpi (whole 64)) (Some (Num (q 254 100))) = Ok (Num y') /\ y = y'.
Proof. eexists. split; [reflexivity|]. eexists. split; [reflexivity|]. apply Qc_is_canon. vm_compute. reflexivity. Qed.
(** A larger value never has a smaller measure. *)
Theorem C94_monotone u v x x' y y' : upright v -> below x x' ->
  fevaluate u v (Some x) = Ok y -> fevaluate u v (Some x') = Ok y' -> below y y'.
Proof. exact (monotone u v x x' y y'). Qed.
Print Assumptions C94_monotone.
Example C94_monotone_case : upright ex_view /\ below (Arr 2 [[0; 1]]) (Arr 2 [[1; 1]]).
Proof.
  split.
  - split; [discriminate|]. split; [|split; discriminate]. intros w H. injection H as <-. repeat split; discriminate.
  - split; [reflexivity|]. repeat constructor; discriminate.
Qed.
(** With a resolution given, pixels are what they are, inches are rounded once, and
    exact when the product is a floating-point number. *)
Theorem C94_pixels_exact d x : is_double x -> fevaluate Pixel (at_dpi d) (Some (Num x)) = Ok (Num x).
Proof. exact (pixels_exact d x). Qed.
Print Assumptions C94_pixels_exact.
Theorem C94_inch_nearest d x : is_double x ->
  exists y, fevaluate Inch (at_dpi d) (Some (Num x)) = Ok (Num y) /\ nearest y (d * x).
Proof. exact (inch_nearest d x). Qed.
Print Assumptions C94_inch_nearest.
Theorem C94_inch_exact d x : is_double x -> is_double (d * x) -> fevaluate Inch (at_dpi d) (Some (Num x)) = Ok (Num (d * x)).
Proof. exact (inch_exact d x). Qed.
Print Assumptions C94_inch_exact.
Example C94_exact_case : is_double (q 3 2) /\ is_double (whole 100 * q 3 2) /\ ~ is_double (q 1 3).
Proof.
  split; [exists 3%Z, 0%Z, 1%Z; repeat split; cbn; lia|]. split; [exists 150%Z, 0%Z, 0%Z; repeat split; cbn; lia|].
  intros (m & f & g & _ & Hf & Hg & E). cbn [q this Q2Qc Qnum Qden] in E. change (Qred (1 # 3)) with (1 # 3)%Q in E. cbn [Qnum Qden] in E.
  assert (D : (3 | 2 ^ g)%Z) by (exists (m * 2 ^ f)%Z; lia).
  assert (P : forall g, (0 <= g)%Z -> ~ (3 | 2 ^ g)%Z).
  { clear. apply natlike_ind; [intros [k K]; lia|]. intros g Hg IH [k K]. rewrite Z.pow_succ_r in K by assumption. apply IH.
    exists (2 ^ g - k)%Z. lia. }
  now apply (P g).
Qed.
(** Seventy-two points are an inch exactly, at any whole resolution. *)
Theorem C94_points n : (0 < n < 2 ^ 52)%Z ->
  fevaluate Point (at_dpi (whole n)) (Some (Num (whole 72))) = Ok (Num (whole n)).
Proof. exact (points n). Qed.
Print Assumptions C94_points.
(** An inch in centimetres or millimetres is not: at 64 dots per inch, 2.54 cm are
    less than 64 pixels; at 72, 25.4 mm are not 72. *)
Theorem C94_centimetres_refuted : fevaluate Inch (at_dpi (whole 64)) (Some (Num 1)) = Ok (Num (whole 64)) /\
  exists x, fevaluate Centimeter (at_dpi (whole 64)) (Some (Num (rd (q 254 100)))) = Ok (Num x) /\ x < whole 64.
Proof. exact centimetres. Qed.
Print Assumptions C94_centimetres_refuted.
Theorem C94_millimetres_refuted : exists x,
  fevaluate Millimeter (at_dpi (whole 72)) (Some (Num (rd (q 254 10)))) = Ok (Num x) /\ x <> whole 72.
Proof. exact millimetres. Qed.
Print Assumptions C94_millimetres_refuted.
