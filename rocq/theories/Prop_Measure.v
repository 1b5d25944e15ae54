(** C35, C55: units of measure. *)
From Verif Require Import Base Measure MeasureSpec MeasureFacts.
Local Open Scope Qc_scope.

(** C35: x units are as many centimetres as the units say, in any context, for
    numbers and arrays.  Missing: Meter (refuted below). *)
Theorem C35_conversion_partial u1 u2 c1 c2 v x : u1 <> Meter -> u2 <> Meter ->
  centimetres u1 = Some c1 -> centimetres u2 = Some c2 ->
  evaluate u1 v (Some x) = evaluate u2 v (Some (times (c1 / c2) x)).
Proof. exact (conversion u1 u2 c1 c2 v x). Qed.
Print Assumptions C35_conversion_partial.
Example C35_conversion_case : centimetres Inch = Some (q 254 100) /\ centimetres Millimeter = Some (q 1 10) /\
  is_ok (evaluate Inch ex_vars (Some (Arr 2 [[1; 1]]))) = true.
Proof. repeat split. Qed.
(** With a resolution given, an inch is that many pixels. *)
Theorem C35_inch_is_dpi_pixels v d x : v_dpi v = Some d -> evaluate Inch v (Some x) = evaluate Pixel v (Some (times d x)).
Proof. exact (inch_dpi v d x). Qed.
Print Assumptions C35_inch_is_dpi_pixels.
(** Measures are linear. *)
(** The resolution is the one given; else that of the canvas; else that of the canvas
    of the viewport. *)
Theorem C35_resolution v x : evaluate Inch v (Some x) =
  let* m := evaluate Pixel v (Some x) in
  match v_dpi v, v_canvas v, v_view v with
  | Some d, _, _ => Ok (times d m)
  | None, Some c, _ => Ok (times (c_dpi c) m)
  | None, None, Some w => Ok (times (c_dpi (w_canvas w)) m)
  | None, None, None => Err ValueError
  end.
Proof. exact (inch_resolution v x). Qed.
Print Assumptions C35_resolution.
Theorem C35_homogeneous u v c x : evaluate u v (Some (times c x)) = let* m := evaluate u v (Some x) in Ok (times c m).
Proof. exact (homogeneous u v c x). Qed.
Print Assumptions C35_homogeneous.
Theorem C35_additive u v x y : same_shape x y ->
  evaluate u v (Some (plus x y)) =
    let* m := evaluate u v (Some x) in let* n := evaluate u v (Some y) in Ok (plus m n).
Proof. exact (additive u v x y). Qed.
Print Assumptions C35_additive.
Example C35_additive_case : same_shape (Arr 2 [[1; 1]; [0; 1]]) (Arr 2 [[0; 0]; [1; 1]]).
Proof. split; [reflexivity|]. repeat constructor. Qed.
(** A metre is 1000 cm, and a kilometre is not 1000 metres. *)
Theorem C35_meter_exact v x : evaluate Meter v (Some x) = evaluate Centimeter v (Some (times (q 1000 1) x)).
Proof. exact (meter_is v x). Qed.
Print Assumptions C35_meter_exact.
Theorem C35_meter_refuted : exists v x, is_ok (evaluate Meter v (Some x)) = true /\
  evaluate Meter v (Some x) <> evaluate Centimeter v (Some (times (q 100 1) x)).
Proof. exact meter_witness. Qed.
Print Assumptions C35_meter_refuted.
Theorem C35_kilometer_refuted : exists v x, is_ok (evaluate Kilometer v (Some x)) = true /\
  evaluate Kilometer v (Some x) <> evaluate Meter v (Some (times (q 1000 1) x)).
Proof. exact kilometer_witness. Qed.
Print Assumptions C35_kilometer_refuted.

(** C55: in a viewport, n pixels along x (y) are n/width (n/height) of the extent
    of the axis. *)
Theorem C55_pixels_in_viewport v w x y : v_dpi v = None -> v_view v = Some w -> v_size v = None ->
  fst (w_size w) <> 0 -> snd (w_size w) <> 0 ->
  evaluate Pixel v (Some (Arr 2 [[x; y]])) =
    Ok (Arr 2 [[x * (snd (w_xlim w) - fst (w_xlim w)) / fst (w_size w);
                y * (snd (w_ylim w) - fst (w_ylim w)) / snd (w_size w)]]).
Proof. exact (pixels_in_view v w x y). Qed.
Print Assumptions C55_pixels_in_viewport.
Example C55_case : v_dpi ex_vars = None /\ v_view ex_vars = Some ex_view /\ v_size ex_vars = None /\
  fst (w_size ex_view) <> 0 /\ snd (w_size ex_view) <> 0.
Proof. repeat (split; [reflexivity|]). split; apply q_nonzero; lia. Qed.
(** One number is scaled by the width only. *)
Theorem C55_number_uses_width v w x : v_dpi v = None -> v_view v = Some w -> v_size v = None ->
  fst (w_size w) <> 0 -> snd (w_size w) <> 0 ->
  evaluate Pixel v (Some (Num x)) = Ok (Num (x * (snd (w_xlim w) - fst (w_xlim w)) / fst (w_size w))).
Proof. exact (number_uses_width v w x). Qed.
Print Assumptions C55_number_uses_width.
Theorem C55_axes_refuted : exists a b c, evaluate Pixel ex_vars (Some (Arr 2 [[q 10 1; q 10 1]])) = Ok (Arr 2 [[a; b]]) /\
  evaluate Pixel ex_vars (Some (Num (q 10 1))) = Ok (Num c) /\ c = a /\ a <> b.
Proof. exact axes_witness. Qed.
Print Assumptions C55_axes_refuted.
(** The third component is always lost. *)
Theorem C55_z_lost u v x y z : match evaluate u v (Some (Arr 3 [[x; y; z]])) with
  | Ok (Arr 3 [[_; _; z']]) => z' = 0 | Ok _ => False | Err _ => True end.
Proof. exact (z_lost u v x y z). Qed.
Print Assumptions C55_z_lost.
Theorem C55_z_refuted : exists x y, evaluate Pixel ex_vars (Some (Arr 3 [[q 10 1; q 10 1; q 3 1]])) = Ok (Arr 3 [[x; y; 0]]) /\ q 3 1 <> 0.
Proof. exact z_witness. Qed.
Print Assumptions C55_z_refuted.
