(** Measures in double precision.  Models gsp/transform/measure.py like Measure.v,
    with every operation rounded to the nearest 64-bit floating-point number
    (Image.v).

    Simplifications: those of Measure.v except exact arithmetic; values are double
    precision; no overflow and no underflow. *)
From Verif Require Import Base Image Measure.
Local Open Scope Qc_scope.

(** The floating-point number nearest to a number.
    What every operation of gsp/transform/measure.py:65, 89, 96, 153-233 is rounded by. *)
Definition rd (x : Qc) : Qc :=
  match Qnum x with
  | Z0 => 0
  | Zpos p => let '(a, b) := fl (Zpos p) (Zpos (Qden x)) in Q2Qc (a # Z.to_pos b)
  | Zneg p => let '(a, b) := fl (Zpos p) (Zpos (Qden x)) in Q2Qc (- a # Z.to_pos b)
  end.
(** The literals 2.54 and 0.1. gsp/transform/measure.py:185 and 201. *)
Definition lit254 : Qc := rd (q 254 100).
(** gsp/transform/measure.py:201. *)
Definition lit01 : Qc := rd (q 1 10).

(** measure.py:56-75, as [Measure.frame]: limits are subtracted. *)
Definition fframe (v : vars) : res ((Qc * Qc) * (Qc * Qc)) :=
  let* f := match v_dpi v, v_view v, v_canvas v with
            | Some _, _, _ => Ok ((1, 1), (1, 1))
            | None, Some w, _ => Ok (w_size w, (rd (snd (w_xlim w) - fst (w_xlim w)), rd (snd (w_ylim w) - fst (w_ylim w))))
            | None, None, Some c => Ok (c_size c, (1, 1))
            | None, None, None => Err ValueError
            end in
  Ok (match v_size v with Some s => s | None => fst f end, snd f).
(** measure.py:85-96. *)
Fixpoint fmulrow (s r : list Qc) : list Qc :=
  match s, r with a :: s', b :: r' => rd (a * b) :: fmulrow s' r' | _, _ => [] end.
(** [scale * value], gsp/transform/measure.py:85-96. *)
Definition fscaled (sx sy : Qc) (x : mval) : res mval :=
  match x with
  | Num a => Ok (Num (rd (sx * a)))
  | Arr 1 rows => Ok (Arr 1 (map (map (fun a => rd (sx * a))) rows))
  | Arr 2 rows => Ok (Arr 2 (map (fmulrow [sx; sy]) rows))
  | Arr 3 rows => Ok (Arr 3 (map (fmulrow [sx; sy; 0]) rows))
  | Arr _ _ => Err ValueError
  end.
(** Measure.evaluate, measure.py:51-96. *)
Definition fpixels (v : vars) (x : option mval) : res mval :=
  let* f := fframe v in
  let '((width, height), (rx, ry)) := f in
  if Qc_eq_bool width 0 then Err ZeroDivisionError
  else if Qc_eq_bool height 0 then Err ZeroDivisionError
  else fscaled (rd (rx * rd (1 / width))) (rd (ry * rd (1 / height))) (match x with Some y => y | None => Num 1 end).
(** measure.py:132-136, 149-153, 165-169, 181-185, 197-201, 213-217 and 229-233. *)
Definition ffactor (u : unit_of) (d : Qc) : Qc :=
  match u with
  | Pixel => 1
  | Inch => d
  | Point => rd (d / q 72 1)
  | Centimeter => rd (d / lit254)
  | Millimeter => rd (rd (lit01 * d) / lit254)
  | Meter => rd (rd (q 1000 1 * d) / lit254)
  | Kilometer => rd (rd (q 100000 1 * d) / lit254)
  end.
(** evaluate of each class: gsp/transform/measure.py:132-136, 149-153, 165-169, 181-185, 197-201, 213-217, 229-233. *)
Definition fevaluate (u : unit_of) (v : vars) (x : option mval) : res mval :=
  let* m := fpixels v x in
  match u with
  | Pixel => Ok m
  | _ => let* d := dpi v in Ok (mmap (fun y => rd (ffactor u d * y)) m)
  end.
