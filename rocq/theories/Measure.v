(** Measures.  Models gsp/transform/measure.py.

    Simplifications: exact rationals instead of floating point; a value is one
    number, or an array given by its last dimension [w] and its rows (all other
    dimensions flattened); a viewport or canvas is what measures read of it. *)
From Verif Require Import Base.
From Coq Require Export QArith Qcanon.
Local Open Scope Qc_scope.

(** A rational literal, as in gsp/transform/measure.py:169-233. *)
Definition q (n : Z) (d : positive) : Qc := Q2Qc (n # d).

(** The resolution and the size of a canvas, gsp/transform/measure.py:68-69. *)
Record canvas := mkCanvas { c_dpi : Qc; c_size : Qc * Qc }.
(** size, xlim and ylim: gsp/core/viewport.py, gsp_matplotlib/core/viewport.py:142-152. *)
Record view := mkView { w_canvas : canvas; w_size : Qc * Qc; w_xlim : Qc * Qc; w_ylim : Qc * Qc }.
(** The variables a measure reads. gsp/transform/measure.py:56-75 and 111-118. *)
Record vars := mkVars { v_dpi : option Qc; v_view : option view; v_canvas : option canvas; v_size : option (Qc * Qc) }.

(** A value after np.asanyarray, gsp/transform/measure.py:85. *)
Inductive mval := Num (x : Qc) | Arr (w : nat) (rows : list (list Qc)).

(** measure.py:56-75: resolution, size and scale of the device coordinates. *)
Definition frame (v : vars) : res ((Qc * Qc) * (Qc * Qc)) :=
  let* f := match v_dpi v, v_view v, v_canvas v with
            | Some _, _, _ => Ok ((1, 1), (1, 1))
            | None, Some w, _ => Ok (w_size w, (snd (w_xlim w) - fst (w_xlim w), snd (w_ylim w) - fst (w_ylim w)))
            | None, None, Some c => Ok (c_size c, (1, 1))
            | None, None, None => Err ValueError
            end in
  Ok (match v_size v with Some s => s | None => fst f end, snd f).

(** [scale * value] for one row, gsp/transform/measure.py:96. *)
Fixpoint mulrow (s r : list Qc) : list Qc :=
  match s, r with a :: s', b :: r' => a * b :: mulrow s' r' | _, _ => [] end.
(** measure.py:85-96: [scale * value] with broadcasting. *)
Definition scaled (sx sy : Qc) (x : mval) : res mval :=
  match x with
  | Num a => Ok (Num (sx * a))
  | Arr 1 rows => Ok (Arr 1 (map (map (Qcmult sx)) rows))
  | Arr 2 rows => Ok (Arr 2 (map (mulrow [sx; sy]) rows))
  | Arr 3 rows => Ok (Arr 3 (map (mulrow [sx; sy; 0]) rows))
  | Arr _ _ => Err ValueError
  end.
(** Measure.evaluate, measure.py:51-96, given the value of the next transform or
    buffer ([None] when unbound, 82). *)
Definition pixels (v : vars) (x : option mval) : res mval :=
  let* f := frame v in
  let '((width, height), (rx, ry)) := f in
  if Qc_eq_bool width 0 then Err ZeroDivisionError
  else if Qc_eq_bool height 0 then Err ZeroDivisionError
  else scaled (rx * (1 / width)) (ry * (1 / height)) (match x with Some y => y | None => Num 1 end).

(** Measure.dpi, measure.py:106-119. *)
Definition dpi (v : vars) : res Qc :=
  match v_dpi v, v_canvas v, v_view v with
  | Some d, _, _ => Ok d
  | None, Some c, _ => Ok (c_dpi c)
  | None, None, Some w => Ok (c_dpi (w_canvas w))
  | None, None, None => Err ValueError
  end.

(** A number times an array, gsp/transform/measure.py:153. *)
Definition mmap (f : Qc -> Qc) (x : mval) : mval :=
  match x with Num a => Num (f a) | Arr w rows => Arr w (map (map f) rows) end.

(** The classes of gsp/transform/measure.py:121-233. *)
Inductive unit_of := Pixel | Inch | Point | Centimeter | Millimeter | Meter | Kilometer.
(** The factors of measure.py:132-136, 149-153, 165-169, 181-185, 197-201,
    213-217 and 229-233. *)
Definition factor (u : unit_of) (d : Qc) : Qc :=
  match u with
  | Pixel => 1
  | Inch => d
  | Point => d / q 72 1
  | Centimeter => d / q 254 100
  | Millimeter => q 1 10 * d / q 254 100
  | Meter => q 1000 1 * d / q 254 100
  | Kilometer => q 100000 1 * d / q 254 100
  end.
(** evaluate of each class: gsp/transform/measure.py:132-136, 149-153, 165-169, 181-185, 197-201, 213-217, 229-233. *)
Definition evaluate (u : unit_of) (v : vars) (x : option mval) : res mval :=
  let* m := pixels v x in
  match u with
  | Pixel => Ok m
  | _ => let* d := dpi v in Ok (mmap (Qcmult (factor u d)) m)
  end.
