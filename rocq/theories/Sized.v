(** Points whose sizes and line widths follow the zoom: examples/points-3d.py, as an example of
    Live.v with its own onRender.

    Simplifications: sizes and widths are real numbers, and matplotlib gets what [code] makes of
    them; both arrays have as many entries as there are base sizes, as the example makes them. *)
From Coq Require Import Reals.
From Verif Require Import Base Slice Measure Viewport Camera Glm Vec Render Trackball Picture Outline Drag Live.
Local Open Scope R_scope.

(** The arrays [sizes] and [linewidths], examples/points-3d.py:29-35. *)
Record tables := mkTables { t_sizes : list R; t_widths : list R }.
(** As they are made, examples/points-3d.py:29-35. *)
Definition start_tables (base : list R) (line : R) : tables := mkTables base (repeat line (length base)).
(** [update], examples/points-3d.py:40-42.  Dividing by a zoom of 0 raises. *)
Definition refill (base : list R) (line : R) : Qc -> mat -> mat -> mat -> tables -> res tables :=
  fun zoom _ _ _ _ =>
  if Qc_eq_bool zoom 0%Qc then Err ZeroDivisionError else
  let z := inR zoom in
  Ok (mkTables (map (fun b => 1 / (z * z) * b) base) (repeat (1 / z * line) (length base))).
(** An array as the attribute of a collection, gsp_matplotlib/visual/points.py:87-97. *)
Definition rows_of_table (code : R -> Z) (l : list R) : attr := Render.Rows (map (fun x => [code x]) l).
(** visual.Points(positions, sizes, gsp.grey, gsp.white, linewidths), examples/points-3d.py:37. *)
Definition sized_vis (argsort : list num -> list nat) (V : arr) (code : R -> Z) (face edge : attr) (d : tables) : vis :=
  points_vis argsort V face edge (rows_of_table code (t_widths d)) (rows_of_table code (t_sizes d)).
