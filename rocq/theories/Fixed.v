(** Visuals whose positions are lengths in units, examples/segments-fixed-size.py:37-53: the
    positions are evaluated whenever the visual is rendered.  Puts Measure.v and Live.v together.

    Simplifications: those of Measure.v and Live.v. *)
From Coq Require Import Reals.
From Verif Require Import Base Slice Measure Viewport Camera Glm Vec Render Trackball Picture Outline Drag Live.

(** What measures read of a viewport: gsp/transform/measure.py:60-65 with
    gsp_matplotlib/core/viewport.py:133-152. *)
Definition frame_of (v : Viewport.viewport) : Measure.view :=
  Measure.mkView (mkCanvas (f_dpi (p_fig v)) (Viewport.size (p_fig v))) (pixels_of (p_fig v) (p_pos v)) (p_xlim v) (p_ylim v).
(** The variables of the visual: the viewport it is rendered in, and none of dpi, canvas and
    size.  gsp/visual/visual.py:123, gsp_matplotlib/visual/segments.py:31. *)
Definition variables_in (v : Viewport.viewport) : vars := mkVars None (Some (frame_of v)) None None.
(** The evaluated positions as an array of numbers, gsp_matplotlib/visual/segments.py:62-63. *)
Definition numbers (rows : list (list Qc)) : arr := mkA KFloat (Vec.Rows 3 (map (map (fun x => Vec.Num (inR x))) rows)).
(** A visual with positions [rows * unit], gsp_matplotlib/visual/segments.py:62 and
    gsp_matplotlib/visual/points.py:63: the rest of rendering gets the evaluated ones. *)
Definition in_units (u : unit_of) (rows : list (list Qc)) (f : arr -> vis) : vis :=
  fun v model view proj =>
  let* m := Measure.evaluate u (variables_in v) (Some (Measure.Arr 3 rows)) in
  match m with Measure.Arr _ l => f (numbers l) v model view proj | Measure.Num _ => Err TypeError end.
