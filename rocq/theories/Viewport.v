(** Canvases, viewports and the zoom of the camera.  Models
    gsp_matplotlib/core/canvas.py:16-45, gsp_matplotlib/core/viewport.py and the
    zooming part of examples/common/camera.py.

    Simplifications: exact rationals instead of floating point (the decimal
    constants are the binary64 numbers Python reads them as); of the matplotlib
    objects only what is read back is kept, namely the size of the figure, the
    position of the axes and their limits. *)
From Verif Require Import Base Measure.
Local Open Scope Qc_scope.

(** What a coordinate may be: viewport.py:16-19.  An evaluated transform is a
    function of the variables it is given.  A bool is an int. *)
Inductive coord := CInt (n : Z) | CFloat (x : Qc) | CTrans (f : vars -> res Qc).

(** Comparing numbers, viewport.py:121-128. *)
Definition qle (a b : Qc) : bool := Qle_bool (this a) (this b).
(** The strict comparison, viewport.py:121-128. *)
Definition qlt (a b : Qc) : bool := negb (qle b a).
(** An int taking part in a division, viewport.py:78. *)
Definition zq (n : Z) : Qc := q n 1.

(** A canvas: _width, _height (once evaluated), _dpi, and the size of its figure
    in inches.  canvas.py:27-31. *)
Record fig := mkFig { f_width : coord; f_height : coord; f_dpi : Qc; f_inches : Qc * Qc }.
(** canvas.py:22-25. *)
Definition measured (dpi : Qc) (c : coord) : res coord :=
  match c with
  | CTrans f => let* x := f (mkVars (Some dpi) None None None) in Ok (CFloat x)
  | _ => Ok c
  end.
(** The number divided by dpi, canvas.py:33-34. *)
Definition number (c : coord) : res Qc :=
  match c with CInt n => Ok (zq n) | CFloat x => Ok x | CTrans _ => Err TypeError end.
(** Canvas.__init__, canvas.py:16-37.  Dividing by a dpi of 0 fails; matplotlib's
    set_size_inches rejects negative sizes with a ValueError. *)
Definition new_canvas (width height : coord) (dpi : Qc) : res fig :=
  let* width := measured dpi width in
  let* height := measured dpi height in
  let* w := number width in
  let* h := number height in
  if Qc_eq_bool dpi 0 then Err ZeroDivisionError
  else if qlt (w / dpi) 0 then Err ValueError
  else if qlt (h / dpi) 0 then Err ValueError
  else Ok (mkFig width height dpi (w / dpi, h / dpi)).
(** Canvas.size, canvas.py:40-45. *)
Definition size (f : fig) : Qc * Qc := (fst (f_inches f) * f_dpi f, snd (f_inches f) * f_dpi f).

(** A viewport: _canvas, _extent, and the position, zoom and limits of _axes. viewport.py:24-31. *)
Record viewport := mkV {
  p_fig : fig;
  p_extent : coord * coord * coord * coord;
  p_pos : Qc * Qc * Qc * Qc;
  p_zoom : Qc;
  p_xlim : Qc * Qc;
  p_ylim : Qc * Qc }.

(** matplotlib's set_xlim(-a, a) and set_ylim(-a, a): equal limits are set apart
    by 0.05 on each side. viewport.py:36-37 and 127-128. *)
Definition lim (a : Qc) : Qc * Qc := if Qc_eq_bool a 0 then (- q 1 20, q 1 20) else (- a, a).

(** viewport.py:25-26: [c or canvas._width]. *)
Definition either (c d : coord) : coord :=
  match c with
  | CInt 0 => d
  | CFloat x => if Qc_eq_bool x 0 then d else c
  | _ => c
  end.
(** viewport.py:72-80 with the width of the canvas, and likewise 82-90, 92-100,
    102-110.  On a canvas of size 0 numpy divides to an infinite position, which
    set_xlim rejects at 127-128 with a ValueError. *)
Definition place (f : fig) (s : Qc) (c : coord) : res Qc :=
  match c with
  | CTrans g => g (mkVars None None (Some (mkCanvas (f_dpi f) (size f))) (Some (s, s)))
  | CFloat x => Ok x
  | CInt n => if Qc_eq_bool s 0 then Err ValueError else Ok (zq n / s)
  end.
(** Viewport.size, viewport.py:141-152: the position in the figure, in inches,
    times the resolution. *)
Definition pixels_of (f : fig) (pos : Qc * Qc * Qc * Qc) : Qc * Qc :=
  let '(_, _, w, h) := pos in
  (w * fst (f_inches f) * f_dpi f, h * snd (f_inches f) * f_dpi f).
(** Viewport._update, viewport.py:53-131.  numpy divides by 0 to an infinite or
    undefined number, which set_xlim and set_ylim reject with a ValueError. *)
Definition update (v : viewport) : res viewport :=
  let '(x, y, width, height) := p_extent v in
  let f := p_fig v in
  let* x := place f (fst (size f)) x in
  let* y := place f (snd (size f)) y in
  let* width := place f (fst (size f)) width in
  let* height := place f (snd (size f)) height in
  let pos := (x, y, width, height) in
  let '(width, height) := pixels_of f pos in
  let zoom := p_zoom v in
  let* xy := (if qlt height width
              then if Qc_eq_bool height 0 then Err ValueError else Ok (zoom * width / height, zoom)
              else if Qc_eq_bool width 0 then Err ValueError else Ok (zoom, zoom * height / width)) in
  Ok (mkV f (p_extent v) pos zoom (lim (fst xy)) (lim (snd xy))).
(** Viewport.__init__, viewport.py:15-46: the limits are set to -1, 1 after the
    update. *)
Definition new_viewport (f : fig) (x y width height : coord) : res viewport :=
  let width := either width (f_width f) in
  let height := either height (f_height f) in
  let* v := update (mkV f (x, y, width, height) (0, 0, 1, 1) 1 (0, 1) (0, 1)) in
  Ok (mkV f (p_extent v) (p_pos v) (p_zoom v) (lim 1) (lim 1)).

(** matplotlib resizes the figure, then calls _update: viewport.py:46. *)
Definition resize (v : viewport) (inches : Qc * Qc) : res viewport :=
  let f := p_fig v in
  update (mkV (mkFig (f_width f) (f_height f) (f_dpi f) inches) (p_extent v) (p_pos v) (p_zoom v) (p_xlim v) (p_ylim v)).

(** camera.py:55-57 and 171-173: [0.9], [1.1], [0.1] and [5.0]. *)
Definition c_in : Qc := q 8106479329266893 9007199254740992.
(** examples/common/camera.py:173. *)
Definition c_out : Qc := q 4953959590107546 4503599627370496.
(** examples/common/camera.py:57. *)
Definition zoom_min : Qc := q 3602879701896397 36028797018963968.
(** examples/common/camera.py:56. *)
Definition zoom_max : Qc := zq 5.
(** Python's [max(a, b)] and [min(a, b)]. examples/common/camera.py:171. *)
Definition pymax (a b : Qc) : Qc := if qlt a b then b else a.
(** examples/common/camera.py:173. *)
Definition pymin (a b : Qc) : Qc := if qlt b a then b else a.
(** event.button, examples/common/camera.py:170-173. *)
Inductive button := Up | Down | OtherButton.
(** camera.py:170-173. *)
Definition zoomed (z : Qc) (b : button) : Qc :=
  match b with
  | Up => pymax (c_in * z) zoom_min
  | Down => pymin (c_out * z) zoom_max
  | OtherButton => z
  end.
(** camera.py:154-159 and 175-180.  An undefined aspect is rejected by set_ylim. *)
Definition show_zoom (v : viewport) (z : Qc) : res viewport :=
  let xlim := snd (p_xlim v) in
  let ylim := snd (p_ylim v) in
  if Qc_eq_bool xlim 0 then Err ValueError else
  let aspect := ylim / xlim in
  Ok (mkV (p_fig v) (p_extent v) (p_pos v) z (lim z) (lim (z * aspect))).

(** A camera and the viewport it is meant for. examples/common/camera.py:25-57. *)
Record scene := mkScene { s_view : viewport; s_zoom : Qc; s_connected : bool }.
(** What may happen: matplotlib resizes the figure, the program calls connect, or
    the wheel is turned over these axes ([inside]) or elsewhere.
    viewport.py:46, examples/common/camera.py:116 and 163. *)
Inductive event := Resize (inches : Qc * Qc) | Connect | Scroll (inside : bool) (b : button).
(** camera.py:116-160 and 163-182. *)
Definition step (s : scene) (e : event) : res scene :=
  match e with
  | Resize i => let* v := resize (s_view s) i in Ok (mkScene v (s_zoom s) (s_connected s))
  | Connect => let* v := show_zoom (s_view s) (s_zoom s) in Ok (mkScene v (s_zoom s) true)
  | Scroll inside b =>
      if negb (s_connected s) then Ok s
      else if negb inside then Ok s
      else let z := zoomed (s_zoom s) b in
           let* v := show_zoom (s_view s) z in Ok (mkScene v z true)
  end.
(** Several of them, in order: viewport.py:46, examples/common/camera.py:116 and 163. *)
Fixpoint run (s : scene) (l : list event) : res scene :=
  match l with [] => Ok s | e :: l' => let* s' := step s e in run s' l' end.
(** Camera(zoom=zoom), camera.py:25, 55. *)
Definition new_scene (v : viewport) (zoom : Qc) : scene := mkScene v zoom false.
