(** Caps, joins and styles of lines.  Models what gsp_matplotlib/visual/segments.py:42-45,
    paths.py:52-59 and polygons.py:52-55 do with line_caps, line_joins and line_styles
    (gsp/core/types.py:211-238), over histories of changing them and rendering.

    Simplifications: a value is a number (the enumerations are integers) or an array (a
    buffer or a transform given for many items); positions, colours and widths are in
    Render.v; viewports are numbers. *)
From Verif Require Import Base.

(** What eval_variable gives for a cap, a join or a style, gsp/core/types.py:211-238. *)
Inductive attr := Number (z : Z) | Many.
(** The capstyle of a LineCollection, gsp_matplotlib/visual/paths.py:54-56. *)
Inductive cap := Butt | Round | Projecting.
(** [{LineCap.butt: "butt", LineCap.round: "round", LineCap.cap: "projecting"}[line_caps]],
    paths.py:53-56: an array is not hashable. *)
Definition cap_of (a : attr) : res cap :=
  match a with
  | Number 1 => Ok Butt
  | Number 2 => Ok Round
  | Number 3 => Ok Projecting
  | Number _ => Err KeyError
  | Many => Err TypeError
  end.
(** The three classes: gsp_matplotlib/visual/segments.py:15-17, paths.py:14-16, polygons.py:14-16. *)
Inductive kind := Segments | Paths | Polygons.
(** What a collection draws lines with; [None]: the library's default.
    gsp_matplotlib/visual/paths.py:57. *)
Record look := mkLook { l_cap : option cap; l_join : option Z; l_style : option Z }.
(** A visual: its variables and _viewports (gsp_matplotlib/visual/paths.py:52-59). *)
Record lines := mkLines { g_caps : attr; g_joins : attr; g_styles : attr; shown : dict nat look }.
(** The collection made on the first rendering in a viewport: gsp_matplotlib/visual/segments.py:43,
    paths.py:53-57, polygons.py:53.  Polygons have no caps. *)
Definition new_look (k : kind) (s : lines) : res look :=
  match k with
  | Segments => Ok (mkLook (Some Round) None None)
  | Paths => let* c := cap_of (g_caps s) in Ok (mkLook (Some c) None None)
  | Polygons => Ok (mkLook None None None)
  end.
(** Changing an attribute, rendering in a viewport: nothing later in render touches
    caps, joins or styles (segments.py:61-86, paths.py:76-144, polygons.py:72-155). *)
Inductive event := Caps (a : attr) | Joins (a : attr) | Styles (a : attr) | Render (v : nat).
(** gsp/visual/visual.py:30-47, gsp_matplotlib/visual/paths.py:51-59. *)
Definition step (k : kind) (s : lines) (e : event) : lines * res unit :=
  match e with
  | Caps a => (mkLines a (g_joins s) (g_styles s) (shown s), Ok tt)
  | Joins a => (mkLines (g_caps s) a (g_styles s) (shown s), Ok tt)
  | Styles a => (mkLines (g_caps s) (g_joins s) a (shown s), Ok tt)
  | Render v =>
      match dget (shown s) v with
      | Some _ => (s, Ok tt)
      | None => match new_look k s with
                | Ok l => (mkLines (g_caps s) (g_joins s) (g_styles s) (dset (shown s) v l), Ok tt)
                | Err e => (s, Err e)
                end
      end
  end.
(** A program that goes on after errors. Calls of render, gsp_matplotlib/visual/paths.py:31-147. *)
Definition run (k : kind) (s : lines) (h : list event) : lines := fold_left (fun s e => fst (step k s e)) h s.
(** After the constructor, gsp_matplotlib/visual/paths.py:18-28. *)
Definition start (c j t : attr) : lines := mkLines c j t [].
