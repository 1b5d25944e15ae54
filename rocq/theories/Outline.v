(** Where segments, paths, polygons and markers appear on the canvas.  Models what
    gsp_matplotlib/visual/segments.py, paths.py, polygons.py and markers.py hand to
    matplotlib for positions, matrices and attributes.

    Simplifications: as in Picture.v; an item is the list of its corners, which matplotlib
    joins; the shapes of markers are given (Marker.v); the output variables, which cannot
    be stored when there is no path or polygon, are left out (Gallery.v has them). *)
From Coq Require Import Reals.
From Verif Require Import Base Slice Measure Viewport Glm Vec Render Picture.
Local Open Scope R_scope.

(** [-p[...,2].mean()]: a mean of nothing is not a number.
    paths.py:108, polygons.py:104, segments.py:69. *)
Definition minus_mean (l : list num) : num :=
  match l with
  | [] => NonFinite
  | _ => match quot (fold_right plus (Num 0) l) (Num (INR (length l))) with Num r => Num (- r) | NonFinite => NonFinite end
  end.
(** [positions.reshape(-1,2,3)], segments.py:65. *)
Fixpoint pairs {A} (l : list A) : res (list (list A)) :=
  match l with
  | [] => Ok []
  | [_] => Err ValueError
  | a :: b :: r => let* t := pairs r in Ok ([a; b] :: t)
  end.
(** The corners of an item, [[...,:2]], segments.py:72, paths.py:113, polygons.py:109. *)
Definition corners (v : Viewport.viewport) (g : list (list num)) : list (option (R * R)) :=
  map (fun r => on_canvas v (col r 0) (col r 1)) g.

Section Draw.
Variable argsort : list num -> list nat.
(** segments.py:61-86 with visual.py:119. *)
Definition segments (v : Viewport.viewport) (V : arr) (model view proj : mat) (color width : attr) :
    res (list (list (option (R * R)) * list (option (list Z)))) :=
  let* A := placed_points V (transform_of model view proj) in
  let* l := rows_of A in
  let* gs := pairs l in
  let n := length gs in
  let idx := argsort (map (fun g => minus_mean (map (fun r => col r 2) g)) gs) in
  Ok (collection (pick (map (corners v) gs) idx) [attach n idx color; attach n idx width]).
(** paths.py:75-144 (line colours, line widths) and polygons.py:71-155 (fill colours, line
    colours, line widths) with visual.py:119. *)
Definition outlines (v : Viewport.viewport) (V : arr) (model view proj : mat) (i : indices) (attrs : list attr) :
    res (list (list (option (R * R)) * list (option (list Z)))) :=
  let* A := placed_points V (transform_of model view proj) in
  let* l := rows_of A in
  let* gs := group l i in
  let idx := argsort (map (fun g => minus_mean (map (fun r => col r 2) g)) gs) in
  let* bs := attach_all (length gs) (length l) idx attrs in
  Ok (collection (pick (map (corners v) gs) idx) bs).
(** markers.py:98-153 with visual.py:119: the shape and the place of each. *)
Definition markers {S} (v : Viewport.viewport) (V : arr) (model view proj : mat) (shapes : list S) (face edge width size : attr) :
    res (list ((S * option (R * R)) * list (option (list Z)))) :=
  let* A := placed_points V (transform_of model view proj) in
  let* l := rows_of A in
  let n := length l in
  let idx := argsort (map (fun r => flipped (col r 2)) l) in
  let* sz := attach_size n idx size in
  Ok (collection (combine (pick shapes idx) (pick (map (fun r => on_canvas v (col r 0) (col r 1)) l) idx))
                 [attach n idx face; attach n idx edge; attach n idx width; sz]).
End Draw.
