(** Whole pictures of Segments, Paths, Polygons and Markers in floating point:
    gsp_matplotlib/visual/segments.py:61-86, paths.py:75-144, polygons.py:71-155 and
    markers.py:98-153, with the sums and divisions of Single.v.

    Outline.v is the same code over the real numbers.  Simplifications: as in Rendered.v and
    Outline.v. *)
From Coq Require Import Reals List ZArith.
From Verif Require Import Base Slice Viewport Glm GlmSpec Vec Render Picture Outline Drift Single Rendered.
Import ListNotations.
Local Open Scope R_scope.

(** [-p[...,2].mean()], paths.py:108, polygons.py:104, segments.py:69: numpy adds the depths in an
    order of its own and divides by how many there are; a mean of nothing is not a number. *)
Definition mean_key (g : list vec3) (k : num) : Prop :=
  match g with
  | [] => k = NonFinite
  | _ => exists t m, summed (map (fun q => (z3 q, 1)) g) t /\ result (t / INR (length g)) m /\ k = Num (- m)
  end.
(** The corners of an item, [[...,:2]], segments.py:72, paths.py:113, polygons.py:109. *)
Definition corners_at (v : Viewport.viewport) (g : list vec3) : list (option (R * R)) :=
  map (fun q => on_canvas v (Num (x3 q)) (Num (y3 q))) g.

(** segments.py:61-86. *)
Definition segments_computed (argsort : list num -> list nat) (v : Viewport.viewport) (ps : list vec3) (model view proj : mat)
    (color width : attr) (out : list (list (option (R * R)) * list (option (list Z)))) : Prop :=
  exists T qs hs ks, transform_computed model view proj T /\ Forall2 (vertex_computed T) ps qs /\ pairs qs = Ok hs /\ Forall2 mean_key hs ks /\
    let n := length hs in let idx := argsort ks in
    out = collection (Slice.pick (map (corners_at v) hs) idx) [attach n idx color; attach n idx width].
(** paths.py:75-144 and polygons.py:71-155. *)
Definition outlines_computed (argsort : list num -> list nat) (v : Viewport.viewport) (ps : list vec3) (model view proj : mat)
    (i : indices) (attrs : list attr) (out : list (list (option (R * R)) * list (option (list Z)))) : Prop :=
  exists T qs hs ks bs, transform_computed model view proj T /\ Forall2 (vertex_computed T) ps qs /\ group qs i = Ok hs /\ Forall2 mean_key hs ks /\
    let idx := argsort ks in
    attach_all (length hs) (length qs) idx attrs = Ok bs /\
    out = collection (Slice.pick (map (corners_at v) hs) idx) bs.
(** markers.py:98-153. *)
Definition markers_computed {S} (argsort : list num -> list nat) (v : Viewport.viewport) (ps : list vec3) (model view proj : mat)
    (shapes : list S) (face edge width size : attr) (out : list ((S * option (R * R)) * list (option (list Z)))) : Prop :=
  exists T qs ks sz, transform_computed model view proj T /\ Forall2 (vertex_computed T) ps qs /\ Forall2 sort_key qs ks /\
    let n := length qs in let idx := argsort (map Num ks) in
    attach_size n idx size = Ok sz /\
    out = collection (combine (Slice.pick shapes idx) (Slice.pick (map (fun q => on_canvas v (Num (x3 q)) (Num (y3 q))) qs) idx))
                     [attach n idx face; attach n idx edge; attach n idx width; sz].
