(** Whole pictures of Points and Pixels in floating point: gsp_matplotlib/visual/points.py:62-97
    and pixels.py:68-82, with the sums and divisions of Single.v.

    Picture.v is the same code over the real numbers.  The transform is computed once and used
    for all vertices; how numpy adds may differ from one vertex to the next. *)
From Coq Require Import Reals List ZArith.
From Verif Require Import Base Slice Viewport Glm GlmSpec Vec Render Picture Drift Single.
Import ListNotations.
Local Open Scope R_scope.

(** A row of points.py:65 with the transform computed before. *)
Definition vertex_computed (T : mat) (p q : vec3) : Prop := exists c, moved T p c /\ divided c q.
(** points.py:62-97: the items drawn, in order, with their attributes. *)
Definition points_computed (argsort : list num -> list nat) (v : Viewport.viewport) (ps : list vec3) (model view proj : mat)
    (face edge width size : attr) (out : list (option (R * R) * list (option (list Z)))) : Prop :=
  exists T qs ks sz, transform_computed model view proj T /\ Forall2 (vertex_computed T) ps qs /\ Forall2 sort_key qs ks /\
    let n := length qs in let idx := argsort (map Num ks) in
    attach_size n idx size = Ok sz /\
    out = collection (Slice.pick (map (fun q => on_canvas v (Num (x3 q)) (Num (y3 q))) qs) idx)
                     [attach n idx face; attach n idx edge; attach n idx width; sz].
(** pixels.py:68-82. *)
Definition pixels_computed (argsort : list num -> list nat) (v : Viewport.viewport) (ps : list vec3) (model view proj : mat)
    (color : attr) (out : list (option (R * R) * list (option (list Z)))) : Prop :=
  exists T qs, transform_computed model view proj T /\ Forall2 (vertex_computed T) ps qs /\
    let n := length qs in let idx := argsort (map (fun q => Num (z3 q)) qs) in
    out = collection (Slice.pick (map (fun q => on_canvas v (Num (x3 q)) (Num (y3 q))) qs) idx) [attach n idx color].
