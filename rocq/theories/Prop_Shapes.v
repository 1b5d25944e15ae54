(** C50 and C60: ready-made shapes. *)
From Coq Require Import Reals Lra.
From Verif Require Import Base Glm Shapes ShapesSpec ShapesFacts.
Local Open Scope R_scope.

(** ** C50: spheres of any resolution. *)
Theorem C50_sphere_valid r s t : exists V F, sphere r s t = Ok (V, F) /\
  valid_mesh V F /\ length V = ((s + 1) * (t + 1))%nat /\ length F = (2 * (s * t))%nat.
Proof. exact (ex_intro _ _ (ex_intro _ _ (conj eq_refl (conj (sphere_valid r s t) (conj (sphere_vertex_count r s t) (sphere_face_count s t)))))). Qed.
Print Assumptions C50_sphere_valid.
Theorem C50_sphere_round r s t V F v : sphere r s t = Ok (V, F) -> In v V -> x3 v ^ 2 + y3 v ^ 2 + z3 v ^ 2 = r ^ 2.
Proof. exact (sphere_round_ok r s t V F v). Qed.
Print Assumptions C50_sphere_round.
(** The vertices of the grid: at equal angles. *)
Theorem C50_sphere_places r s t i j : (0 < s)%nat -> (0 < t)%nat -> (i <= t)%nat -> (j <= s)%nat ->
  let a := INR i * (PI / INR t) in
  let b := INR j * (2 * PI / INR s) in
  exists V F, sphere r s t = Ok (V, F) /\
    nth_error V (corner s i j) = Some (V3 (sin a * sin b * r) (sin a * cos b * r) (cos a * r)).
Proof. exact (fun S T I J => ex_intro _ _ (ex_intro _ _ (conj eq_refl (sphere_vertex_nth r s t i j S T I J)))). Qed.
Print Assumptions C50_sphere_places.
(** Every cell of the grid is made of two triangles that share a diagonal. *)
Theorem C50_sphere_cells r s t V F i j : sphere r s t = Ok (V, F) -> (i < t)%nat -> (j < s)%nat ->
  filter (inside_cell s i j) F =
  [[corner s i j; corner s i (j + 1); corner s (i + 1) (j + 1)];
   [corner s (i + 1) (j + 1); corner s (i + 1) j; corner s i j]].
Proof. exact (cell_two_ok r s t V F i j). Qed.
Print Assumptions C50_sphere_cells.
(** No holes: every edge is followed by one triangle only, and is met at the
    same place by an edge in the opposite direction, unless it has no length. *)
Theorem C50_sphere_closed r s t V F : sphere r s t = Ok (V, F) ->
  NoDup (edges F) /\
  forall u v, In (u, v) (edges F) ->
    vertex V u = vertex V v \/
    exists u' v', In (u', v') (edges F) /\ vertex V u' = vertex V v /\ vertex V v' = vertex V u.
Proof. exact (sphere_closed_ok r s t V F). Qed.
Print Assumptions C50_sphere_closed.
Example C50_example_sphere : exists V, sphere 2 3 2 = Ok (V, sphere_faces 3 2) /\ length V = 12%nat /\
  In (0, 1)%nat (edges (sphere_faces 3 2)) /\ In (5, 10)%nat (edges (sphere_faces 3 2)).
Proof. eexists. split; [reflexivity|]. split; [reflexivity|]. cbn. auto 40. Qed.

(** ** Polyhedra. *)
Theorem C50_polyhedra_valid :
  (exists V F, cube = Ok (V, F) /\ valid_mesh V F /\ closed F) /\
  (exists V F, tetrahedron = Ok (V, F) /\ valid_mesh V F /\ closed F) /\
  (exists V F, octahedron = Ok (V, F) /\ valid_mesh V F /\ closed F) /\
  (exists V F, dodecahedron = Ok (V, F) /\ valid_mesh V F /\ closed F).
Proof. exact polyhedra_valid. Qed.
Print Assumptions C50_polyhedra_valid.
Theorem C50_icosahedron_refuted : icosahedron = Err NameError.
Proof. exact eq_refl. Qed.
Print Assumptions C50_icosahedron_refuted.
(** The documented numbers of vertices, faces and edges. *)
Theorem C50_polyhedra_counts :
  (exists V F, cube = Ok (V, F) /\ length V = 8%nat /\ length F = 6%nat /\ edge_count F = 12%nat) /\
  (exists V F, tetrahedron = Ok (V, F) /\ length V = 4%nat /\ length F = 4%nat /\ edge_count F = 6%nat) /\
  (exists V F, octahedron = Ok (V, F) /\ length V = 6%nat /\ length F = 8%nat /\ edge_count F = 12%nat).
Proof. exact polyhedra_counts. Qed.
Print Assumptions C50_polyhedra_counts.
(** The dodecahedron is regular: its triangles cut up twelve flat pentagons with
    equal sides and equal diagonals, and its vertices are at distance 1/2. *)
Theorem C50_dodecahedron_regular :
  exists V F pent s t, dodecahedron = Ok (V, F) /\
    (length pent = 12)%nat /\ F = flat_map fan pent /\ oriented pent /\ edge_count pent = 30%nat /\ length V = 20%nat /\
    0 < s < t /\ Forall (regular_pentagon V s t) pent /\
    Forall (fun v => x3 v ^ 2 + y3 v ^ 2 + z3 v ^ 2 = (1 / 2) ^ 2) V.
Proof. exact dodecahedron_regular. Qed.
Print Assumptions C50_dodecahedron_regular.
Theorem C50_octahedron_regular :
  exists V F, octahedron = Ok (V, F) /\
    Forall (fun e => dist2 (vertex V (fst e)) (vertex V (snd e)) = 1 / 2) (edges F) /\
    Forall (fun v => x3 v ^ 2 + y3 v ^ 2 + z3 v ^ 2 = (1 / 2) ^ 2) V.
Proof. exact (ex_intro _ _ (ex_intro _ _ (conj eq_refl (conj octa_edges octa_norms)))). Qed.
Print Assumptions C50_octahedron_regular.
Theorem C50_cube_edges :
  exists V F, cube = Ok (V, F) /\ Forall (fun e => dist2 (vertex V (fst e)) (vertex V (snd e)) = 1 / 2) (edges F).
Proof. exact (ex_intro _ _ (ex_intro _ _ (conj eq_refl cube_edges))). Qed.
Print Assumptions C50_cube_edges.
(** The tetrahedron is not regular: two lengths of edges. *)
Theorem C50_tetrahedron_regular_refuted :
  exists V F, tetrahedron = Ok (V, F) /\ In (0, 1)%nat (edges F) /\ In (1, 2)%nat (edges F) /\
    dist2 (vertex V 0) (vertex V 1) = 13 / 16 /\ dist2 (vertex V 1) (vertex V 2) = 3 / 4.
Proof. exact tetrahedron_irregular. Qed.
Print Assumptions C50_tetrahedron_regular_refuted.

(** ** C60: which way faces go round. *)
Theorem C60_sphere_outward r s t V F f : 0 < r -> (3 <= s)%nat -> (2 <= t)%nat -> sphere r s t = Ok (V, F) -> In f F ->
  anticlockwise V f \/
  exists u v, In u f /\ In v f /\ u <> v /\ vertex V u = vertex V v /\ (vertex V u = V3 0 0 r \/ vertex V u = V3 0 0 (- r)).
Proof. exact (sphere_outward_ok r s t V F f). Qed.
Print Assumptions C60_sphere_outward.
Theorem C60_dodecahedron_outward :
  exists V F, dodecahedron = Ok (V, F) /\ oriented F /\ Forall (anticlockwise V) F.
Proof. exact (ex_intro _ _ (ex_intro _ _ (conj eq_refl (conj dodeca_oriented dodeca_anticlockwise)))). Qed.
Print Assumptions C60_dodecahedron_outward.
(** The octahedron's faces agree with each other but not with the other shapes. *)
Theorem C60_octahedron_refuted :
  exists V F, octahedron = Ok (V, F) /\ oriented F /\ Forall (clockwise V) F.
Proof. exact (ex_intro _ _ (ex_intro _ _ (conj eq_refl (conj octa_oriented octa_clockwise)))). Qed.
Print Assumptions C60_octahedron_refuted.
(** Faces of the cube and of the tetrahedron do not agree with each other. *)
Theorem C60_cube_refuted :
  exists V F f g, cube = Ok (V, F) /\ ~ oriented F /\ In f F /\ anticlockwise V f /\ In g F /\ clockwise V g.
Proof. exact cube_windings_ok. Qed.
Print Assumptions C60_cube_refuted.
Theorem C60_tetrahedron_refuted :
  exists V F f g, tetrahedron = Ok (V, F) /\ ~ oriented F /\ In f F /\ anticlockwise V f /\ In g F /\ clockwise V g.
Proof. exact tetra_windings_ok. Qed.
Print Assumptions C60_tetrahedron_refuted.
