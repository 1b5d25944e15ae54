(** Ready-made shapes.  Models gsp_matplotlib/glm/shapes.py.
    Simplification: coordinates are exact real numbers. *)
From Coq Require Import Reals.
From Verif Require Import Base Glm.
Local Open Scope R_scope.

(** np.linspace(a, b, n, endpoint=True). shapes.py:22-23. *)
Definition linspace (a b : R) (n : nat) : list R :=
  match n with
  | 0%nat => []
  | 1%nat => [a]
  | S m => map (fun i => a + INR i * ((b - a) / INR m)) (seq 0 n)
  end.
(** np.repeat(l, n) and np.tile(l, n). shapes.py:22-23. *)
Definition repeat_each (l : list R) (n : nat) : list R := flat_map (fun x => repeat x n) l.
(** np.tile, shapes.py:23. *)
Definition tile (l : list R) (n : nat) : list R := concat (repeat l n).

(** sphere, lines 18-27: vertices. *)
Definition sphere_vertices (radius : R) (slices stacks : nat) : list vec3 :=
  let slices := (slices + 1)%nat in
  let stacks := (stacks + 1)%nat in
  let theta1 := repeat_each (linspace 0 PI stacks) slices in
  let theta2 := tile (linspace 0 (2 * PI) slices) stacks in
  map (fun t => V3 (sin (fst t) * sin (snd t) * radius)
                   (sin (fst t) * cos (snd t) * radius)
                   (cos (fst t) * radius)) (combine theta1 theta2).

(** sphere, lines 29-38: the list of indices. *)
Definition sphere_indices (slices stacks : nat) : list nat :=
  let slices := (slices + 1)%nat in
  let stacks := (stacks + 1)%nat in
  (flat_map (fun i => flat_map (fun j =>
     [ i * slices + j; i * slices + j + 1; i * slices + j + slices + 1;
       i * slices + j + slices + 1; i * slices + j + slices; i * slices + j ])
     (seq 0 (slices - 1))) (seq 0 (stacks - 1)))%nat.
(** reshape(len(indices)//3, 3), line 41; the length is a multiple of three. *)
Fixpoint by3 (l : list nat) : list (list nat) :=
  match l with a :: b :: c :: r => [a; b; c] :: by3 r | _ => [] end.
(** shapes.py:29-42. *)
Definition sphere_faces (slices stacks : nat) : list (list nat) := by3 (sphere_indices slices stacks).

(** cube, lines 10-15. *)
Definition cube_vertices : list vec3 :=
  map (fun v => V3 ((x3 v - 1 / 2) / sqrt 2) ((y3 v - 1 / 2) / sqrt 2) ((z3 v - 1 / 2) / sqrt 2))
    [ V3 0 0 0; V3 1 0 0; V3 1 0 1; V3 0 0 1; V3 0 1 0; V3 1 1 0; V3 1 1 1; V3 0 1 1 ].
(** The faces, shapes.py:7-15. *)
Definition cube_faces : list (list nat) :=
  ([ [0;1;2;3]; [4;5;6;7]; [0;1;5;4]; [1;2;6;5]; [2;3;7;6]; [3;0;4;7] ])%nat.

(** tetrahedron, lines 48-53. *)
Definition tetra_vertices : list vec3 :=
  let a := 2 * PI / 3 in
  let h := 1 / 2 in
  [ V3 0 h 0;
    V3 (h * cos (0 * a)) (- (1 / 4)) (h * sin (0 * a));
    V3 (h * cos (1 * a)) (- (1 / 4)) (h * sin (1 * a));
    V3 (h * cos (2 * a)) (- (1 / 4)) (h * sin (2 * a)) ].
(** The faces, shapes.py:53. *)
Definition tetra_faces : list (list nat) := ([ [1;2;3]; [1;2;0]; [2;3;0]; [3;1;0] ])%nat.

(** octahedron, lines 59-63. *)
Definition octa_vertices : list vec3 :=
  let r := 1 / 2 * 1 / sqrt 2 in
  [ V3 0 (1 / 2) 0; V3 0 (- (1 / 2)) 0; V3 (- r) 0 (- r); V3 r 0 (- r); V3 r 0 r; V3 (- r) 0 r ].
(** The faces, shapes.py:62-63. *)
Definition octa_faces : list (list nat) :=
  ([ [2;3;0]; [3;4;0]; [4;5;0]; [5;2;0]; [3;2;1]; [4;3;1]; [5;4;1]; [2;5;1] ])%nat.

(** dodecahedron, lines 69-92; the indices in the source start at 1. *)
Definition dodeca_vertices : list vec3 :=
  let r := (1 + sqrt 5) / 2 in
  map (fun v => V3 (x3 v / sqrt 3 / 2) (y3 v / sqrt 3 / 2) (z3 v / sqrt 3 / 2))
    [ V3 (-1) (-1) 1; V3 r (1 / r) 0; V3 r (-1 / r) 0; V3 (- r) (1 / r) 0;
      V3 (- r) (-1 / r) 0; V3 0 r (1 / r); V3 0 r (-1 / r); V3 (1 / r) 0 (- r);
      V3 (-1 / r) 0 (- r); V3 0 (- r) (-1 / r); V3 0 (- r) (1 / r); V3 (1 / r) 0 r;
      V3 (-1 / r) 0 r; V3 1 1 (-1); V3 1 1 1; V3 (-1) 1 (-1);
      V3 (-1) 1 1; V3 1 (-1) (-1); V3 1 (-1) 1; V3 (-1) (-1) (-1) ].
(** The faces, shapes.py:69-92. *)
Definition dodeca_faces : list (list nat) :=
  (map (map (fun i => i - 1))
    [ [19;3;2]; [12;19;2]; [15;12;2];
      [8;14;2]; [18;8;2]; [3;18;2];
      [20;5;4]; [9;20;4]; [16;9;4];
      [13;17;4]; [1;13;4]; [5;1;4];
      [7;16;4]; [6;7;4]; [17;6;4];
      [6;15;2]; [7;6;2]; [14;7;2];
      [10;18;3]; [11;10;3]; [19;11;3];
      [11;1;5]; [10;11;5]; [20;10;5];
      [20;9;8]; [10;20;8]; [18;10;8];
      [9;16;7]; [8;9;7]; [14;8;7];
      [12;15;6]; [13;12;6]; [17;13;6];
      [13;1;11]; [12;13;11]; [19;12;11] ])%nat.

(** What each function returns: vertices and faces.  icosahedron uses the
    undefined name uint32, line 108. *)
Definition sphere (radius : R) (slices stacks : nat) : res (list vec3 * list (list nat)) :=
  Ok (sphere_vertices radius slices stacks, sphere_faces slices stacks).
(** cube(), shapes.py:7-15. *)
Definition cube : res (list vec3 * list (list nat)) := Ok (cube_vertices, cube_faces).
(** tetrahedron(), shapes.py:45-54. *)
Definition tetrahedron : res (list vec3 * list (list nat)) := Ok (tetra_vertices, tetra_faces).
(** octahedron(), shapes.py:56-64. *)
Definition octahedron : res (list vec3 * list (list nat)) := Ok (octa_vertices, octa_faces).
(** dodecahedron(), shapes.py:66-93. *)
Definition dodecahedron : res (list vec3 * list (list nat)) := Ok (dodeca_vertices, dodeca_faces).
(** icosahedron(), shapes.py:95-109: [uint32] is not a name of the module. *)
Definition icosahedron : res (list vec3 * list (list nat)) := Err NameError.
