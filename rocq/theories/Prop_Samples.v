(** C118: the scenes of the example programs are what their descriptions say, whatever the
    number of their parts. *)
From Coq Require Import Reals Lra.
From Verif Require Import Base Registry Measure Viewport Glm GlmSpec Vec VecSpec Render RenderSpec Picture PictureSpec PictureFacts
  Gallery GallerySpec Samples SamplesSpec SamplesFacts.
From Verif Require Swizzle.
Open Scope R_scope.

(** C118.  The loops write each vertex once: the vertices, cut by the sizes, are n rows of n
    polygons.  Counting along the rows from the top left, they are regular polygons with 3,
    4, 5... corners around the middles of the cells of the square. *)
Theorem C118_polygons n : (1 <= n)%nat -> exists P gs, regular n = Ok (P, seq 3 (n * n)) /\
  group P (Sizes (fun z => z) (map Z.of_nat (seq 3 (n * n)))) = Ok gs /\ concat gs = P /\ length gs = (n * n)%nat /\
  forall row column, (row < n)%nat -> (column < n)%nat ->
    nth_error gs (row * n + column) = Some (ngon (3 + (row * n + column)) (middle_x n column) (middle_y n row) (0.85 / INR n)).
Proof. exact (polygons_placed n). Qed.
Print Assumptions C118_polygons.
(** Their corners are at the same distance from the middle, in their own cell and in the
    square. *)
Theorem C118_inside n row column m p : (row < n)%nat -> (column < n)%nat -> In p (ngon m (middle_x n column) (middle_y n row) (0.85 / INR n)) ->
  in_cell n row column p /\ in_square p /\ z3 p = 0 /\
  (x3 p - middle_x n column) * (x3 p - middle_x n column) + (y3 p - middle_y n row) * (y3 p - middle_y n row) = 0.85 / INR n * (0.85 / INR n).
Proof. exact (polygon_inside n row column m p). Qed.
Print Assumptions C118_inside.
(** No position is in two cells, so no two polygons share a corner. *)
Theorem C118_apart n r c r' c' p : (1 <= n)%nat -> in_cell n r c p -> in_cell n r' c' p -> r = r' /\ c = c'.
Proof. exact (cells_apart n r c r' c' p). Qed.
Print Assumptions C118_apart.
(** Drawn in a new viewport: every polygon once, with the fill, the colour and the width of
    the program, all of it in the viewport.  Not for two rows: four polygons and the four
    numbers of a colour are mistaken for one another (C38_colour_refuted). *)
Theorem C118_drawn code whole argsort fg vx vy vw vh v V n P I vars k l f e w fill line width : (1 <= n)%nat -> n <> 2%nat -> regular n = Ok (P, I) ->
  sorts_numbers argsort -> new_viewport fg vx vy vw vh = Ok v -> 0 <= side_x v -> 0 <= side_y v -> PictureSpec.holds V P ->
  dget vars "positions"%string = Some (Array (Ok V) (Z.of_nat (length P))) ->
  dget vars "indices"%string = Some (Array (Ok (mkA k (Flat l))) (Z.of_nat (length l))) -> map whole l = map Z.of_nat I ->
  dget vars "fill_colors"%string = Some f -> colors code f = Ok (Row fill) -> length fill = 4%nat ->
  dget vars "line_colors"%string = Some e -> colors code e = Ok (Row line) -> length line = 4%nat ->
  dget vars "line_widths"%string = Some w -> numbers code w = Ok (Whole width) ->
  exists order out, paint_all code whole argsort "visual.Polygons" v vars = Ok (Lines out) /\ visits (n * n) order /\ length out = (n * n)%nat /\
    forall a j, nth_error order a = Some j -> exists s, nth_error out a = Some (s, [Some fill; Some line; Some [width]]) /\
      s = map (fun p => spot v (point p)) (ngon (3 + j) (middle_x n (j mod n)) (middle_y n (j / n)) (0.85 / INR n)) /\
      length s = (3 + j)%nat /\ Forall (in_viewport v) s.
Proof. exact (polygons_shown code whole argsort fg vx vy vw vh v V n P I vars k l f e w fill line width). Qed.
Print Assumptions C118_drawn.

(** The spiral of the points and of the markers: n positions in the square, turning ten
    times and an eighth around the origin, at distances that grow evenly from 0.05 to 0.95. *)
Theorem C118_spiral n : length (spiral n) = n /\ forall i, (i < n)%nat -> exists p, nth_error (spiral n) i = Some p /\
  p = V3 (from_axis p * cos (share n i * (20.25 * PI))) (from_axis p * sin (share n i * (20.25 * PI))) 0 /\
  from_axis p = 0.05 + share n i * 0.9 /\ in_square p.
Proof. exact (conj (spiral_length n) (spiral_each n)). Qed.
Print Assumptions C118_spiral.
(** It is what the assignment of the two rows to the components x and y of n zero vectors
    gives. *)
Theorem C118_assigned n : (1 <= n)%nat ->
  exists v, Swizzle.setattr (Swizzle.alphabets 3) (Swizzle.mkVecs [n] 3 (fun _ _ => 0)) (list_ascii_of_string "xy") (spiral_columns n) = (v, Ok tt) /\
    Swizzle.lead v = [n] /\ Swizzle.ncomp v = 3%nat /\
    forall i, (i < n)%nat -> nth_error (spiral n) i = Some (V3 (Swizzle.comp v [i] 0) (Swizzle.comp v [i] 1) (Swizzle.comp v [i] 2)).
Proof. exact (spiral_set n). Qed.
Print Assumptions C118_assigned.
(** Their sizes and their angles in degrees: one for each; sizes are squares of diameters that
    grow evenly from 0.05 to 12, angles are those of the turns. *)
Theorem C118_attributes n : (length (spiral_sizes n) = n /\ length (spiral_angles n) = n) /\
  forall i, (i < n)%nat -> nth_error (spiral_sizes n) i = Some ((0.05 + share n i * 11.95) * (0.05 + share n i * 11.95)) /\
    nth_error (spiral_angles n) i = Some (share n i * 3645).
Proof. exact (conj (attributes_length n) (spiral_attributes n)). Qed.
Print Assumptions C118_attributes.
(** The markers in three dimensions: n positions at distance 1 from the origin, at heights
    that go down evenly, without the poles. *)
Theorem C118_sphere n : length (sphere n) = n /\ forall i, (i < n)%nat -> exists p, nth_error (sphere n) i = Some p /\
  from_origin p = 1 /\ z3 p = 1 - (2 * INR i + 1) / INR n /\ -1 < z3 p < 1.
Proof. exact (conj (sphere_length n) (sphere_each n)). Qed.
Print Assumptions C118_sphere.
(** The segments: n of them in the square, from the bottom up, leaning to the right by a
    tenth, evenly from the left to the right. *)
Theorem C118_segments n : length (slanted n) = (2 * n)%nat /\ forall i, (i < n)%nat -> exists p q,
  nth_error (slanted n) (2 * i) = Some p /\ nth_error (slanted n) (2 * i + 1) = Some q /\
  p = V3 (-0.75 + share n i * 1.5) (-0.5) 0 /\ q = V3 (x3 p + 0.1) 0.5 0 /\ in_square p /\ in_square q.
Proof. exact (conj (slanted_length n) (slanted_each n)). Qed.
Print Assumptions C118_segments.
(** The curve: n positions in the square, in n - 1 parts; each goes from one position to the
    next. *)
Theorem C118_curve n : length (curve n) = n /\ curve_parts n = Ok (map (fun i => [i; S i]) (seq 0 (n - 1))) /\
  forall i, (i < n)%nat -> exists p, nth_error (curve n) i = Some p /\ in_square p /\ z3 p = 0 /\
    exists t, t = -7.4 + share n i * 6.9 /\ p = V3 (0.9 * sin t) (0.9 * cos (1.6 * t)) 0.
Proof. exact (conj (curve_length n) (conj (curve_pairs n) (curve_each n))). Qed.
Print Assumptions C118_curve.
(** The cube: its positions are its corners, each of them once. *)
Theorem C118_corners : NoDup cube /\ forall p, In p cube <-> is_corner p.
Proof. exact (conj cube_distinct (fun p => iff_sym (cube_corner p))). Qed.
Print Assumptions C118_corners.
(** Its twelve paths are its edges, each of them once. *)
Theorem C118_edges : (NoDup cube_edges /\ length cube_edges = 12%nat /\ forall i j, In [i; j] cube_edges -> ~ In [j; i] cube_edges) /\
  forall i j p q, nth_error cube i = Some p -> nth_error cube j = Some q -> (joined p q <-> In [i; j] cube_edges \/ In [j; i] cube_edges).
Proof. exact (conj edges_once edges_joined). Qed.
Print Assumptions C118_edges.

(** The program as it is, with three rows: it meets the conditions of C118_drawn. *)
Example C118_case : exists f v P, new_canvas (CInt 512) (CInt 512) (zq 100) = Ok f /\ new_viewport f (CInt 0) (CInt 0) (CInt 512) (CInt 512) = Ok v /\ side_x v = 512 /\ side_y v = 512 /\
  regular 3 = Ok (P, seq 3 9) /\ PictureSpec.holds (table KFloat 3 (map (fun p => [x3 p; y3 p; z3 p]) P)) P /\
  map (fun x => match x with Num r => Int_part r | _ => 0%Z end) (map (fun k => Num (INR k)) (seq 3 9)) = map Z.of_nat (seq 3 9).
Proof. exact program_case. Qed.
(** The curve in four parts. *)
Example C118_parts_case : curve_parts 5 = Ok [[0; 1]; [1; 2]; [2; 3]; [3; 4]]%nat.
Proof. reflexivity. Qed.
