(** C126: the flat camera in floating point. *)
From Coq Require Import Reals Lra List.
From Verif Require Import Base Glm GlmSpec Vec VecSpec Drift Viewport Render RenderSpec Picture PictureSpec PictureFacts Single SingleSpec Rendered RenderedSpec OpticsFacts Flat FlatSpec FlatFacts.
Import ListNotations.
Local Open Scope R_scope.

(** The first two coordinates of a vertex of single precision are placed without any rounding. *)
Theorem C126_exact p q : single_vertex p -> flat_placed p q -> x3 q = x3 p /\ y3 q = y3 p.
Proof. exact (flat_exact p q). Qed.
Print Assumptions C126_exact.
(** It is drawn on the very pixel where the exact camera draws it. *)
Theorem C126_pixel : exists model view proj, flat_mats = Ok (model, view, proj) /\ forall v p q, usable v -> single_vertex p -> flat_placed p q ->
  on_canvas v (Num (x3 q)) (Num (y3 q)) = spot v (clip model view proj p).
Proof. exact flat_pixels. Qed.
Print Assumptions C126_pixel.
(** Any vertex in the cube, of any precision, is placed within a millionth, depth included. *)
Theorem C126_close : exists model view proj, flat_mats = Ok (model, view, proj) /\ forall p q, in_cube 1 p -> flat_placed p q ->
  within (/ 10 ^ 6) q (exact_place (clip model view proj p)).
Proof. exact flat_close. Qed.
Print Assumptions C126_close.
(** Of two vertices, the one that is farther by a ten thousandth gets the larger depth and is sorted first. *)
Theorem C126_order p p' q q' k k' : in_cube 1 p -> in_cube 1 p' -> flat_placed p q -> flat_placed p' q' -> sort_key q k -> sort_key q' k' ->
  z3 p' + / 10000 <= z3 p -> z3 q < z3 q' /\ k' < k.
Proof. exact (flat_order p p' q q' k k'). Qed.
Print Assumptions C126_order.
(** A picture of points: all of them, each exactly at its place with its own attributes, nearer
    ones over those that are farther by a ten thousandth. *)
Theorem C126_points v argsort ps proj : usable v -> sorts_numbers argsort -> Forall single_vertex ps -> Forall (in_cube 1) ps -> flat_proj_computed = Ok proj ->
  forall face edge width size out, let n := length ps in
  fits n face -> clear n face -> fits n edge -> clear n edge -> fits n width -> clear n width -> fits_size n size ->
  points_computed argsort v ps eye4 eye4 proj face edge width size out ->
  exists order, visits n order /\ covers_but (/ 10000) (fun p => - z3 p) ps order /\
    drawn_at (upright_spot v) (fun j => [own face j; own edge j; own width j; own size j]) ps order out.
Proof. exact (flat_points v argsort ps proj). Qed.
Print Assumptions C126_points.
(** A picture of pixels: the same, with farther ones over nearer ones (as in C104). *)
Theorem C126_pixels v argsort ps proj : usable v -> sorts_numbers argsort -> Forall single_vertex ps -> Forall (in_cube 1) ps -> flat_proj_computed = Ok proj ->
  forall color out, let n := length ps in fits n color -> clear n color ->
  pixels_computed argsort v ps eye4 eye4 proj color out ->
  exists order, visits n order /\ covers_but (/ 10000) (fun p => z3 p) ps order /\
    drawn_at (upright_spot v) (fun j => [own color j]) ps order out.
Proof. exact (flat_pixels_drawn v argsort ps proj). Qed.
Print Assumptions C126_pixels.
(** Every vertex is placed somewhere. *)
Theorem C126_always p : exists q, flat_placed p q.
Proof. exact (flat_always p). Qed.
Print Assumptions C126_always.

(** The projection can be computed, there are vertices of single precision and others, and sorts. *)
Example C126_case : (exists proj, flat_proj_computed = Ok proj) /\ sorts_numbers sort_nums /\ single_vertex (V3 1 0 (-1)) /\ in_cube 1 (V3 1 0 (-1)) /\
  ~ single_vertex (V3 (1 + / 2 ^ 30) 0 0) /\ ~ in_cube 1 (V3 2 0 0).
Proof.
  split. { destruct flat_proj as (c & d & E & _). eauto. }
  split; [exact sort_nums_sorts|]. split.
  { unfold single_vertex. cbn [x3 y3 z3]. rewrite (rnd32_int 1), rnd32_0, (rnd32_int (-1)) by reflexivity. auto. }
  split. { unfold in_cube. cbn [x3 y3 z3]. repeat split; apply Rabs_le; lra. }
  split. { exact not_single. }
  intros (H & _). cbn [x3] in H. rewrite Rabs_pos_eq in H; lra.
Qed.
