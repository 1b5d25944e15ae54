(** C127: things with several corners under the flat camera, in floating point. *)
From Coq Require Import Reals Lra List ZArith.
From Verif Require Import Base Glm GlmSpec Vec VecSpec Drift Viewport Ragged Render RenderSpec Picture PictureSpec PictureFacts Outline OutlineSpec Single SingleSpec Rendered RenderedSpec Joined JoinedSpec
  OpticsFacts Flat FlatSpec FlatFacts FlatJoinedFacts.
Import ListNotations.
Local Open Scope R_scope.

(** Every segment is drawn once, with its own colour and width, both ends exactly in their places,
    and it is not covered by one that is wholly farther by a little more than a thousandth. *)
Theorem C127_segments v argsort ps proj : usable v -> sorts_numbers argsort -> Forall single_vertex ps -> Forall (in_cube 1) ps -> flat_proj_computed = Ok proj ->
  forall gs color width out, in_pairs gs ps -> let n := length gs in fits n color -> clear n color -> fits n width -> clear n width ->
  segments_computed argsort v ps eye4 eye4 proj color width out ->
  exists order, visits n order /\ joined_covers (fun p => - z3 p) gs order /\
    joined_at (upright_spot v) (fun j => [own color j; own width j]) gs order out.
Proof. exact (flat_segments_whole v argsort ps proj). Qed.
Print Assumptions C127_segments.
(** The same for paths and polygons with any number of vertices. *)
Theorem C127_outlines v argsort ps proj : usable v -> sorts_numbers argsort -> Forall single_vertex ps -> Forall (in_cube 1) ps -> flat_proj_computed = Ok proj ->
  forall i gs attrs out, group ps i = Ok gs -> let n := length gs in Forall (fun a => fits n a /\ clear_path n (length ps) a) attrs ->
  outlines_computed argsort v ps eye4 eye4 proj i attrs out ->
  exists order, visits n order /\ joined_covers (fun p => - z3 p) gs order /\
    joined_at (upright_spot v) (fun j => map (fun a => own a j) attrs) gs order out.
Proof. exact (flat_outlines_whole v argsort ps proj). Qed.
Print Assumptions C127_outlines.
(** Every marker is drawn once, of its own shape, exactly where its vertex is. *)
Theorem C127_markers v argsort ps proj : usable v -> sorts_numbers argsort -> Forall single_vertex ps -> Forall (in_cube 1) ps -> flat_proj_computed = Ok proj ->
  forall X (shapes : list X) face edge width size out, let n := length ps in length shapes = n ->
  fits n face -> clear n face -> fits n edge -> clear n edge -> fits n width -> clear n width -> fits_size n size ->
  markers_computed argsort v ps eye4 eye4 proj shapes face edge width size out ->
  exists order, visits n order /\ covers_but (/ 10000) (fun p => - z3 p) ps order /\
    shaped_at (upright_spot v) (fun j => [own face j; own edge j; own width j; own size j]) shapes ps order out.
Proof. exact (@flat_markers_whole v argsort ps proj). Qed.
Print Assumptions C127_markers.
(** Such pictures are drawn, wherever the vertices are, and those of points and pixels too. *)
Theorem C127_drawn v argsort ps proj : sorts_numbers argsort -> flat_proj_computed = Ok proj ->
  forall X gs i gs' (shapes : list X) color width attrs face edge size, in_pairs gs ps -> group ps i = Ok gs' ->
  Forall (fun a => fits (length gs') a /\ clear_path (length gs') (length ps) a) attrs -> fits_size (length ps) size ->
  (exists out, points_computed argsort v ps eye4 eye4 proj face edge width size out) /\ (exists out, pixels_computed argsort v ps eye4 eye4 proj color out) /\
  (exists out, segments_computed argsort v ps eye4 eye4 proj color width out) /\
  (exists out, outlines_computed argsort v ps eye4 eye4 proj i attrs out) /\
  exists out, markers_computed argsort v ps eye4 eye4 proj shapes face edge width size out.
Proof. exact (@flat_joined_exist v argsort ps proj). Qed.
Print Assumptions C127_drawn.

Definition ladder : list (list vec3) := [[V3 1 1 1; V3 (-1) 1 1]; [V3 0 1 (-1); V3 0 0 (-1)]].
(** There are such vertices, in pairs and in groups, and an order that is wrong for them. *)
Example C127_case : (exists proj, flat_proj_computed = Ok proj) /\ sorts_numbers sort_nums /\
  in_pairs ladder (concat ladder) /\ Forall single_vertex (concat ladder) /\ Forall (in_cube 1) (concat ladder) /\ group (concat ladder) (Render.Uniform 2) = Ok ladder /\
  Forall (fun a => fits 2 a /\ clear_path 2 4 a) [Render.Rows [[1%Z]; [2%Z]]; Whole 3%Z] /\
  ~ joined_covers (fun p => - z3 p) ladder [0; 1]%nat /\ joined_covers (fun p => - z3 p) ladder [1; 0]%nat.
Proof.
  split. { destruct flat_proj as (c & d & E & _). eauto. }
  split; [exact sort_nums_sorts|]. split; [split; [reflexivity|repeat constructor]|]. split.
  { unfold ladder, concat. cbn [app]. repeat apply Forall_cons; try apply Forall_nil; unfold single_vertex; cbn [x3 y3 z3];
      rewrite ?(rnd32_int 1), ?rnd32_0, ?(rnd32_int (-1)) by reflexivity; auto. }
  split.
  { unfold ladder, concat. cbn [app]. repeat apply Forall_cons; try apply Forall_nil; unfold in_cube; cbn [x3 y3 z3]; repeat split; apply Rabs_le; lra. }
  split; [reflexivity|]. split; [repeat constructor; cbn; auto|]. split.
  - intros H. apply (H 0%nat 1%nat 0%nat 1%nat _ _ ltac:(auto) eq_refl eq_refl eq_refl eq_refl). split; [discriminate|]. split; [discriminate|].
    intros p q [<-|[<-|[]]] [<-|[<-|[]]]; unfold margin; cbn [length Nat.add INR z3 pow]; lra.
  - intros [|[|i]] [|[|j]] a b g h L A B G H (_ & _ & D); try (exfalso; inversion L; fail); try discriminate; cbn in A, B; try (destruct i; discriminate); try (destruct j; discriminate);
      injection A as <-; injection B as <-; injection G as <-; injection H as <-; try (exfalso; inversion L as [|? L']; inversion L'; fail).
    pose proof (D _ _ (or_introl eq_refl) (or_introl eq_refl)) as K. unfold margin in K. cbn [length Nat.add INR z3 pow] in K. lra.
Qed.
