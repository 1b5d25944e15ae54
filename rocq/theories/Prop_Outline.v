(** Theorems about where segments, paths, polygons and markers appear on the canvas. *)
From Coq Require Import Reals Lra.
From Verif Require Import Base Slice Measure Viewport ViewportSpec Glm GlmSpec Vec VecSpec Render RenderSpec Picture PictureSpec PictureFacts
  Outline OutlineSpec OutlineFacts.
Local Open Scope R_scope.

(** ** C107: where things with several corners appear, and what covers what *)

(** Every segment is drawn once, between the places of its two vertices, with its own
    colour and width; by decreasing mean depth. *)
Theorem C107_segments argsort v V model view proj ps gs color width : sorts_numbers argsort -> usable v -> holds V ps -> in_pairs gs ps ->
  let n := length gs in
  fits n color -> clear n color -> fits n width -> clear n width ->
  exists order out, segments argsort v V model view proj color width = Ok out /\ visits n order /\
    covers (mean_in (fun p => depth (clip model view proj p)) gs) order /\
    map Some out = map (fun j => option_map (fun g => (map (fun p => spot v (clip model view proj p)) g, [own color j; own width j]))
                                            (nth_error gs j)) order.
Proof. exact (fun S => segments_where argsort S model view proj v V ps gs color width). Qed.
Print Assumptions C107_segments.
(** An odd number of vertices is refused. *)
Theorem C107_odd argsort v V model view proj ps n color width : holds V ps -> length ps = S (2 * n) -> segments argsort v V model view proj color width = Err ValueError.
Proof. exact (segments_odd argsort model view proj v V ps n color width). Qed.
Print Assumptions C107_odd.
(** Every path and polygon is drawn once, through the places of its own vertices in order,
    with its own attributes; by decreasing mean depth. *)
Theorem C107_outlines argsort v V model view proj ps i gs attrs : sorts_numbers argsort -> usable v -> holds V ps -> group ps i = Ok gs ->
  let n := length gs in
  Forall (fun a => fits n a /\ clear_path n (length ps) a) attrs ->
  exists order out, outlines argsort v V model view proj i attrs = Ok out /\ visits n order /\
    covers (mean_in (fun p => depth (clip model view proj p)) gs) order /\
    map Some out = map (fun j => option_map (fun g => (map (fun p => spot v (clip model view proj p)) g, map (fun a => own a j) attrs))
                                            (nth_error gs j)) order.
Proof. exact (fun S => outlines_where argsort S model view proj v V ps i gs attrs). Qed.
Print Assumptions C107_outlines.
(** Every marker is drawn once, of its own shape, where its vertex is; by decreasing depth. *)
Theorem C107_markers {S} argsort v V model view proj (shapes : list S) ps face edge width size : sorts_numbers argsort -> usable v -> holds V ps ->
  let n := length ps in length shapes = n ->
  fits n face -> clear n face -> fits n edge -> clear n edge -> fits n width -> clear n width -> fits_size n size ->
  exists order out, markers argsort v V model view proj shapes face edge width size = Ok out /\ visits n order /\
    covers (depth_in (fun p => depth (clip model view proj p)) ps) order /\
    map Some out = map (fun j => match nth_error shapes j, nth_error ps j with
                                 | Some s, Some p => Some ((s, spot v (clip model view proj p)), [own face j; own edge j; own width j; own size j])
                                 | _, _ => None end) order.
Proof. exact (fun O => markers_where argsort O model view proj v V shapes ps face edge width size). Qed.
Print Assumptions C107_markers.
(** So what is all nearer than something else never is under it, *)
Theorem C107_whole z gs order : covers (mean_in z gs) order -> covers_whole z gs order.
Proof. exact (mean_whole z gs order). Qed.
Print Assumptions C107_whole.
(** with a perspective, for what is in front of the eye, *)
Theorem C107_outlines_nearer argsort v V model view proj ps i gs attrs fovy aspect near far : sorts_numbers argsort -> usable v -> holds V ps ->
  affine model -> affine view -> 0 < fovy < 180 -> 0 < aspect -> 0 < near < far ->
  perspective fovy aspect near far false = Ok proj -> group ps i = Ok gs ->
  let n := length gs in
  Forall (fun a => fits n a /\ clear_path n (length ps) a) attrs ->
  exists order out, outlines argsort v V model view proj i attrs = Ok out /\ visits n order /\
    covers_whole (fun p => ahead (eye model view p)) gs order /\
    map Some out = map (fun j => option_map (fun g => (map (fun p => spot v (clip model view proj p)) g, map (fun a => own a j) attrs))
                                            (nth_error gs j)) order.
Proof. exact (outlines_perspective argsort v V model view proj ps i gs attrs fovy aspect near far). Qed.
Print Assumptions C107_outlines_nearer.
Theorem C107_segments_nearer argsort v V model view proj ps gs color width fovy aspect near far : sorts_numbers argsort -> usable v -> holds V ps ->
  affine model -> affine view -> 0 < fovy < 180 -> 0 < aspect -> 0 < near < far ->
  perspective fovy aspect near far false = Ok proj -> in_pairs gs ps ->
  let n := length gs in fits n color -> clear n color -> fits n width -> clear n width ->
  exists order out, segments argsort v V model view proj color width = Ok out /\ visits n order /\
    covers_whole (fun p => ahead (eye model view p)) gs order /\
    map Some out = map (fun j => option_map (fun g => (map (fun p => spot v (clip model view proj p)) g, [own color j; own width j]))
                                            (nth_error gs j)) order.
Proof. exact (segments_perspective argsort v V model view proj ps gs color width fovy aspect near far). Qed.
Print Assumptions C107_segments_nearer.
Theorem C107_markers_nearer {S} argsort v V (shapes : list S) model view proj ps face edge width size fovy aspect near far :
  sorts_numbers argsort -> usable v -> holds V ps ->
  affine model -> affine view -> 0 < fovy < 180 -> 0 < aspect -> 0 < near < far ->
  perspective fovy aspect near far false = Ok proj ->
  let n := length ps in length shapes = n ->
  fits n face -> clear n face -> fits n edge -> clear n edge -> fits n width -> clear n width -> fits_size n size ->
  exists order out, markers argsort v V model view proj shapes face edge width size = Ok out /\ visits n order /\
    covers (depth_in (fun p => ahead (eye model view p)) ps) order /\
    map Some out = map (fun j => match nth_error shapes j, nth_error ps j with
                                 | Some s, Some p => Some ((s, spot v (clip model view proj p)), [own face j; own edge j; own width j; own size j])
                                 | _, _ => None end) order.
Proof. exact (markers_perspective argsort v V shapes model view proj ps face edge width size fovy aspect near far). Qed.
Print Assumptions C107_markers_nearer.
(** and without perspective on both sides of it. *)
Theorem C107_outlines_flat argsort v V model view proj ps i gs attrs l r b t near far : sorts_numbers argsort -> usable v -> holds V ps ->
  affine model -> affine view -> volume l r b t near far -> near < far -> ortho l r b t near far false = Ok proj -> group ps i = Ok gs ->
  let n := length gs in
  Forall (fun a => fits n a /\ clear_path n (length ps) a) attrs ->
  exists order out, outlines argsort v V model view proj i attrs = Ok out /\ visits n order /\
    covers_whole (fun p => Some (- z4 (eye model view p))) gs order /\
    map Some out = map (fun j => option_map (fun g => (map (fun p => spot v (clip model view proj p)) g, map (fun a => own a j) attrs))
                                            (nth_error gs j)) order.
Proof. exact (outlines_ortho argsort v V model view proj ps i gs attrs l r b t near far). Qed.
Print Assumptions C107_outlines_flat.
Theorem C107_segments_flat argsort v V model view proj ps gs color width l r b t near far : sorts_numbers argsort -> usable v -> holds V ps ->
  affine model -> affine view -> volume l r b t near far -> near < far -> ortho l r b t near far false = Ok proj -> in_pairs gs ps ->
  let n := length gs in fits n color -> clear n color -> fits n width -> clear n width ->
  exists order out, segments argsort v V model view proj color width = Ok out /\ visits n order /\
    covers_whole (fun p => Some (- z4 (eye model view p))) gs order /\
    map Some out = map (fun j => option_map (fun g => (map (fun p => spot v (clip model view proj p)) g, [own color j; own width j]))
                                            (nth_error gs j)) order.
Proof. exact (segments_ortho argsort v V model view proj ps gs color width l r b t near far). Qed.
Print Assumptions C107_segments_flat.
(** But where two cross, the nearer does not always cover the farther: of these two segments
    the second is drawn first, and is nearer where they cross. *)
Theorem C107_crossing_refuted argsort v V color width : sorts_numbers argsort -> usable v -> holds V crossing ->
  fits 2 color -> clear 2 color -> fits 2 width -> clear 2 width ->
  exists model view proj out f g h k,
    flat_mats = Ok (model, view, proj) /\ segments argsort v V model view proj color width = Ok out /\
    map Some out = map (fun j => option_map (fun s => (map (fun p => spot v (clip model view proj p)) s, [own color j; own width j]))
                                            (nth_error [[f; g]; [h; k]] j)) [1%nat; 0%nat] /\
    crossing = [f; g; h; k] /\
    exists s t, 0 <= s <= 1 /\ 0 <= t <= 1 /\
      spot v (clip model view proj (between s f g)) = spot v (clip model view proj (between t h k)) /\
      - z4 (eye model view (between t h k)) < - z4 (eye model view (between s f g)).
Proof. exact (crossing_order argsort v V color width). Qed.
Print Assumptions C107_crossing_refuted.
Example C107_case : sorts_numbers sort_nums /\
  holds (table KFloat 3 [[-1; 0; -10]; [1; 0; -10]; [0; 0; -2]; [0; 1; -30]]) crossing /\
  in_pairs [[V3 (-1) 0 (-10); V3 1 0 (-10)]; [V3 0 0 (-2); V3 0 1 (-30)]] crossing /\
  group crossing (Uniform 2) = Ok [[V3 (-1) 0 (-10); V3 1 0 (-10)]; [V3 0 0 (-2); V3 0 1 (-30)]] /\
  group crossing (Indices [[3; 0]; [-1; 1; 2]]%Z) = Ok [[V3 0 1 (-30); V3 (-1) 0 (-10)]; [V3 0 1 (-30); V3 1 0 (-10); V3 0 0 (-2)]] /\
  fits 2 (Render.Rows [[1]; [2]]%Z) /\ clear 2 (Render.Rows [[1]; [2]]%Z) /\ clear_path 2 4 (Render.Rows [[1]; [2]]%Z) /\
  nearer (fun p => ahead (point p)) [V3 0 0 (-2); V3 1 0 (-3)] [V3 1 0 (-10); V3 0 1 (-30)].
Proof. exact outline_case. Qed.
