(** Theorems about where vertices appear on the canvas. *)
From Coq Require Import Reals Lra.
From Verif Require Import Base Measure Viewport ViewportSpec Glm GlmSpec Vec VecSpec Render RenderSpec Trackball Picture PictureSpec PictureFacts.
Local Open Scope R_scope.

(** ** C104: where vertices appear, and what covers what *)

(** Every vertex is drawn once, with its own attributes, where the matrices, the
    perspective division and the viewport put it; by decreasing depth. *)
Theorem C104_where argsort v V model view proj ps face edge width size : sorts_numbers argsort -> usable v -> holds V ps ->
  let n := length ps in
  fits n face -> clear n face -> fits n edge -> clear n edge -> fits n width -> clear n width -> fits_size n size ->
  exists order out, points argsort v V model view proj face edge width size = Ok out /\ visits n order /\
    covers (depth_in (fun p => depth (clip model view proj p)) ps) order /\
    map Some out = map (fun j => option_map (fun p => (spot v (clip model view proj p), [own face j; own edge j; own width j; own size j]))
                                            (nth_error ps j)) order.
Proof. exact (fun S => points_where argsort S v V model view proj ps face edge width size). Qed.
Print Assumptions C104_where.
(** Viewports are usable, whatever happened to them. *)
Theorem C104_usable f x y w h v z l s : new_viewport f x y w h = Ok v -> run (new_scene v z) l = Ok s -> usable (s_view s).
Proof. exact (always_usable f x y w h v z l s). Qed.
Print Assumptions C104_usable.
(** Once resized, half the shorter side is as many units as the zoom says, in both
    directions. *)
Theorem C104_resized v i v' : resize v i = Ok v' -> (0 < p_zoom v)%Qc -> positive v' ->
  unit_x v' = Rmin (side_x v') (side_y v') / (2 * inR (p_zoom v)) /\
  unit_y v' = Rmin (side_x v') (side_y v') / (2 * inR (p_zoom v)).
Proof. exact (resized_units v i v'). Qed.
Print Assumptions C104_resized.
(** With a perspective, of the vertices in front of the eye the nearer cover the farther,
    and all of them cover those behind it. *)
Theorem C104_nearer_covers argsort v V model view proj ps face edge width size fovy aspect near far :
  sorts_numbers argsort -> usable v -> holds V ps ->
  affine model -> affine view -> 0 < fovy < 180 -> 0 < aspect -> 0 < near < far ->
  perspective fovy aspect near far false = Ok proj ->
  let n := length ps in
  fits n face -> clear n face -> fits n edge -> clear n edge -> fits n width -> clear n width -> fits_size n size ->
  exists order out, points argsort v V model view proj face edge width size = Ok out /\ visits n order /\
    covers (depth_in (fun p => ahead (eye model view p)) ps) order /\
    map Some out = map (fun j => option_map (fun p => (spot v (clip model view proj p), [own face j; own edge j; own width j; own size j]))
                                            (nth_error ps j)) order /\
    (forall i j a b p q, (i < j)%nat -> nth_error order i = Some a -> nth_error order j = Some b ->
      nth_error ps a = Some p -> nth_error ps b = Some q -> z4 (eye model view p) < 0 -> ~ 0 < z4 (eye model view q)).
Proof. exact (fun S => points_perspective argsort S v V model view proj ps face edge width size fovy aspect near far). Qed.
Print Assumptions C104_nearer_covers.
(** Without perspective, the nearer cover the farther on both sides of the eye. *)
Theorem C104_flat_covers argsort v V model view proj ps face edge width size l r b t near far :
  sorts_numbers argsort -> usable v -> holds V ps ->
  affine model -> affine view -> volume l r b t near far -> near < far -> ortho l r b t near far false = Ok proj ->
  let n := length ps in
  fits n face -> clear n face -> fits n edge -> clear n edge -> fits n width -> clear n width -> fits_size n size ->
  exists order out, points argsort v V model view proj face edge width size = Ok out /\ visits n order /\
    covers (depth_in (fun p => Some (- z4 (eye model view p))) ps) order /\
    map Some out = map (fun j => option_map (fun p => (spot v (clip model view proj p), [own face j; own edge j; own width j; own size j]))
                                            (nth_error ps j)) order.
Proof. exact (fun S => points_ortho argsort S v V model view proj ps face edge width size l r b t near far). Qed.
Print Assumptions C104_flat_covers.
(** Vertices behind the eye are not left out: each is drawn where its mirror image in the
    eye is. *)
Theorem C104_only_in_front_refuted v fovy aspect near far proj c d : 0 < fovy < 180 -> 0 < aspect -> 0 < near < far ->
  perspective fovy aspect near far false = Ok proj -> mirrored c d ->
  spot v (apply4 proj c) = spot v (apply4 proj d).
Proof. exact (mirror_spot v fovy aspect near far proj c d). Qed.
Print Assumptions C104_only_in_front_refuted.
(** Pixels appear at the same places, but the farther cover the nearer. *)
Theorem C104_pixels_refuted argsort v V model view proj ps color fovy aspect near far :
  sorts_numbers argsort -> usable v -> lists V ps ->
  affine model -> affine view -> 0 < fovy < 180 -> 0 < aspect -> 0 < near < far ->
  perspective fovy aspect near far false = Ok proj ->
  let n := length ps in fits n color -> clear n color ->
  exists order out, pixels argsort v V model view proj color = Ok out /\ visits n order /\
    covers (depth_in (fun p => option_map Ropp (ahead (eye model view p))) ps) order /\
    map Some out = map (fun j => option_map (fun p => (spot v (clip model view proj p), [own color j])) (nth_error ps j)) order.
Proof. exact (fun S => pixels_perspective argsort S v V model view proj ps color fovy aspect near far). Qed.
Print Assumptions C104_pixels_refuted.
Example C104_case : sorts_numbers sort_nums /\ holds sample [V3 0 0 1; V3 0 0 2] /\
  lists (table KInt 3 [[0; 0; 1]; [0; 0; 2]]) [V3 0 0 1; V3 0 0 2] /\
  (exists proj, perspective 35 1 1 100 false = Ok proj) /\ affine identity /\
  mirrored (V4 1 2 (-3) 1) (V4 (-1) (-2) 3 1) /\ clear 2 (Render.Rows [[1]; [2]]%Z) /\ fits_size 2 (Whole 3).
Proof.
  split; [exact sort_nums_sorts|]. split; [exact sample_holds|]. split; [exact sample_lists|].
  split; [destruct (camera_ok (new_trackball 0 0) 5 1) as (m & w & p & E); exists p; exact (proj1 (camera_parts 0 0 nil 5 1 m w p E))|].
  split; [reflexivity|]. split; [unfold mirrored; cbn; lra|]. split; exact Logic.I.
Qed.
Example C104_viewport_case : match wide_view with
  | Ok (v, v') => qlt 0%Qc (wide v' * canvas_w v')%Qc && qlt 0%Qc (high v' * canvas_h v')%Qc && qle 1%Qc (p_zoom v) && qlt (span_y v') (span_x v')
  | Err _ => false end = true.
Proof. exact wide_view_ok. Qed.

(** ** C105: turning the camera keeps the scene in view *)

(** However it was turned, a vertex within the ball the angle of view holds is in the
    viewport, if that does not zoom in. *)
Theorem C105_in_view theta phi h zdist s model view proj v i v' p :
  camera_mats (acts (new_trackball theta phi) h) zdist s = Ok (model, view, proj) -> 0 < zdist ->
  Rabs s * norm p <= zdist * sin half_angle -> resize v i = Ok v' -> (1 <= p_zoom v)%Qc -> positive v' ->
  in_viewport v' (spot v' (clip model view proj p)).
Proof. exact (camera_in_viewport theta phi h zdist s model view proj v i v' p). Qed.
Print Assumptions C105_in_view.
(** At any zoom it is at most one unit from the middle, each way. *)
Theorem C105_one_unit theta phi h zdist s model view proj v p :
  camera_mats (acts (new_trackball theta phi) h) zdist s = Ok (model, view, proj) -> 0 < zdist -> 0 <= unit_x v -> 0 <= unit_y v ->
  Rabs s * norm p <= zdist * sin half_angle ->
  exists x y, spot v (clip model view proj p) = Some (x, y) /\
    Rabs (x - fst (middle v)) <= unit_x v /\ Rabs (y - snd (middle v)) <= unit_y v.
Proof. exact (fun E => camera_units theta phi h zdist s model view proj E v p). Qed.
Print Assumptions C105_one_unit.
(** No larger ball will do: some vertex at that distance is farther up or down, or nowhere. *)
Theorem C105_no_more theta phi h zdist s model view proj v r :
  camera_mats (acts (new_trackball theta phi) h) zdist s = Ok (model, view, proj) -> 0 < zdist -> 0 < unit_y v -> 0 <= r ->
  zdist * sin half_angle < Rabs s * r ->
  exists p, norm p = r /\ ~ exists x y, spot v (clip model view proj p) = Some (x, y) /\ Rabs (y - snd (middle v)) <= unit_y v.
Proof. exact (fun E => camera_escapes theta phi h zdist s model view proj E v r). Qed.
Print Assumptions C105_no_more.
(** The origin stays in the middle. *)
Theorem C105_origin theta phi h zdist s model view proj v :
  camera_mats (acts (new_trackball theta phi) h) zdist s = Ok (model, view, proj) -> zdist <> 0 ->
  spot v (clip model view proj zero3) = Some (middle v).
Proof. exact (fun E => camera_origin theta phi h zdist s model view proj E v). Qed.
Print Assumptions C105_origin.
(** The camera's matrices suit C104, so nearer vertices cover farther ones. *)
Theorem C105_matrices theta phi h zdist s :
  exists model view proj, camera_mats (acts (new_trackball theta phi) h) zdist s = Ok (model, view, proj) /\
    affine model /\ affine view /\ perspective 35 1 1 100 false = Ok proj /\
    forall p, exists r, dot r r = dot p p /\ eye model view p = V4 (s * x3 r) (s * y3 r) (s * z3 r - zdist) 1.
Proof. exact (camera_suits theta phi h zdist s). Qed.
Print Assumptions C105_matrices.
(** A flat camera shows each vertex where its first two coordinates say. *)
Theorem C105_flat v :
  exists model view proj, flat_mats = Ok (model, view, proj) /\
    affine model /\ affine view /\ ortho (-1) 1 (-1) 1 1 100 false = Ok proj /\ volume (-1) 1 (-1) 1 1 100 /\
    forall p, eye model view p = point p /\
      spot v (clip model view proj p) = Some (fst (middle v) + unit_x v * x3 p, snd (middle v) + unit_y v * y3 p).
Proof. exact (flat_suits v). Qed.
Print Assumptions C105_flat.
(** With the camera's defaults the unit cube stays in view. *)
Example C105_unit_cube p : -1 / 2 <= x3 p <= 1 / 2 -> -1 / 2 <= y3 p <= 1 / 2 -> -1 / 2 <= z3 p <= 1 / 2 ->
  Rabs 1 * norm p <= 5 * sin half_angle.
Proof. exact (unit_cube p). Qed.
