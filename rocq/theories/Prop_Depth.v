(** Theorems about points coloured by their depth. *)
From Coq Require Import Reals.
From Verif Require Import Base Slice Measure Viewport Camera Glm GlmSpec Vec VecSpec Render RenderSpec Trackball Picture PictureSpec Drag DragSpec Live LiveSpec Depth DepthSpec DepthFacts.
Local Open Scope R_scope.

(** ** C110: points coloured by their depth *)

(** With a perspective, points in front of the eye and limits left out, a point's colour is
    where the inverse of its distance is between those of the farthest and the nearest. *)
Theorem C110_levels argsort v V model view proj ps edge width size fovy aspect n f cmap bad near far :
  sorts_numbers argsort -> usable v -> holds V ps -> ps <> [] -> affine model -> affine view -> 0 < fovy < 180 -> 0 < aspect -> 0 < n < f ->
  perspective fovy aspect n f false = Ok proj -> in_front model view ps ->
  let m := length ps in fits m edge -> clear m edge -> fits m width -> clear m width -> fits_size m size ->
  nearest (distances model view ps) near -> farthest (distances model view ps) far -> near < far ->
  exists out, shaded_vis argsort V 2 cmap bad None None edge width size v model view proj = Ok out /\
    shown_shaded v model view proj ps (fun d => cmap (level near far d)) edge width size out.
Proof.
  exact (fun S U H N A B C D E F G F2 C2 F3 C3 F4 => shaded_levels argsort S v V model view proj ps edge width size fovy aspect n f U H N A B C D E F G F2 C2 F3 C3 F4 cmap bad near far).
Qed.
Print Assumptions C110_levels.
(** So the nearest always have the last colour, the farthest the first, and the nearer a point is the
    higher its place. *)
Theorem C110_front near far : 0 < near < far ->
  level near far near = 1 /\ level near far far = 0 /\ (forall d, near <= d <= far -> 0 <= level near far d <= 1) /\
  (forall d e, 0 < d < e -> level near far e < level near far d).
Proof. exact (level_facts near far). Qed.
Print Assumptions C110_front.
(** But when all are as far, or there is but one, the nearest have the first colour. *)
Theorem C110_front_refuted argsort v V model view proj ps edge width size fovy aspect n f cmap bad :
  sorts_numbers argsort -> usable v -> holds V ps -> ps <> [] -> affine model -> affine view -> 0 < fovy < 180 -> 0 < aspect -> 0 < n < f ->
  perspective fovy aspect n f false = Ok proj -> in_front model view ps ->
  let m := length ps in fits m edge -> clear m edge -> fits m width -> clear m width -> fits_size m size ->
  all_alike (distances model view ps) ->
  exists out, shaded_vis argsort V 2 cmap bad None None edge width size v model view proj = Ok out /\
    shown_shaded v model view proj ps (fun _ => cmap 0) edge width size out.
Proof.
  exact (fun S U H N A B C D E F G F2 C2 F3 C3 F4 => shaded_alike argsort S v V model view proj ps edge width size fovy aspect n f U H N A B C D E F G F2 C2 F3 C3 F4 cmap bad).
Qed.
Print Assumptions C110_front_refuted.
(** With limits that are not zero the colour of a point depends on its own distance only. *)
Theorem C110_fixed argsort v V model view proj ps edge width size fovy aspect n f cmap bad a b :
  sorts_numbers argsort -> usable v -> holds V ps -> ps <> [] -> affine model -> affine view -> 0 < fovy < 180 -> 0 < aspect -> 0 < n < f ->
  perspective fovy aspect n f false = Ok proj -> in_front model view ps ->
  let m := length ps in fits m edge -> clear m edge -> fits m width -> clear m width -> fits_size m size ->
  a <> 0 -> b <> 0 -> a < b ->
  exists out, shaded_vis argsort V 2 cmap bad (Some a) (Some b) edge width size v model view proj = Ok out /\
    shown_shaded v model view proj ps (fun d => cmap ((1 - ((f + n) / (f - n) - 2 * n * f / (f - n) * / d) - a) / (b - a))) edge width size out.
Proof.
  exact (fun S U H N A B C D E F G F2 C2 F3 C3 F4 => shaded_fixed argsort S v V model view proj ps edge width size fovy aspect n f U H N A B C D E F G F2 C2 F3 C3 F4 cmap bad a b).
Qed.
Print Assumptions C110_fixed.
(** A limit of zero counts as left out. *)
Theorem C110_fixed_refuted argsort v V k cmap bad x edge width size model view proj :
  shaded_vis argsort V k cmap bad (Some 0) x edge width size v model view proj = shaded_vis argsort V k cmap bad None x edge width size v model view proj /\
  shaded_vis argsort V k cmap bad x (Some 0) edge width size v model view proj = shaded_vis argsort V k cmap bad x None edge width size v model view proj.
Proof. exact (shaded_zero argsort v V k cmap bad x edge width size model view proj). Qed.
Print Assumptions C110_fixed_refuted.
(** Without perspective the distances themselves are spread evenly. *)
Theorem C110_flat argsort v V model view proj ps cmap bad near far edge width size l r b t n f : sorts_numbers argsort ->
  usable v -> holds V ps -> affine model -> affine view -> volume l r b t n f -> n < f -> ortho l r b t n f false = Ok proj ->
  nearest (distances model view ps) near -> farthest (distances model view ps) far -> near < far ->
  let m := length ps in fits m edge -> clear m edge -> fits m width -> clear m width -> fits_size m size ->
  exists out, shaded_vis argsort V 2 cmap bad None None edge width size v model view proj = Ok out /\
    shown_shaded v model view proj ps (fun d => cmap (flat_level near far d)) edge width size out.
Proof. exact (shaded_flat argsort v V model view proj ps cmap bad near far edge width size l r b t n f). Qed.
Print Assumptions C110_flat.
(** By their first or second coordinate, colours are spread over the screen: the first where a
    point is farthest to the left (or down), the last at the other end, evenly in between. *)
Theorem C110_across argsort v V model view proj ps k cmap bad a b edge width size : sorts_numbers argsort -> usable v -> holds V ps -> (k < 2)%nat -> 0 < unit_x v -> 0 < unit_y v ->
  (forall p, In p ps -> w4 (clip model view proj p) <> 0) ->
  nearest (map (fun p => across k (spot v (clip model view proj p))) ps) a -> farthest (map (fun p => across k (spot v (clip model view proj p))) ps) b -> a < b ->
  let n := length ps in fits n edge -> clear n edge -> fits n width -> clear n width -> fits_size n size ->
  exists order out, shaded_vis argsort V k cmap bad None None edge width size v model view proj = Ok out /\ visits n order /\
    covers (depth_in (fun p => depth (clip model view proj p)) ps) order /\
    map Some (picture v out) = map (fun j => option_map (fun p => ([spot v (clip model view proj p)],
      [Some (cmap ((across k (spot v (clip model view proj p)) - a) / (b - a))); own edge j; own width j; own size j])) (nth_error ps j)) order.
Proof. exact (fun S => shaded_across argsort S v V model view proj ps k cmap bad a b edge width size). Qed.
Print Assumptions C110_across.
(** No points cannot be rendered; others can, with any matrices. *)
Theorem C110_nothing_refuted argsort v V k cmap bad vmin vmax edge width size model view proj : holds V [] ->
  shaded_vis argsort V k cmap bad vmin vmax edge width size v model view proj = Err ValueError.
Proof. exact (shaded_none argsort v V k cmap bad vmin vmax edge width size model view proj). Qed.
Print Assumptions C110_nothing_refuted.
Theorem C110_rendered {D} (sound : D -> Prop) argsort V ps k cmap bad edge width size : holds V ps -> ps <> [] -> fits_size (length ps) size ->
  never_fail sound [fun _ : D => shaded_vis argsort V k cmap bad None None edge width size].
Proof. exact (shaded_never_fails sound argsort V ps k cmap bad edge width size). Qed.
Print Assumptions C110_rendered.
(** In a running example, whatever the user did, the colours on the screen are those of the
    distances now; points within the distance of the camera stay in front of it. *)
Theorem C110_running {D} (visuals : list (D -> vis)) (on_render : Qc -> mat -> mat -> mat -> D -> res D) (port : nat) (figure : nat -> nat) argsort theta phi zdist sc c f x y w h v z d0 s0 hist s k g V ps cmap bad edge width size near far :
  sorts_numbers argsort -> ball_camera theta phi zdist sc = Ok c -> new_viewport f x y w h = Ok v ->
  nth_error visuals k = Some g -> g (l_data s) = shaded_vis argsort V 2 cmap bad None None edge width size -> holds V ps ->
  Forall (fun p => Rabs sc * norm p < zdist) ps ->
  let n := length ps in fits n edge -> clear n edge -> fits n width -> clear n width -> fits_size n size ->
  launched visuals on_render port figure c v z d0 = Ok s0 -> lives visuals on_render port figure s0 hist = Ok s -> settled port figure hist ->
  let now := camera_steps figure c (start_of port ++ mouse_of hist) in
  nearest (distances (c_model now) (c_view now) ps) near -> farthest (distances (c_model now) (c_view now) ps) far -> near < far ->
  exists l items, l_screen s = Some (s_view (l_view s), l) /\ nth_error l k = Some items /\
    shown_shaded (s_view (l_view s)) (c_model now) (c_view now) (c_proj now) ps (fun d => cmap (level near far d)) edge width size items.
Proof. exact (shaded_end visuals on_render port figure argsort theta phi zdist sc c f x y w h v z d0 s0 hist s k g V ps cmap bad edge width size near far). Qed.
Print Assumptions C110_running.
Example C110_case : affine identity /\ affine aside /\ in_front identity aside [V3 0 0 1; V3 0 0 2] /\
  nearest (distances identity aside [V3 0 0 1; V3 0 0 2]) 3 /\ farthest (distances identity aside [V3 0 0 1; V3 0 0 2]) 4 /\
  all_alike (distances identity aside [V3 0 0 1; V3 1 2 1]) /\ level 3 4 (7 / 2) = 3 / 7.
Proof. exact aside_case. Qed.
(** The origin and a point on each axis, with a camera at distance 5, however it was turned. *)
Example C110_running_case figure theta phi (c : @Camera.camera nat mat trackball) h : ball_camera theta phi 5 1 = Ok c ->
  let now := camera_steps figure c h in
  Forall (fun p => Rabs 1 * norm p < 5) axes /\
  exists near far, nearest (distances (c_model now) (c_view now) axes) near /\ farthest (distances (c_model now) (c_view now) axes) far /\ near < far.
Proof. exact (axes_case figure theta phi c h). Qed.
(** Two points beside each other, without any camera, in any viewport. *)
Example C110_across_case v : 0 < unit_x v ->
  (forall p, In p [V3 0 0 1; V3 1 0 2] -> w4 (clip identity identity identity p) <> 0) /\
  let places := map (fun p => across 0 (spot v (clip identity identity identity p))) [V3 0 0 1; V3 1 0 2] in
  exists a b, nearest places a /\ farthest places b /\ a < b.
Proof. exact (across_case v). Qed.
