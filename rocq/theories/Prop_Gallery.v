(** C117: visuals of all kinds saved with their buffers in a session file are drawn
    elsewhere as in the program, for the values a file can carry. *)
From Coq Require Import Reals Lra Permutation.
From Verif Require Import Base Registry Convert Command CommandSpec Queue QueueSpec Base64 Execute Json Session SessionSpec
  JsonText JsonTextSpec JsonFile JsonFileSpec JsonFileFacts AnyFile AnyFileSpec SessionFile SessionFileSpec SessionFileFacts
  Measure Viewport ViewportSpec Panes Glm GlmSpec Vec VecSpec Render RenderSpec Picture PictureSpec PictureFacts Outline OutlineSpec Remote RemoteSpec Relay RelaySpec Gallery GallerySpec GalleryFacts GalleryMade.
Open Scope string_scope.

(** C117.  A program makes canvases, viewports, buffers and visuals and renders the visuals.
    It is saved to a session file; the file is loaded and run by a backend.  The canvases
    of the backend, their viewports and what each visual draws in them are those of the
    program; so is the error, if there is one.  If a class of the backend raises, they are
    those of the steps before.  This holds whatever the visuals draw with their
    variables. *)
Theorem C117_elsewhere_partial {C Pic} num (hue : Command.value -> C) arrays unpack look (paint : string -> Viewport.viewport -> dict string var -> res Pic) E d :
  look VNone = Absent ->
  forall ftok fval stamp ccode, float_texts ftok fval stamp ->
  forall txt pure c l sS rsS B ap apS calls fuel can_open fs format name,
  starting c -> fine_session txt pure E d c l -> l <> [] -> SessionSpec.ready sS -> recording rsS = true ->
  offers B c l E d -> in_step B c (Session.acts E d c l) rsS l ->
  (forall f v, apS f v = ([], pure f v)) -> (length l <= fuel)%nat -> can_open name = true -> json_file format name ->
  Forall (plain_lengths E d) l -> Forall (plain_colors txt pure hue) l -> Forall real_canvas l ->
  Forall (plain_buffer unpack txt pure E d) l -> Forall (plain_render E d) l ->
  let c' := Session.acts E d c l in
  fine_visuals arrays unpack look txt pure E d [] (map fst (cl_made c')) l ->
  exists x, gsp_save ftok stamp txt apS (oid_in (cl_reg c')) fuel can_open fs (cl_sys c') format name = (dset fs name x, cl_sys c', Ok tt) /\
  forall s' rs' cls outs o, play_file fval ccode B ap calls rsS sS (dset fs name x) format name = (s', (rs', cls, outs), o) ->
    (o = Ok tt -> exhibit (reenacted num hue arrays unpack look paint [] outs) =
                  exhibit (enacted num hue arrays unpack look paint [] (map fst (cl_made c')) l)) /\
    (forall e, o = Err e -> exists l1 a l2, l = (l1 ++ a :: l2)%list /\
       exhibit (reenacted num hue arrays unpack look paint [] outs) =
       exhibit (enacted num hue arrays unpack look paint [] (map fst (cl_made (Session.acts E d c l1))) l1)).
Proof. exact (exhibited_elsewhere num hue arrays unpack look paint E d). Qed.
Print Assumptions C117_elsewhere_partial.

(** Rendering a visual in a viewport replaces what it has drawn in that viewport by what it
    draws now.  What other visuals have drawn, what it has drawn in other viewports and the
    other objects stay.  If it cannot draw, its error is raised. *)
Theorem C117_render {C Pic} num (hue : Command.value -> C) arrays unpack look (paint : string -> Viewport.viewport -> dict string var -> res Pic)
  l refs t r i path vars cl k j c p kws :
  enacted num hue arrays unpack look paint [] refs l = Ok t ->
  located t r 0 = Some (i, Figure path vars) ->
  dget kws "viewport" = Some (VObj cl k) -> (forall m, In m ["model"; "view"; "proj"] -> dget kws m = None \/ dget kws m = Some VNone) ->
  located t k 0 = Some (j, Window c p) ->
  exists d drawn a, placed_at t c = Some (Wall d drawn) /\ nth_error (d_panes d) p = Some a /\ usable (Panes.view (d_fig d) a) /\
    match paint path (Panes.view (d_fig d) a) vars with
    | Err e => perform paint t r "render" kws = Err e
    | Ok x => exists t' drawn', perform paint t r "render" kws = Ok t' /\ placed_at t' c = Some (Wall d drawn') /\ last_hung drawn' (i, p) = Some x /\
        (forall q, q <> (i, p) -> last_hung drawn' q = last_hung drawn q) /\ (forall m, m <> c -> placed_at t' m = placed_at t m) /\ map fst t' = map fst t
    end.
Proof.
  exact (fun P => render_hangs paint t r i path vars cl k j c p kws (enacted_sound num hue arrays unpack look paint l [] refs t nothing_sound P)).
Qed.
Print Assumptions C117_render.

(** A visual made of an array of n positions has these positions and the arguments given: an
    array is that array, a buffer is its array, and other values are what they mean.  The
    other objects stay. *)
Theorem C117_made {C Pic} num (hue : Command.value -> C) arrays unpack look (t : hall C Pic) r path ks kws c z V (ps : list vec3) : In (path, ks) arguments ->
  (forall k, In k ks -> dget kws k <> None) ->
  dget kws "positions" = Some (VAtom c z) -> arrays c z = Some V -> lists V ps ->
  (In "indices" ks -> forall v, dget kws "indices" = Some v -> exists x, stands_for arrays look t v x /\ counts x) ->
  exists vars, Gallery.construct num hue arrays unpack look t r path kws = Ok (t ++ [(r, Figure path vars)])%list /\
    (path <> "visual.Pixels" -> exists W, dget vars "positions" = Some (Array (Ok W) (Z.of_nat (length ps))) /\ PictureSpec.holds W ps) /\
    (path = "visual.Pixels" -> dget vars "positions" = Some (Array (Ok V) (Z.of_nat (length ps)))) /\
    forall k v, In k ks -> k <> "positions" -> dget kws k = Some v -> exists x, dget vars k = Some x /\ stands_for arrays look t v x.
Proof. exact (figure_made num hue arrays unpack look t r path ks kws c z V ps). Qed.
Print Assumptions C117_made.

(** What points draw: each of them once, the farthest first, at its pixel in the viewport,
    with its own colours, width and size. *)
Theorem C117_points code whole argsort v V ps vars f e w s face edge width size : sorts_numbers argsort -> usable v -> PictureSpec.holds V ps ->
  let n := length ps in
  dget vars "positions" = Some (Array (Ok V) (Z.of_nat n)) ->
  dget vars "fill_colors" = Some f -> colors code f = Ok face -> dget vars "line_colors" = Some e -> colors code e = Ok edge ->
  dget vars "line_widths" = Some w -> numbers code w = Ok width -> dget vars "sizes" = Some s -> numbers code s = Ok size ->
  fits n face -> clear n face -> fits n edge -> clear n edge -> fits n width -> clear n width -> fits_size n size ->
  exists order out, paint_all code whole argsort "visual.Points" v vars = Ok (Spots out) /\ visits n order /\
    covers (depth_in (fun p => Some (z3 p)) ps) order /\
    map Some out = map (fun j => option_map (fun p => (spot v (point p), [own face j; own edge j; own width j; own size j])) (nth_error ps j)) order.
Proof. exact (points_paint code whole argsort v V ps vars f e w s face edge width size). Qed.
Print Assumptions C117_points.
(** What pixels draw: each of them once at its pixel, with its own colour; the nearest first
    (the other visuals draw the farthest first). *)
Theorem C117_pixels code whole argsort v V ps vars c color : sorts_numbers argsort -> usable v -> lists V ps ->
  let n := length ps in
  dget vars "positions" = Some (Array (Ok V) (Z.of_nat n)) -> dget vars "colors" = Some c -> colors code c = Ok color -> fits n color -> clear n color ->
  exists order out, paint_all code whole argsort "visual.Pixels" v vars = Ok (Spots out) /\ visits n order /\
    covers (depth_in (fun p => Some (- z3 p)%R) ps) order /\
    map Some out = map (fun j => option_map (fun p => (spot v (point p), [own color j])) (nth_error ps j)) order.
Proof. exact (pixels_paint code whole argsort v V ps vars c color). Qed.
Print Assumptions C117_pixels.
(** What paths draw: each path once, the farthest first (by the mean depth of its vertices),
    its vertices at their pixels in the viewport, with its own colour and width. *)
Theorem C117_paths code whole argsort v V ps vars x i gs c w color width cap : sorts_numbers argsort -> usable v -> PictureSpec.holds V ps ->
  dget vars "positions" = Some (Array (Ok V) (Z.of_nat (length ps))) -> dget vars "indices" = Some x -> says_sizes whole x i -> group ps i = Ok gs -> gs <> [] ->
  dget vars "line_colors" = Some c -> colors code c = Ok color -> dget vars "line_widths" = Some w -> numbers code w = Ok width ->
  dget vars "line_caps" = Some (Plain (Int cap)) -> (1 <= cap <= 3)%Z ->
  let n := length gs in
  Forall (fun a => fits n a /\ clear_path n (length ps) a) [color; width] ->
  exists order out, paint_all code whole argsort "visual.Paths" v vars = Ok (Lines out) /\ visits n order /\
    covers (mean_in (fun p => Some (z3 p)) gs) order /\
    map Some out = map (fun j => option_map (fun g => (map (fun p => spot v (point p)) g, [own color j; own width j])) (nth_error gs j)) order.
Proof. exact (paths_paint code whole argsort v V ps vars x i gs c w color width cap). Qed.
Print Assumptions C117_paths.
(** What polygons draw: the same, with their own fill, colour and width. *)
Theorem C117_polygons code whole argsort v V ps vars x i gs f c w fill color width : sorts_numbers argsort -> usable v -> PictureSpec.holds V ps ->
  dget vars "positions" = Some (Array (Ok V) (Z.of_nat (length ps))) -> dget vars "indices" = Some x -> says_sizes whole x i -> group ps i = Ok gs -> gs <> [] ->
  dget vars "fill_colors" = Some f -> colors code f = Ok fill ->
  dget vars "line_colors" = Some c -> colors code c = Ok color -> dget vars "line_widths" = Some w -> numbers code w = Ok width ->
  let n := length gs in
  Forall (fun a => fits n a /\ clear_path n (length ps) a) [fill; color; width] ->
  exists order out, paint_all code whole argsort "visual.Polygons" v vars = Ok (Lines out) /\ visits n order /\
    covers (mean_in (fun p => Some (z3 p)) gs) order /\
    map Some out = map (fun j => option_map (fun g => (map (fun p => spot v (point p)) g, [own fill j; own color j; own width j])) (nth_error gs j)) order.
Proof. exact (polygons_paint code whole argsort v V ps vars x i gs f c w fill color width). Qed.
Print Assumptions C117_polygons.
(** With no path they raise ValueError, whatever their colours and widths are: an empty list
    cannot be stored in an array of points. *)
Theorem C117_no_paths code whole argsort path v V ps vars x i : In path ["visual.Paths"; "visual.Polygons"] -> PictureSpec.holds V ps ->
  dget vars "positions" = Some (Array (Ok V) (Z.of_nat (length ps))) -> dget vars "indices" = Some x -> says_sizes whole x i -> group ps i = Ok [] ->
  (path = "visual.Paths" -> exists cap, dget vars "line_caps" = Some (Plain (Int cap)) /\ (1 <= cap <= 3)%Z) ->
  paint_all code whole argsort path v vars = Err ValueError.
Proof. exact (none_paint code whole argsort path v V ps vars x i). Qed.
Print Assumptions C117_no_paths.

(** What markers draw: each of them once, the farthest first, at its pixel, with its own
    type, angle, colours, width and size, and turned along its own position if there is an
    axis. *)
Theorem C117_markers code whole argsort v V ps vars types angles axis f e w s face edge width size (ty an : nat -> Z) : sorts_numbers argsort -> usable v -> PictureSpec.holds V ps ->
  let n := length ps in
  dget vars "positions" = Some (Array (Ok V) (Z.of_nat n)) ->
  dget vars "types" = Some types -> dget vars "angles" = Some angles -> dget vars "axis" = Some axis ->
  (forall j, (j < n)%nat -> each code types j = Ok (ty j) /\ each code angles j = Ok (an j)) ->
  dget vars "fill_colors" = Some f -> colors code f = Ok face -> dget vars "line_colors" = Some e -> colors code e = Ok edge ->
  dget vars "line_widths" = Some w -> numbers code w = Ok width -> dget vars "sizes" = Some s -> numbers code s = Ok size ->
  fits n face -> clear n face -> fits n edge -> clear n edge -> fits n width -> clear n width -> fits_size n size ->
  exists order out, paint_all code whole argsort "visual.Markers" v vars = Ok (Marks out) /\ visits n order /\
    covers (depth_in (fun p => Some (z3 p)) ps) order /\
    map Some out = map (fun j => option_map (fun p => (((ty j, an j, match axis with Plain Absent => None | _ => Some [Num (x3 p); Num (y3 p); Num (z3 p)] end), spot v (point p)),
                                               [own face j; own edge j; own width j; own size j])) (nth_error ps j)) order.
Proof. exact (marks_where code argsort v V ps vars types angles axis f e w s face edge width size ty an). Qed.
Print Assumptions C117_markers.

(** It is false for the positions of pixels, which are not given their rows back: the
    program draws an array of rows, and a buffer of the same memory is refused, whatever
    the positions are. *)
Theorem C117_pixels_refuted code argsort v V (ps : list vec3) c a :
  (lists V ps -> colors code c = Ok a ->
   exists x, paint_pixels code argsort v [("positions", Array (Ok V) (Z.of_nat (length ps))); ("colors", c)] = Ok (Spots x) /\
     pixels argsort v V Relay.eye Relay.eye Relay.eye a = Ok x) /\
  (PictureSpec.holds V ps -> (1 <= length ps)%nat ->
   exists e, paint_pixels code argsort v [("positions", Array (Ok (flat V)) (Z.of_nat (length ps))); ("colors", c)] = Err e /\
     (e = ValueError \/ e = TypeError)).
Proof. exact (conj (fun L => pixels_rows code argsort v V ps _ c a L eq_refl) (pixels_no_buffer code argsort v V ps c)). Qed.
Print Assumptions C117_pixels_refuted.
(** So a session with pixels that meets all the other conditions is shown by the program and
    raises elsewhere. *)
Theorem C117_pixels_session_refuted code whole : gallery_ready (session_of "Pixels" pixels_of) /\
  (exists t, example_enacted code whole [0; 1; 2; 3; 4]%nat (session_of "Pixels" pixels_of) = Ok t) /\
  example_reenacted code whole (gallery_outs (session_of "Pixels" pixels_of)) = Err TypeError.
Proof. exact (conj pixels_ready (conj (pixels_shown code whole) (pixels_refused code whole))). Qed.
Print Assumptions C117_pixels_session_refuted.
(** And so does a session with markers that have an axis: they take their positions one by
    one, which a buffer does not give. *)
Theorem C117_axis_refuted code whole : gallery_ready (session_of "Markers" (markers_of (VAtom "tracked" 1))) /\
  (exists t, example_enacted code whole [0; 1; 2; 3; 4]%nat (session_of "Markers" (markers_of (VAtom "tracked" 1))) = Ok t) /\
  example_reenacted code whole (gallery_outs (session_of "Markers" (markers_of (VAtom "tracked" 1)))) = Err TypeError.
Proof. exact (conj (markers_ready (VAtom "tracked" 1) (or_intror (or_introl eq_refl))) (conj (markers_shown code whole) (markers_refused code whole))). Qed.
Print Assumptions C117_axis_refuted.

(** Two triangles with a width each: they meet the conditions of C117_elsewhere_partial, and
    the program draws the farther one first. *)
Example C117_case code whole : as_shown VNone = Absent /\ gallery_ready (session_of "Paths" paths_of_two) /\
  fine_visuals some_array a_byte_each as_shown dtype_or_int to_buffer_or_color two_classes arrays_and_colors []
    (map fst (cl_made (Session.acts two_classes arrays_and_colors new_process (session_of "Paths" paths_of_two)))) (session_of "Paths" paths_of_two) /\
  exists t d drawn a,
  example_enacted code whole [0; 1; 2; 3; 4]%nat (session_of "Paths" paths_of_two) = Ok t /\ placed_at t 0 = Some (Wall d drawn) /\ nth_error (d_panes d) 0 = Some a /\
  last_hung drawn (4, 0)%nat = Some (Lines [(map (fun p => spot (Panes.view (d_fig d) a) (point p)) [V3 0 0 2; V3 1 1 2; V3 0 1 2], [Some [3; 0; 0; 1]%Z; Some [code (Num 4)]]);
                                        (map (fun p => spot (Panes.view (d_fig d) a) (point p)) [V3 0 0 1; V3 1 0 1; V3 1 1 1], [Some [3; 0; 0; 1]%Z; Some [code (Num 1)]])]).
Proof. exact (conj eq_refl (conj paths_ready (conj paths_visuals (paths_shown code whole)))). Qed.
(** No path: three vertices, in paths of four. *)
Example C117_none_case : group [V3 0 0 0; V3 1 0 0; V3 0 1 0] (Uniform 4) = Ok [].
Proof. reflexivity. Qed.
(** An array that C117_made takes for positions, and sizes that it takes for indices. *)
Example C117_made_case : some_array "tracked" 1 = Some six_points /\ lists six_points six /\ counts (Plain (as_shown (VInt 3))).
Proof. exact (conj eq_refl (conj six_listed (or_introl (ex_intro _ 3%Z (conj eq_refl eq_refl))))). Qed.
