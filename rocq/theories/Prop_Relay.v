(** C116: points saved with their buffers in a session file are drawn elsewhere as in the
    program, for the arrays and attributes a file can carry. *)
From Coq Require Import Reals Lra Permutation.
From Verif Require Import Base Registry Convert Command CommandSpec Queue QueueSpec Base64 Execute Json Session SessionSpec
  JsonText JsonTextSpec JsonFile JsonFileSpec JsonFileFacts AnyFile AnyFileSpec SessionFile SessionFileSpec SessionFileFacts
  Measure Viewport ViewportSpec Panes Glm GlmSpec Vec VecSpec Render RenderSpec Picture PictureSpec PictureFacts Remote RemoteSpec Relay RelaySpec RelayFacts.
Open Scope string_scope.

(** C116.  A program makes canvases, viewports, buffers and points and renders the points.
    It is saved to a session file; the file is loaded and run by a backend.  The canvases
    of the backend, their viewports and the items drawn in them (places, order, colours,
    widths, sizes) are those of the program; so is the error, if there is one.  If a class
    of the backend raises, they are those of the steps before. *)
Theorem C116_elsewhere_partial {C} num (hue : Command.value -> C) arrays unpack code look argsort E d ftok fval stamp ccode : float_texts ftok fval stamp ->
  forall txt pure c l sS rsS B ap apS calls fuel can_open fs format name,
  starting c -> fine_session txt pure E d c l -> l <> [] -> SessionSpec.ready sS -> recording rsS = true ->
  offers B c l E d -> in_step B c (Session.acts E d c l) rsS l ->
  (forall f v, apS f v = ([], pure f v)) -> (length l <= fuel)%nat -> can_open name = true -> json_file format name ->
  Forall (plain_lengths E d) l -> Forall (plain_colors txt pure hue) l -> Forall real_canvas l ->
  Forall (plain_buffer unpack txt pure E d) l -> Forall (plain_render E d) l ->
  let c' := Session.acts E d c l in
  fine_points arrays unpack look txt pure E d [] (map fst (cl_made c')) l ->
  exists x, gsp_save ftok stamp txt apS (oid_in (cl_reg c')) fuel can_open fs (cl_sys c') format name = (dset fs name x, cl_sys c', Ok tt) /\
  forall s' rs' cls outs o, play_file fval ccode B ap calls rsS sS (dset fs name x) format name = (s', (rs', cls, outs), o) ->
    (o = Ok tt -> screens (replayed num hue arrays unpack code look argsort [] outs) =
                  screens (played num hue arrays unpack code look argsort [] (map fst (cl_made c')) l)) /\
    (forall e, o = Err e -> exists l1 a l2, l = (l1 ++ a :: l2)%list /\
       screens (replayed num hue arrays unpack code look argsort [] outs) =
       screens (played num hue arrays unpack code look argsort [] (map fst (cl_made (Session.acts E d c l1))) l1)).
Proof. exact (relayed_elsewhere num hue arrays unpack code look argsort E d ftok fval stamp ccode). Qed.
Print Assumptions C116_elsewhere_partial.

(** What a program draws: rendering points in a viewport draws each of them once, the
    farthest first, at its pixel in that viewport, with its own colours, width and size.
    What other points have drawn, what the same points have drawn in other viewports and
    the other objects stay. *)
Theorem C116_drawn {C} num (hue : Command.value -> C) arrays unpack code look argsort
  l refs t r i V (ps : list vec3) size face edge width cl k j c p kws :
  played num hue arrays unpack code look argsort [] refs l = Ok t ->
  sorts_numbers argsort -> PictureSpec.holds V ps ->
  let n := length ps in
  found t r 0 = Some (i, Dots (Ok V) (Z.of_nat n) (Ok size) (Ok face) (Ok edge) (Ok width)) ->
  dget kws "viewport" = Some (VObj cl k) -> (forall m, In m ["model"; "view"; "proj"] -> dget kws m = None \/ dget kws m = Some VNone) ->
  found t k 0 = Some (j, Frame c p) ->
  fits n face -> clear n face -> fits n edge -> clear n edge -> fits n width -> clear n width -> fits_size n size ->
  exists d drawn a order out t' drawn', Relay.place t c = Some (Sheet d drawn) /\ nth_error (d_panes d) p = Some a /\
    invoke argsort t r "render" kws = Ok t' /\ visits n order /\
    covers (depth_in (fun p => Some (z3 p)) ps) order /\
    map Some out = map (fun j => option_map (fun p => (spot (Panes.view (d_fig d) a) (point p), [own face j; own edge j; own width j; own size j])) (nth_error ps j)) order /\
    Relay.place t' c = Some (Sheet d drawn') /\ last_drawn drawn' (i, p) = Some out /\
    (forall q, q <> (i, p) -> last_drawn drawn' q = last_drawn drawn q) /\ (forall m, m <> c -> Relay.place t' m = Relay.place t m) /\ map fst t' = map fst t.
Proof. exact (played_draws num hue arrays unpack code look argsort l refs t r i V ps size face edge width cl k j c p kws). Qed.
Print Assumptions C116_drawn.

(** Points made of an array of n positions have these n positions and the attributes
    given. *)
Theorem C116_made {C} num (hue : Command.value -> C) arrays unpack code look (t : stage C) r kws c z V (ps : list vec3) size face edge width :
  dget kws "positions" = Some (VAtom c z) -> arrays c z = Some V -> lists V ps ->
  dget kws "sizes" = Some size -> dget kws "fill_colors" = Some face -> dget kws "line_colors" = Some edge -> dget kws "line_widths" = Some width ->
  Relay.build num hue arrays unpack code look t r "visual.Points" kws =
    Ok (t ++ [(r, Dots (Ok (flat V)) (Z.of_nat (length ps)) (attr_of arrays look t (numbers_of code) size) (attr_of arrays look t (colors_of code) face)
                    (attr_of arrays look t (colors_of code) edge) (attr_of arrays look t (numbers_of code) width))])%list /\
  PictureSpec.holds (flat V) ps.
Proof. exact (points_made num hue arrays unpack code look t r kws c z V ps size face edge width). Qed.
Print Assumptions C116_made.

(** It is false for colours given as an array with a row for each point.  A buffer has no
    rows: matplotlib understands the array of the program, and refuses the buffer. *)
Theorem C116_colors_refuted code k (l : list (list Vec.num)) : Forall (fun x => length x = 4%nat) l -> (2 <= length l)%nat ->
  colors_of code (mkA k (Vec.Rows 4 l)) = Ok (Render.Rows (map (map code) l)) /\ colors_of code (flat (mkA k (Vec.Rows 4 l))) = Err ValueError.
Proof. exact (rows_of_colors code k l). Qed.
Print Assumptions C116_colors_refuted.
(** So a session that meets all the other conditions is shown by the program and raises
    ValueError elsewhere. *)
Theorem C116_session_refuted code : relay_ready colored_points /\
  (exists t, example_played code [0; 1; 2; 3; 4; 5]%nat colored_points = Ok t) /\
  example_replayed code (relayed_outs colored_points) = Err ValueError.
Proof. exact (conj colored_ready (conj (colored_shown code) (colored_refused code))). Qed.
Print Assumptions C116_session_refuted.
(** It is false as well for positions that are a part of another array: their buffer holds
    the whole array.  The program draws two points, the backend three. *)
Theorem C116_parts_refuted code : relay_ready part_of_points /\
  (exists t d drawn x, example_played code [0; 1; 2; 3]%nat part_of_points = Ok t /\ Relay.place t 0 = Some (Sheet d drawn) /\
     last_drawn drawn (3, 0)%nat = Some x /\ length x = 2%nat) /\
  (exists t d drawn x, example_replayed code (relayed_outs part_of_points) = Ok t /\ Relay.place t 0 = Some (Sheet d drawn) /\
     last_drawn drawn (3, 0)%nat = Some x /\ length x = 3%nat).
Proof. exact (conj part_ready (conj (part_shown code) (part_sent code))). Qed.
Print Assumptions C116_parts_refuted.

(** Two points with a size each, in a viewport of a canvas: they meet the conditions of
    C116_elsewhere_partial, and the program draws the farther one first. *)
Example C116_case code : relay_ready sized_points /\
  fine_points an_array a_byte_each as_given dtype_text to_buffer_or_color two_classes arrays_and_colors []
    (map fst (cl_made (Session.acts two_classes arrays_and_colors new_process sized_points))) sized_points /\
  exists t d drawn a,
  example_played code [0; 1; 2; 3; 4]%nat sized_points = Ok t /\ Relay.place t 0 = Some (Sheet d drawn) /\ nth_error (d_panes d) 0 = Some a /\
  last_drawn drawn (4, 0)%nat = Some [(spot (Panes.view (d_fig d) a) (point (V3 1 0 2)), [Some [3; 0; 0; 1]%Z; Some [5; 0; 0; 1]%Z; Some [1%Z]; Some [code (Num 16)]]);
                                 (spot (Panes.view (d_fig d) a) (point (V3 0 0 1)), [Some [3; 0; 0; 1]%Z; Some [5; 0; 0; 1]%Z; Some [1%Z]; Some [code (Num 9)]])].
Proof. exact (conj sized_ready (conj sized_fine (sized_shown code))). Qed.
