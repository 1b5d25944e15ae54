(** Theorems about examples running with their camera. *)
From Coq Require Import Reals Lra.
From Verif Require Import Base Slice Measure Viewport ViewportSpec Camera Glm GlmSpec Vec VecSpec Render RenderSpec Trackball Picture PictureSpec PictureFacts Outline OutlineSpec Drag DragSpec DragFacts
  Live LiveSpec LiveFacts.

(** ** C109: what is on the screen while an example runs *)

Section Live.
Context {D : Type}.
Variables (visuals : list (D -> vis)) (on_render : Qc -> mat -> mat -> mat -> D -> res D) (port : nat) (figure : nat -> nat).
Notation launched := (launched visuals on_render port figure). Notation lives := (lives visuals on_render port figure). Notation live_step := (live_step visuals on_render port figure).

(** The camera and the viewport are what the mouse and the window made of them. *)
Theorem C109_parts c v z d0 s0 h s : made c -> launched c v z d0 = Ok s0 -> lives s0 h = Ok s ->
  l_cam s = camera_steps figure c (start_of port ++ mouse_of h) /\
  Viewport.run (new_scene v z) ([Viewport.Connect; Viewport.Connect] ++ scrolls_of port figure h) = Ok (l_view s).
Proof. exact (parts visuals on_render port figure c v z d0 s0 h s). Qed.
(** The screen shows every visual as the camera and the viewport are now, unless the window
    changed size and since then nothing was clicked and matplotlib did not draw by itself. *)
Theorem C109_screen c v z d0 s0 h s : made c -> launched c v z d0 = Ok s0 -> lives s0 h = Ok s -> settled port figure h -> current visuals s.
Proof. exact (screen_current visuals on_render port figure c v z d0 s0 h s). Qed.
Theorem C109_each c v z d0 s0 h s k f : made c -> launched c v z d0 = Ok s0 -> lives s0 h = Ok s -> settled port figure h -> nth_error visuals k = Some f ->
  let now := camera_steps figure c (start_of port ++ mouse_of h) in
  exists l items, l_screen s = Some (s_view (l_view s), l) /\ nth_error l k = Some items /\ f (l_data s) (s_view (l_view s)) (c_model now) (c_view now) (c_proj now) = Ok items.
Proof. exact (each visuals on_render port figure c v z d0 s0 h s k f). Qed.
(** The data on the screen are what the example's onRender made for the camera as it is now. *)
Theorem C109_told c v z d0 s0 h s : made c -> launched c v z d0 = Ok s0 -> lives s0 h = Ok s -> told on_render s.
Proof. exact (data_told visuals on_render port figure c v z d0 s0 h s). Qed.
(** Right after a change of size it shows the old picture stretched over the new window, *)
Theorem C109_resized c v z d0 s0 h s i s' : made c -> launched c v z d0 = Ok s0 -> lives s0 h = Ok s -> live_step s (Resized i) = Ok s' ->
  exists v' l, render_all visuals (l_data s) (s_view (l_view s)) (c_model (l_cam s)) (c_view (l_cam s)) (c_proj (l_cam s)) = Ok l /\ l_screen s' = Some (v', l) /\
    ViewportSpec.seen v' = ViewportSpec.seen (s_view (l_view s)) /\ f_inches (p_fig v') = i /\ f_dpi (p_fig v') = f_dpi (p_fig (s_view (l_view s))).
Proof. exact (resized_whole visuals on_render port figure c v z d0 s0 h s i s'). Qed.
(** which is not what the viewport is by then. *)
Theorem C109_resized_refuted sound c d0 : made c -> never_raises sound on_render 1%Qc -> never_fail sound visuals ->
  exists f v s0 s, new_canvas (CInt 512) (CInt 512) (zq 100) = Ok f /\ new_viewport f (CFloat 0%Qc) (CFloat 0%Qc) (CFloat 1%Qc) (CFloat 1%Qc) = Ok v /\
    launched c v 1%Qc d0 = Ok s0 /\ lives s0 [Resized (zq 10, zq 5)] = Ok s /\ ~ current visuals s /\
    exists v' l, l_screen s = Some (v', l) /\ span_x v' <> span_x (s_view (l_view s)).
Proof. exact (stale sound visuals on_render port figure c d0). Qed.
(** What happens outside the viewport or in other windows changes nothing. *)
Theorem C109_outside c v z d0 s0 h s e b : made c -> launched c v z d0 = Ok s0 -> lives s0 h = Ok s ->
  Camera.m_figure e <> figure port \/ (Camera.m_kind e <> Camera.Release /\ inside port figure e = false) -> live_step s (Moved e b) = Ok s.
Proof. exact (outside_whole visuals on_render port figure c v z d0 s0 h s e b). Qed.
(** The example starts and goes on whatever the user does. *)
Theorem C109_goes_on sound c f x y w h z d0 hist : made c -> never_raises sound on_render z -> never_fail sound visuals -> (0 < f_dpi f)%Qc -> (0 < fst (Viewport.size f))%Qc -> (0 < snd (Viewport.size f))%Qc ->
  ViewportSpec.plain x -> ViewportSpec.plain y -> some_length w -> some_length h -> sensible hist ->
  exists v s0 s, new_viewport f x y w h = Ok v /\ launched c v z d0 = Ok s0 /\ lives s0 hist = Ok s.
Proof. exact (runs visuals on_render port figure sound c f x y w h z d0 hist). Qed.
(** So points are on the screen where the camera, as it was turned, and the viewport, as it
    was zoomed and resized, put them; the nearer cover the farther. *)
Theorem C109_points argsort theta phi zdist sc c f x y w h v z d0 s0 hist s k g V ps face edge width size :
  sorts_numbers argsort -> ball_camera theta phi zdist sc = Ok c -> new_viewport f x y w h = Ok v ->
  nth_error visuals k = Some g -> g (l_data s) = points_vis argsort V face edge width size -> holds V ps ->
  let n := length ps in
  fits n face -> clear n face -> fits n edge -> clear n edge -> fits n width -> clear n width -> fits_size n size ->
  launched c v z d0 = Ok s0 -> lives s0 hist = Ok s -> settled port figure hist ->
  let now := camera_steps figure c (start_of port ++ mouse_of hist) in
  exists port' l items order, l_screen s = Some (port', l) /\ nth_error l k = Some items /\
    Viewport.run (new_scene v z) ([Viewport.Connect; Viewport.Connect] ++ scrolls_of port figure hist) = Ok (l_view s) /\ port' = s_view (l_view s) /\
    visits n order /\ covers (depth_in (fun p => ahead (eye (c_model now) (c_view now) p)) ps) order /\
    map Some (picture port' items) = map (fun j => option_map (fun p => ([spot port' (clip (c_model now) (c_view now) (c_proj now) p)], [own face j; own edge j; own width j; own size j]))
                                                              (nth_error ps j)) order.
Proof. exact (points_end visuals on_render port figure argsort theta phi zdist sc c f x y w h v z d0 s0 hist s k g V ps face edge width size). Qed.
(** While the window keeps its size, what is within the ball the angle of view holds stays in
    the viewport, if that does not zoom in. *)
Theorem C109_in_view theta phi zdist sc c f x y w h v z d0 s0 hist s p : ball_camera theta phi zdist sc = Ok c -> new_viewport f x y w h = Ok v ->
  launched c v z d0 = Ok s0 -> lives s0 hist = Ok s -> existsb is_resized hist = false ->
  (0 < zdist)%R -> (Rabs sc * norm p <= zdist * sin half_angle)%R -> (1 <= s_zoom (l_view s))%Qc -> ViewportSpec.positive (s_view (l_view s)) ->
  let now := camera_steps figure c (start_of port ++ mouse_of hist) in
  in_viewport (s_view (l_view s)) (spot (s_view (l_view s)) (clip (c_model now) (c_view now) (c_proj now) p)).
Proof. exact (stays_in_view visuals on_render port figure theta phi zdist sc c f x y w h v z d0 s0 hist s p). Qed.
End Live.
Print Assumptions C109_parts.
Print Assumptions C109_screen.
Print Assumptions C109_each.
Print Assumptions C109_told.
Print Assumptions C109_resized.
Print Assumptions C109_resized_refuted.
Print Assumptions C109_outside.
Print Assumptions C109_goes_on.
Print Assumptions C109_points.
Print Assumptions C109_in_view.
(** Cameras are made so. *)
Theorem C109_cameras c : (exists theta phi zdist sc, ball_camera theta phi zdist sc = Ok c) \/ flat_camera = Ok c -> made c.
Proof. exact (cameras_made c). Qed.
Print Assumptions C109_cameras.
(** The pictures of the visuals are those of C104 and C107. *)
Theorem C109_pictures argsort v V model view proj :
  (forall face edge width size, (let* l := points_vis argsort V face edge width size v model view proj in Ok (picture v l)) =
    (let* out := Picture.points argsort v V model view proj face edge width size in Ok (map (fun '(x, a) => ([x], a)) out))) /\
  (forall color width, (let* l := segments_vis argsort V color width v model view proj in Ok (picture v l)) = Outline.segments argsort v V model view proj color width) /\
  (forall i attrs, (let* l := outlines_vis argsort V i attrs v model view proj in Ok (picture v l)) = Outline.outlines argsort v V model view proj i attrs).
Proof. exact (pictures argsort v V model view proj). Qed.
Print Assumptions C109_pictures.
(** They can be rendered with any matrices. *)
Theorem C109_rendered {D} (sound : D -> Prop) argsort V ps : sorts_numbers argsort -> holds V ps ->
  (forall face edge width size, fits_size (length ps) size -> never_fail sound [fun _ : D => points_vis argsort V face edge width size]) /\
  (forall gs color width, in_pairs gs ps -> never_fail sound [fun _ : D => segments_vis argsort V color width]) /\
  (forall i gs attrs, group ps i = Ok gs -> Forall (fun a => fits (length gs) a /\ clear_path (length gs) (length ps) a) attrs -> never_fail sound [fun _ : D => outlines_vis argsort V i attrs]).
Proof. exact (all_rendered sound argsort V ps). Qed.
Print Assumptions C109_rendered.
Example C109_case (figure : nat -> nat) : let visuals := [fun _ : Datatypes.unit => points_vis sort_nums sample (Whole 1) (Whole 2) (Whole 3) (Whole 4)] in
  let h := [Moved (press figure 7 0%Qc 0%Qc) OtherButton; Moved (motion figure 7 tenth 0%Qc) OtherButton; Resized (zq 10, zq 5);
            Moved (Camera.mkMouse Camera.Scroll (figure 7%nat) (Some 7%nat) 0%Qc 0%Qc) Up] in
  settled 7 figure h /\ never_fail (fun _ => True) visuals /\ sensible h /\
  exists c f v s0 s, ball_camera 30 40 5 1 = Ok c /\ made c /\ new_canvas (CInt 512) (CInt 256) (zq 100) = Ok f /\ new_viewport f (CInt 0) (CInt 0) (CInt 512) (CInt 256) = Ok v /\
    launched visuals no_render 7 figure c v 1%Qc tt = Ok s0 /\ lives visuals no_render 7 figure s0 h = Ok s.
Proof. exact (live_example figure). Qed.
(** The viewport after that example has turned the wheel down without changing size. *)
Example C109_in_view_case : match (let* f := new_canvas (CInt 512) (CInt 256) (zq 100) in let* v := new_viewport f (CInt 0) (CInt 0) (CInt 512) (CInt 256) in
    Viewport.run (new_scene v 1%Qc) [Viewport.Connect; Viewport.Connect; Viewport.Scroll true Down]) with
  | Ok t => let v := s_view t in qle 1%Qc (s_zoom t) && qlt 0%Qc (wide v * canvas_w v)%Qc && qlt 0%Qc (high v * canvas_h v)%Qc = true
  | Err _ => False end.
Proof. vm_compute. reflexivity. Qed.
