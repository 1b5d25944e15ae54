(** Theorems about points whose sizes follow the zoom. *)
From Coq Require Import Reals.
From Verif Require Import Base Slice Measure Viewport ViewportSpec Camera Glm GlmSpec Vec VecSpec Render RenderSpec Trackball Picture PictureSpec PictureFacts Drag DragSpec DragFacts Live LiveSpec Sized SizedSpec SizedFacts.
Local Open Scope R_scope.

(** ** C111: points whose sizes follow the zoom *)

(** Whatever the user did, every point on the screen has the size and line width its own base
    size and the camera's zoom now ask for, where the camera puts it; nearer over farther. *)
Theorem C111_drawn (visuals : list (tables -> vis)) base line port figure argsort theta phi zdist sc c f x y w h v z d0 s0 hist s k V ps code face edge :
  sorts_numbers argsort -> ball_camera theta phi zdist sc = Ok c -> new_viewport f x y w h = Ok v ->
  nth_error visuals k = Some (sized_vis argsort V code face edge) -> holds V ps -> length base = length ps ->
  let n := length ps in fits n face -> clear n face -> fits n edge -> clear n edge ->
  launched visuals (refill base line) port figure c v z d0 = Ok s0 -> lives visuals (refill base line) port figure s0 hist = Ok s -> settled port figure hist ->
  let now := camera_steps figure c (start_of port ++ mouse_of hist) in let zoom := inR (s_zoom (l_view s)) in
  exists l items order, l_screen s = Some (s_view (l_view s), l) /\ nth_error l k = Some items /\
    visits n order /\ covers (depth_in (fun p => ahead (eye (c_model now) (c_view now) p)) ps) order /\
    map Some (picture (s_view (l_view s)) items) =
    map (fun j => match nth_error ps j, nth_error base j with
                  | Some p, Some b => Some ([spot (s_view (l_view s)) (clip (c_model now) (c_view now) (c_proj now) p)], drawn_with code zoom b line (own face j) (own edge j))
                  | _, _ => None
                  end) order.
Proof. exact (sized_end visuals base line port figure argsort theta phi zdist sc c f x y w h v z d0 s0 hist s k V ps code face edge). Qed.
Print Assumptions C111_drawn.
(** While the window keeps its size the picture grows and shrinks as a whole: places, diameters
    and line widths by the same factor. *)
Theorem C111_magnified (visuals : list (tables -> vis)) base line port figure c f x y w h v z d0 s0 h1 s1 h2 s2 : made c -> new_viewport f x y w h = Ok v -> (0 < z)%Qc ->
  launched visuals (refill base line) port figure c v z d0 = Ok s0 -> lives visuals (refill base line) port figure s0 h1 = Ok s1 -> aligned (l_view s1) ->
  lives visuals (refill base line) port figure s1 h2 = Ok s2 -> existsb is_resized h2 = false ->
  let v1 := s_view (l_view s1) in let v2 := s_view (l_view s2) in let k := inR (s_zoom (l_view s1)) / inR (s_zoom (l_view s2)) in
  0 < k /\ middle v2 = middle v1 /\ (forall p, magnified k (middle v1) (spot v1 p) (spot v2 p)) /\
  Forall2 (fun a b => diameter b = k * diameter a) (t_sizes (l_data s1)) (t_sizes (l_data s2)) /\
  Forall2 (fun a b => b = k * a) (t_widths (l_data s1)) (t_widths (l_data s2)).
Proof. exact (magnified_end visuals base line port figure c f x y w h v z d0 s0 h1 s1 h2 s2). Qed.
Print Assumptions C111_magnified.
(** The view is as wide as the zoom says while the size did not change, after any turn of the
    wheel over the viewport, and always when width and height are whole pixels and it is not
    wider than high, as in that example. *)
Theorem C111_aligned {D} (visuals : list (D -> vis)) on_render port figure c f x y w h v z d0 s0 hist s : made c -> new_viewport f x y w h = Ok v ->
  launched visuals on_render port figure c v z d0 = Ok s0 -> lives visuals on_render port figure s0 hist = Ok s -> existsb is_resized hist = false -> aligned (l_view s).
Proof. exact (aligned_unresized visuals on_render port figure c f x y w h v z d0 s0 hist s). Qed.
Print Assumptions C111_aligned.
Theorem C111_aligned_turned {D} (visuals : list (D -> vis)) on_render port figure c v z d0 s0 hist s e b s' : made c ->
  launched visuals on_render port figure c v z d0 = Ok s0 -> lives visuals on_render port figure s0 hist = Ok s ->
  Camera.m_kind e = Camera.Scroll -> inside port figure e = true -> live_step visuals on_render port figure s (Moved e b) = Ok s' -> aligned (l_view s').
Proof. exact (aligned_turned visuals on_render port figure c v z d0 s0 hist s e b s'). Qed.
Print Assumptions C111_aligned_turned.
Theorem C111_aligned_pixels {D} (visuals : list (D -> vis)) on_render port figure c f x y n m v z d0 s0 hist s : made c -> (0 < n <= m)%Z -> new_viewport f x y (CInt n) (CInt m) = Ok v ->
  launched visuals on_render port figure c v z d0 = Ok s0 -> lives visuals on_render port figure s0 hist = Ok s -> aligned (l_view s).
Proof. exact (aligned_pixels visuals on_render port figure c f x y n m v z d0 s0 hist s). Qed.
Print Assumptions C111_aligned_pixels.
(** Otherwise the first turn of the wheel after a change of size makes the picture jump: here the
    places move twice as far as the points grow. *)
Theorem C111_magnified_refuted (visuals : list (tables -> vis)) base line port figure c d0 x0 y0 : made c -> never_fail (as_many base) visuals ->
  exists f v s0 s1 s2, new_canvas (CInt 512) (CInt 512) (zq 100) = Ok f /\ new_viewport f (CFloat 0%Qc) (CFloat 0%Qc) (CFloat 1%Qc) (CFloat 1%Qc) = Ok v /\
    launched visuals (refill base line) port figure c v 1%Qc d0 = Ok s0 /\ lives visuals (refill base line) port figure s0 [Resized (zq 10, zq 5)] = Ok s1 /\
    live_step visuals (refill base line) port figure s1 (Moved (Camera.mkMouse Camera.Scroll (figure port) (Some port) x0 y0) Up) = Ok s2 /\
    let k := inR (s_zoom (l_view s1)) / inR (s_zoom (l_view s2)) in
    ~ (forall p, magnified k (middle (s_view (l_view s1))) (spot (s_view (l_view s1)) p) (spot (s_view (l_view s2)) p)) /\
    unit_x (s_view (l_view s2)) = 2 * k * unit_x (s_view (l_view s1)) /\
    t_sizes (l_data s1) = base /\ t_sizes (l_data s2) = map (fun b => k * k * b) base.
Proof. exact (jumps visuals base line port figure c d0 x0 y0). Qed.
Print Assumptions C111_magnified_refuted.
(** The example starts and goes on whatever the user does. *)
Theorem C111_goes_on (visuals : list (tables -> vis)) base line port figure c f x y w h z d0 hist : made c -> never_fail (as_many base) visuals -> (0 < z)%Qc ->
  (0 < f_dpi f)%Qc -> (0 < fst (Viewport.size f))%Qc -> (0 < snd (Viewport.size f))%Qc ->
  ViewportSpec.plain x -> ViewportSpec.plain y -> some_length w -> some_length h -> sensible hist ->
  exists v s0 s, new_viewport f x y w h = Ok v /\ launched visuals (refill base line) port figure c v z d0 = Ok s0 /\ lives visuals (refill base line) port figure s0 hist = Ok s.
Proof. exact (sized_runs visuals base line port figure c f x y w h z d0 hist). Qed.
Print Assumptions C111_goes_on.
Theorem C111_rendered argsort V ps code face edge base : holds V ps -> length base = length ps -> never_fail (as_many base) [sized_vis argsort V code face edge].
Proof. exact (sized_never_fails argsort V ps code face edge base). Qed.
Print Assumptions C111_rendered.
Example C111_case (figure : nat -> nat) code : let visuals := [sized_vis sort_nums sample code (Whole 1) (Whole 2)] in
  let up := Moved (Camera.mkMouse Camera.Scroll (figure 7%nat) (Some 7%nat) 0%Qc 0%Qc) Up in let h := [Moved (press figure 7 0%Qc 0%Qc) OtherButton; Resized (zq 10, zq 5); up] in
  settled 7 figure h /\ never_fail (as_many [25; 40]) visuals /\
  exists c f v s0 s, ball_camera 30 40 5 1 = Ok c /\ new_canvas (CInt 512) (CInt 512) (zq 100) = Ok f /\ new_viewport f (CInt 0) (CInt 0) (CInt 512) (CInt 512) = Ok v /\
    launched visuals (refill [25; 40] (1 / 4)) 7 figure c v 1%Qc (start_tables [25; 40] (1 / 4)) = Ok s0 /\ lives visuals (refill [25; 40] (1 / 4)) 7 figure s0 h = Ok s.
Proof. exact (sized_example figure code). Qed.
