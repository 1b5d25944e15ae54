(** C51, C52, C61, C62: viewports and the camera's zoom. *)
From Verif Require Import Base Measure MeasureSpec Viewport ViewportSpec ViewportFacts.
From Verif Require Image.
Local Open Scope Qc_scope.

(** ** C51 *)
(** A canvas is as large as asked, in pixels or by a measure. *)
Theorem C51_canvas_size width height dpi f w h :
  new_canvas width height dpi = Ok f ->
  (let* c := measured dpi width in number c) = Ok w -> (let* c := measured dpi height in number c) = Ok h ->
  size f = (w, h).
Proof. exact (canvas_size width height dpi f w h). Qed.
Print Assumptions C51_canvas_size.
(** No canvas without a resolution or with a negative size. *)
Theorem C51_canvas_refused width height dpi w h :
  (let* c := measured dpi width in number c) = Ok w -> (let* c := measured dpi height in number c) = Ok h ->
  (dpi = 0 -> new_canvas width height dpi = Err ZeroDivisionError) /\
  (0 < dpi -> w < 0 \/ h < 0 -> new_canvas width height dpi = Err ValueError).
Proof. exact (canvas_refused width height dpi w h). Qed.
Print Assumptions C51_canvas_refused.
Example C51_canvas_refused_case : new_canvas (CInt 512) (CInt (-3)) (zq 100) = Err ValueError /\ new_canvas (CInt 512) (CInt 3) 0 = Err ZeroDivisionError.
Proof. split; reflexivity. Qed.
(** Integers are pixels, floats fractions and transforms what they evaluate to,
    when the viewport is made and after any resizes and zooms. *)
Theorem C51_placement f x y w h v z l s :
  new_viewport f x y w h = Ok v -> run (new_scene v z) l = Ok s ->
  let now := s_view s in
  canvas_w now <> 0 -> canvas_h now <> 0 ->
  asks (p_fig now) (canvas_w now) x (left now * canvas_w now) /\
  asks (p_fig now) (canvas_h now) y (bottom now * canvas_h now) /\
  (~ zero w -> asks (p_fig now) (canvas_w now) w (wide now * canvas_w now)) /\
  (~ zero h -> asks (p_fig now) (canvas_h now) h (high now * canvas_h now)).
Proof. exact (placement f x y w h v z l s). Qed.
Print Assumptions C51_placement.
Theorem C51_same_place f x y w h x' y' w' h' :
  fst (size f) <> 0 -> snd (size f) <> 0 ->
  same_spot (fst (size f)) x x' -> same_spot (snd (size f)) y y' ->
  same_spot (fst (size f)) w w' -> same_spot (snd (size f)) h h' ->
  outcome (new_viewport f x y w h) = outcome (new_viewport f x' y' w' h').
Proof. exact (same_place f x y w h x' y' w' h'). Qed.
Print Assumptions C51_same_place.
Example C51_example_spot : same_spot (zq 512) (CInt 256) (CFloat (q 1 2)).
Proof. right. exists 256%Z. split; [reflexivity|]. f_equal. apply Qc_is_canon. vm_compute. reflexivity. Qed.
Theorem C51_within_canvas f x y w h v z l s px py pw ph :
  new_viewport f x y w h = Ok v -> run (new_scene v z) l = Ok s ->
  let now := s_view s in
  0 < canvas_w now -> 0 < canvas_h now -> ~ zero w -> ~ zero h ->
  asks (p_fig now) (canvas_w now) x px -> asks (p_fig now) (canvas_h now) y py ->
  asks (p_fig now) (canvas_w now) w pw -> asks (p_fig now) (canvas_h now) h ph ->
  0 <= px -> 0 <= pw -> px + pw <= canvas_w now -> 0 <= py -> 0 <= ph -> py + ph <= canvas_h now ->
  (0 <= left now /\ 0 <= wide now /\ left now + wide now <= 1) /\
  (0 <= bottom now /\ 0 <= high now /\ bottom now + high now <= 1).
Proof. exact (inside_canvas f x y w h v z l s px py pw ph). Qed.
Print Assumptions C51_within_canvas.
(** Coordinates and lengths of any sign of numbers never fail, provided lengths
    and canvas are larger than nothing. *)
Theorem C51_never_fails f x y w h z l :
  0 < f_dpi f -> 0 < fst (size f) -> 0 < snd (size f) ->
  plain x -> plain y -> some_length w -> some_length h -> Forall proper l ->
  exists v s, new_viewport f x y w h = Ok v /\ run (new_scene v z) l = Ok s.
Proof. exact (never_fails f x y w h z l). Qed.
Print Assumptions C51_never_fails.
Example C51_example : exists f, new_canvas (CInt 512) (CInt 256) (zq 100) = Ok f /\
  0 < f_dpi f /\ 0 < fst (size f) /\ 0 < snd (size f) /\ plain (CInt 10) /\ some_length (CFloat (q 1 2)) /\ some_length (CInt 100) /\
  Forall proper [Connect; Resize (q 1024 100, q 256 100); Scroll true Up].
Proof. eexists. split; [reflexivity|]. repeat split; repeat constructor. Qed.
(** Measures are lengths, at any size of the canvas, and so are margins. *)
Theorem C51_margins f u a b v z l s :
  u <> Meter ->
  new_viewport f (measure u a) (measure u a) (plus_measure 1 u (- (a + b))) (plus_measure 1 u (- (a + b))) = Ok v ->
  run (new_scene v z) l = Ok s ->
  let now := s_view s in
  let px n := n * pixels_per u (f_dpi f) in
  canvas_w now <> 0 -> canvas_h now <> 0 ->
  left now * canvas_w now = px a /\ canvas_w now - (left now + wide now) * canvas_w now = px b /\
  bottom now * canvas_h now = px a /\ canvas_h now - (bottom now + high now) * canvas_h now = px b.
Proof. exact (margins f u a b v z l s). Qed.
Print Assumptions C51_margins.
Example C51_example_margins : is_ok (trial (CInt 512) (CInt 512) (measure Pixel (zq 10)) (measure Pixel (zq 10))
  (plus_measure 1 Pixel (- (zq 10 + zq 10))) (plus_measure 1 Pixel (- (zq 10 + zq 10))) 1 [Resize (q 3 1, q 4 1)]) = true.
Proof. vm_compute. reflexivity. Qed.
(** A width of 0 asks for the width the canvas was made with, if that was an
    integer, for ever after. *)
Theorem C51_zero_width W H dpi f x y w h v z l s : (0 < W)%Z ->
  new_canvas (CInt W) H dpi = Ok f -> zero w -> new_viewport f x y w h = Ok v -> run (new_scene v z) l = Ok s ->
  canvas_w (s_view s) <> 0 -> wide (s_view s) * canvas_w (s_view s) = zq W.
Proof. exact (zero_width W H dpi f x y w h v z l s). Qed.
Print Assumptions C51_zero_width.
Theorem C51_zero_height W H dpi f x y w h v z l s : (0 < H)%Z ->
  new_canvas W (CInt H) dpi = Ok f -> zero h -> new_viewport f x y w h = Ok v -> run (new_scene v z) l = Ok s ->
  canvas_h (s_view s) <> 0 -> high (s_view s) * canvas_h (s_view s) = zq H.
Proof. exact (zero_height W H dpi f x y w h v z l s). Qed.
Print Assumptions C51_zero_height.
(** So a width of 0 is not a width of 0. *)
Theorem C51_zero_refuted : exists f x y w h v, new_canvas (CInt 512) (CInt 256) (zq 100) = Ok f /\
  new_viewport f x y w h = Ok v /\ canvas_w v <> 0 /\ ~ asks f (canvas_w v) w (wide v * canvas_w v).
Proof. exact zero_refuted. Qed.
Print Assumptions C51_zero_refuted.
(** On a canvas sized by a measure it is 500 canvases wide. *)
Theorem C51_zero_measured_refuted : exists f v, new_canvas (measure Inch (zq 5)) (measure Inch (zq 5)) (zq 100) = Ok f /\
  new_viewport f (CInt 0) (CInt 0) (CInt 0) (CInt 0) = Ok v /\ canvas_w v = zq 500 /\ wide v = zq 500.
Proof. exact zero_measured_refuted. Qed.
Print Assumptions C51_zero_measured_refuted.
(** It fills the canvas when made and half of it once the canvas is twice as wide. *)
Theorem C51_zero_resized_refuted : exists f v s, new_canvas (CInt 512) (CInt 256) (zq 100) = Ok f /\
  new_viewport f (CInt 0) (CInt 0) (CInt 0) (CInt 0) = Ok v /\ wide v = 1 /\
  run (new_scene v 1) [Resize (q 1024 100, q 256 100)] = Ok s /\ wide (s_view s) = q 1 2.
Proof. exact zero_resized_refuted. Qed.
Print Assumptions C51_zero_resized_refuted.

(** ** C52 *)
Theorem C52_within_limits v z l s : within_limits z -> run (new_scene v z) l = Ok s -> within_limits (s_zoom s).
Proof. exact (zoom_within v z l s). Qed.
Print Assumptions C52_within_limits.
Example C52_example : within_limits 1 /\
  is_ok (trial (CInt 512) (CInt 256) (CInt 0) (CInt 0) (CInt 512) (CInt 256) 1 [Connect; Scroll true Up; Scroll false Up; Scroll true Down]) = true.
Proof. repeat split; try (now vm_compute); intros K; now vm_compute in K. Qed.
(** Whatever the zoom was, turning one way does not pass the limit on that side. *)
Theorem C52_one_side z : zoom_min <= zoomed z Up /\ zoomed z Down <= zoom_max.
Proof. exact (conj (up_above z) (down_below z)). Qed.
Print Assumptions C52_one_side.
(** Up zooms in and down zooms out, by a tenth until the limit; other buttons do nothing. *)
Theorem C52_directions z : (zoom_min < z -> zoomed z Up < z) /\ (0 < z -> z < zoom_max -> z < zoomed z Down) /\
  zoomed z OtherButton = z /\
  (zoom_min <= c_in * z -> zoomed z Up = c_in * z) /\ (c_out * z <= zoom_max -> zoomed z Down = c_out * z) /\
  (tenth_off c_in (q 9 10) /\ tenth_off c_out (q 11 10)).
Proof. exact (directions z). Qed.
Print Assumptions C52_directions.
(** Forty turns up or forty-five down reach the limit exactly. *)
Theorem C52_reaches_limits s s' : s_connected s = true -> within_limits (s_zoom s) ->
  (run s (repeat (Scroll true Up) 40) = Ok s' -> s_zoom s' = zoom_min) /\
  (run s (repeat (Scroll true Down) 45) = Ok s' -> s_zoom s' = zoom_max).
Proof. exact (reaches s s'). Qed.
Print Assumptions C52_reaches_limits.
(** Only turning the wheel over the axes changes the zoom. *)
Theorem C52_only_scrolls s e s' : step s e = Ok s' ->
  s_zoom s' = match e with
              | Scroll true b => if s_connected s then zoomed (s_zoom s) b else s_zoom s
              | _ => s_zoom s
              end /\
  s_connected s' = match e with Connect => true | _ => s_connected s end.
Proof. exact (step_zoom s e s'). Qed.
Print Assumptions C52_only_scrolls.
(** Connecting and scrolling keep the viewport's place and its aspect. *)
Theorem C52_aspect f x y w h v z l0 s l s' : 0 < z ->
  new_viewport f x y w h = Ok v -> run (new_scene v z) l0 = Ok s ->
  run s l = Ok s' -> forallb (fun e => negb (is_resize e)) l = true ->
  p_pos (s_view s') = p_pos (s_view s) /\ p_fig (s_view s') = p_fig (s_view s) /\
  span_x (s_view s') * span_y (s_view s) = span_x (s_view s) * span_y (s_view s').
Proof. exact (scroll_keeps_aspect f x y w h v z l0 s l s'). Qed.
Print Assumptions C52_aspect.
Theorem C52_centred f x y w h v z l s :
  new_viewport f x y w h = Ok v -> run (new_scene v z) l = Ok s -> centred (s_view s).
Proof. exact (always_centred f x y w h v z l s). Qed.
Print Assumptions C52_centred.
(** A camera made with a zoom outside the limits stays outside after scrolling. *)
Theorem C52_within_limits_refuted : exists f v s, new_canvas (CInt 512) (CInt 256) (zq 100) = Ok f /\
  new_viewport f (CInt 0) (CInt 0) (CInt 512) (CInt 256) = Ok v /\
  run (new_scene v (zq 10)) [Connect; Scroll true Up] = Ok s /\ zoom_max < s_zoom s.
Proof. exact zoom_refuted. Qed.
Print Assumptions C52_within_limits_refuted.
Theorem C52_below_limits_refuted : exists f v s, new_canvas (CInt 512) (CInt 256) (zq 100) = Ok f /\
  new_viewport f (CInt 0) (CInt 0) (CInt 512) (CInt 256) = Ok v /\
  run (new_scene v (q 1 100)) [Connect; Scroll true Down] = Ok s /\ s_zoom s < zoom_min.
Proof. exact zoom_low_refuted. Qed.
Print Assumptions C52_below_limits_refuted.

(** ** C61: one unit is as long in both directions *)
(** From the first resize on, whatever follows. *)
Theorem C61_square_units f x y w h v z l s : 0 < z ->
  new_viewport f x y w h = Ok v -> run (new_scene v z) l = Ok s ->
  existsb is_resize l = true -> positive (s_view s) -> square_units (s_view s).
Proof. exact (units_square f x y w h v z l s). Qed.
Print Assumptions C61_square_units.
(** From the start for viewports as wide as high. *)
Theorem C61_square_viewport f x y w h v z l s : 0 < z ->
  new_viewport f x y w h = Ok v -> wide v * canvas_w v = high v * canvas_h v ->
  run (new_scene v z) l = Ok s -> positive (s_view s) -> square_units (s_view s).
Proof. exact (square_stays f x y w h v z l s). Qed.
Print Assumptions C61_square_viewport.
(** A resize makes the shorter side show as much as the zoom says. *)
Theorem C61_shorter_side v i v' : resize v i = Ok v' -> 0 < p_zoom v -> positive v' ->
  (landscape v' -> p_ylim v' = (- p_zoom v, p_zoom v)) /\ (~ landscape v' -> p_xlim v' = (- p_zoom v, p_zoom v)).
Proof. exact (shorter_side v i v'). Qed.
Print Assumptions C61_shorter_side.
Example C61_example : test (trial (CInt 512) (CInt 256) (CInt 0) (CInt 0) (CFloat 1) (CFloat 1) 1
    [Connect; Resize (q 300 100, q 400 100); Scroll true Up])
  (fun s => let v := s_view s in qlt 0 (wide v * canvas_w v) && qlt 0 (high v * canvas_h v) && qlt (span_x v) (span_y v)) = true.
Proof. vm_compute. reflexivity. Qed.
(** Not when made: a viewport twice as wide as high shows as much in both
    directions. *)
Theorem C61_new_viewport_refuted : exists f v, new_canvas (CInt 512) (CInt 256) (zq 100) = Ok f /\
  new_viewport f (CInt 0) (CInt 0) (CInt 512) (CInt 256) = Ok v /\ positive v /\ ~ square_units v.
Proof. exact fresh_refuted. Qed.
Print Assumptions C61_new_viewport_refuted.

(** ** C62: a resize that changes no size changes nothing *)
Theorem C62_resize_twice s i s1 : step s (Resize i) = Ok s1 -> exists s2, step s1 (Resize i) = Ok s2 /\
  seen (s_view s2) = seen (s_view s1) /\ s_zoom s2 = s_zoom s1.
Proof. exact (resize_twice s i s1). Qed.
Print Assumptions C62_resize_twice.
(** Also after zooming, for a viewport not wider than high that was resized once. *)
Theorem C62_resize_same f x y w h v z l s : 0 < z ->
  new_viewport f x y w h = Ok v -> run (new_scene v z) l = Ok s ->
  existsb is_resize l = true -> positive (s_view s) -> ~ landscape (s_view s) ->
  exists s', step s (Resize (f_inches (p_fig (s_view s)))) = Ok s' /\ seen (s_view s') = seen (s_view s).
Proof. exact (nothing_changes f x y w h v z l s). Qed.
Print Assumptions C62_resize_same.
Example C62_example : test (trial (CInt 512) (CInt 256) (CInt 0) (CInt 0) (CFloat 1) (CFloat 1) 1
    [Connect; Resize (q 300 100, q 400 100); Scroll true Up])
  (fun s => let v := s_view s in qlt 0 (wide v * canvas_w v) && qlt 0 (high v * canvas_h v)
    && negb (qlt (high v * canvas_h v) (wide v * canvas_w v))) = true.
Proof. vm_compute. reflexivity. Qed.
(** A wider one shows four times as much after zooming in and such a resize. *)
Theorem C62_landscape_refuted : exists f v s s', new_canvas (CInt 512) (CInt 256) (zq 100) = Ok f /\
  new_viewport f (CInt 0) (CInt 0) (CFloat 1) (CFloat 1) = Ok v /\
  run (new_scene v 1) [Resize (q 1024 100, q 256 100); Connect; Scroll true Up] = Ok s /\
  step s (Resize (q 1024 100, q 256 100)) = Ok s' /\ span_x (s_view s') = zq 4 * span_x (s_view s).
Proof. exact same_size_refuted. Qed.
Print Assumptions C62_landscape_refuted.
Theorem C62_new_viewport_refuted : exists f v s, new_canvas (CInt 512) (CInt 256) (zq 100) = Ok f /\
  new_viewport f (CInt 0) (CInt 0) (CInt 512) (CInt 256) = Ok v /\
  step (new_scene v 1) (Resize (f_inches f)) = Ok s /\ span_x (s_view s) = zq 2 * span_x v.
Proof. exact fresh_resize_refuted. Qed.
Print Assumptions C62_new_viewport_refuted.

(** C52.  The factors of the zoom are the floating-point numbers nearest to 0.9, 1.1 and
    0.1 (C90_rounding). *)
Theorem C52_factors : (let '(a, b) := Image.fl 9 10 in c_in = zq a / zq b) /\ (let '(a, b) := Image.fl 11 10 in c_out = zq a / zq b) /\
  (let '(a, b) := Image.fl 1 10 in zoom_min = zq a / zq b) /\ zoom_max = zq 5.
Proof. exact zoom_factors. Qed.
Print Assumptions C52_factors.
