(** C114: several viewports on one canvas. *)
From Verif Require Import Base Measure Viewport ViewportSpec ViewportFacts Panes PanesSpec PanesFacts.
Local Open Scope Qc_scope.

(** The canvas has the size of the last resize, at the resolution it was made with. *)
Theorem C114_size {C} f z (l : list (act C)) d : acts (bare f z) l = Ok d ->
  size (d_fig d) = (fst (inches_after (f_inches f) l) * f_dpi f, snd (inches_after (f_inches f) l) * f_dpi f).
Proof. exact (size_now f z l d). Qed.
Print Assumptions C114_size.
(** After any program, resizes, connections and turns of the wheel, at a point is the
    viewport made last of those that were asked to cover it, and its colour is seen. *)
Theorem C114_at_point {C} f z (l : list (act C)) d x y : acts (bare f z) l = Ok d -> Forall not_zero (made l) ->
  fst (size (d_fig d)) <> 0 -> snd (size (d_fig d)) <> 0 ->
  (forall i, at_point d x y = Some i <-> on_top (d_fig d) (made l) x y i) /\
  (at_point d x y = None <-> forall m, In m (made l) -> ~ covers (d_fig d) m x y) /\
  (forall c, color_at d x y = Some c <->
     exists i m, on_top (d_fig d) (made l) x y i /\ nth_error (made l) i = Some m /\ color_of m = c).
Proof. exact (fun A N W H => conj (fun i => at_point_top f z l d x y i A N W H) (conj (nothing_at f z l d x y A N W H) (fun c => color_top f z l d x y c A N W H))). Qed.
Print Assumptions C114_at_point.
Example C114_at_point_case : exists f d, new_canvas (CInt 512) (CInt 512) (zq 100) = Ok f /\
  acts (bare f (fun _ => 1)) (sidebar ++ [Sized (q 300 100, q 200 100)]) = Ok d /\ color_at d (zq 150) (zq 10) = Some Green.
Proof. apply from_outcome. vm_compute. reflexivity. Qed.

(** Floats are shares of the side, integers are pixels, measures are lengths. *)
Theorem C114_edges dpi : (forall a, means dpi (CFloat a) (a, 0)) /\ (forall n, means dpi (CInt n) (0, zq n)) /\
  (forall u n, u <> Meter -> means dpi (measure u n) (0, n * pixels_per u dpi)) /\
  (forall a u n, u <> Meter -> means dpi (plus_measure a u n) (a, n * pixels_per u dpi)).
Proof. exact (conj (means_float dpi) (conj (means_int dpi) (conj (means_measure dpi) (means_plus dpi)))). Qed.
Print Assumptions C114_edges.
(** Viewports made as the cells of a grid: at each point the one of its column and row. *)
Theorem C114_grid {C} f z (l : list (act C)) d xs ys order x y k : acts (bare f z) l = Ok d ->
  is_grid (f_dpi f) xs ys order (made l) -> Forall not_zero (made l) ->
  let W := fst (size (d_fig d)) in let H := snd (size (d_fig d)) in
  W <> 0 -> H <> 0 -> rising (map (at_side W) xs) -> rising (map (at_side H) ys) ->
  (at_point d x y = Some k <->
   exists i j, nth_error order k = Some (i, j) /\ in_band W xs i x /\ in_band H ys j y) /\
  (at_point d x y = Some k -> forall n m, nth_error (made l) n = Some m -> covers (d_fig d) m x y -> n = k).
Proof. exact (grid_cell f z l d xs ys order x y k). Qed.
Print Assumptions C114_grid.
(** They tile the canvas, without gap or overlap, at every size at which the edges go
    from one side to the other. *)
Theorem C114_tiles {C} f z (l : list (act C)) d xs ys order x y e1 e2 g1 g2 : acts (bare f z) l = Ok d ->
  is_grid (f_dpi f) xs ys order (made l) -> Forall not_zero (made l) ->
  let W := fst (size (d_fig d)) in let H := snd (size (d_fig d)) in
  rising (map (at_side W) xs) -> rising (map (at_side H) ys) ->
  nth_error xs 0 = Some e1 -> nth_error xs (pred (length xs)) = Some e2 -> at_side W e1 = 0 -> at_side W e2 = W ->
  nth_error ys 0 = Some g1 -> nth_error ys (pred (length ys)) = Some g2 -> at_side H g1 = 0 -> at_side H g2 = H ->
  0 <= x -> x < W -> 0 <= y -> y < H ->
  exists k, at_point d x y = Some k /\ forall n m, nth_error (made l) n = Some m -> (covers (d_fig d) m x y <-> n = k).
Proof. exact (grid_tiles f z l d xs ys order x y e1 e2 g1 g2). Qed.
Print Assumptions C114_tiles.
(** Beyond their edges is nothing. *)
Theorem C114_outside {C} f z (l : list (act C)) d xs ys order x y e1 e2 g1 g2 : acts (bare f z) l = Ok d ->
  is_grid (f_dpi f) xs ys order (made l) -> Forall not_zero (made l) ->
  let W := fst (size (d_fig d)) in let H := snd (size (d_fig d)) in
  W <> 0 -> H <> 0 -> rising (map (at_side W) xs) -> rising (map (at_side H) ys) ->
  nth_error xs 0 = Some e1 -> nth_error xs (pred (length xs)) = Some e2 ->
  nth_error ys 0 = Some g1 -> nth_error ys (pred (length ys)) = Some g2 ->
  x < at_side W e1 \/ at_side W e2 <= x \/ y < at_side H g1 \/ at_side H g2 <= y ->
  at_point d x y = None.
Proof. exact (grid_none f z l d xs ys order x y e1 e2 g1 g2). Qed.
Print Assumptions C114_outside.
(** A bar of fixed width beside the rest is such a grid, and tiles every canvas at
    least as wide as the bar. *)
Example C114_sidebar dpi : is_grid dpi bar_edges ends [(0, 0); (1, 0)]%nat (made sidebar) /\ Forall not_zero (made sidebar) /\
  (forall s, zq 100 <= s -> rising (map (at_side s) bar_edges) /\ rising (map (at_side s) ends) /\
     at_side s (0, 0) = 0 /\ at_side s (1, 0) = s).
Proof. exact (sidebar_grid dpi). Qed.

(** Turning the wheel at a point zooms the cameras connected to the viewport seen
    there and no other; no other viewport changes, and none moves. *)
Theorem C114_wheel {C} f z (l : list (act C)) d x y b d' : acts (bare f z) l = Ok d -> Forall not_zero (made l) ->
  fst (size (d_fig d)) <> 0 -> snd (size (d_fig d)) <> 0 -> act_on d (Wheel x y b) = Ok d' ->
  (forall k i, connected_to k l = Some i -> on_top (d_fig d) (made l) x y i -> d_zoom d' k = zoomed (d_zoom d k) b) /\
  (forall k, (forall i, connected_to k l = Some i -> ~ on_top (d_fig d) (made l) x y i) -> d_zoom d' k = d_zoom d k) /\
  (forall j, ~ on_top (d_fig d) (made l) x y j -> nth_error (d_panes d') j = nth_error (d_panes d) j) /\
  (forall x' y', at_point d' x' y' = at_point d x' y') /\
  (forall k i, connected_to k l = Some i -> on_top (d_fig d) (made l) x y i ->
     (forall k', connected_to k' l = Some i -> k' = k) ->
     exists a v, nth_error (d_panes d) i = Some a /\ nth_error (d_panes d') i = Some (pane_of v (a_color a)) /\
       show_zoom (view (d_fig d) a) (zoomed (d_zoom d k) b) = Ok v).
Proof. exact (wheel_zooms f z l d x y b d'). Qed.
Print Assumptions C114_wheel.
Example C114_wheel_case : exists f d d', new_canvas (CInt 512) (CInt 512) (zq 100) = Ok f /\
  acts (bare f (fun _ => 1)) (multiple ++ [Join 0 0; Join 1 3]) = Ok d /\ act_on d (Wheel (zq 300) (zq 300) Up) = Ok d' /\
  on_top (d_fig d) (made (multiple ++ [Join 0 0; Join 1 3])) (zq 300) (zq 300) 3 /\ d_zoom d' 0%nat = 1 /\ d_zoom d' 1%nat = c_in.
Proof. exact wheel_case. Qed.
(** What each step leaves alone: only a resize moves viewports, and extents and
    colours are for ever. *)
Theorem C114_untouched {C} f z (l : list (act C)) d a d' i p : acts (bare f z) l = Ok d -> act_on d a = Ok d' ->
  nth_error (d_panes d) i = Some p ->
  (~ touches d a i -> nth_error (d_panes d') i = Some p) /\
  (is_sized a = false -> exists p', nth_error (d_panes d') i = Some p' /\ a_pos p' = a_pos p) /\
  (exists p', nth_error (d_panes d') i = Some p' /\ a_extent p' = a_extent p /\ a_color p' = a_color p).
Proof. exact (untouched f z l d a d' i p). Qed.
Print Assumptions C114_untouched.
(** Programs over numbers do not fail. *)
Theorem C114_never_fails {C} f z (l : list (act C)) : 0 < f_dpi f -> 0 < fst (size f) -> 0 < snd (size f) -> sensible 0 [] l ->
  exists d, acts (bare f z) l = Ok d.
Proof. exact (no_errors f z l). Qed.
Print Assumptions C114_never_fails.
Example C114_never_fails_case : sensible 0 [] (multiple ++ [Join 0 0; Join 1 3; Wheel 1 1 Up; Sized (q 3 1, q 4 1); Leave 0]).
Proof. cbn. repeat (split; [first [exact Logic.I | (vm_compute; reflexivity) | lia | auto]|]). exact Logic.I. Qed.
(** From a resize on, one unit is as long in both directions in every viewport. *)
Theorem C114_square {C} f z (l1 : list (act C)) s l2 d : acts (bare f z) (l1 ++ Sized s :: l2) = Ok d -> (forall k, 0 < z k) ->
  existsb is_new l2 = false ->
  forall i a, nth_error (d_panes d) i = Some a -> positive (view (d_fig d) a) -> square_units (view (d_fig d) a).
Proof. exact (square_after f z l1 s l2 d). Qed.
Print Assumptions C114_square.

(** examples/viewport-multiple.py: whatever the user does, the canvas is red, green,
    blue and yellow. *)
Theorem C114_multiple z l : existsb is_new l = false -> sensible 4 [] l ->
  exists f d, new_canvas (CInt 512) (CInt 512) (zq 100) = Ok f /\ acts (bare f z) (multiple ++ l) = Ok d /\
  let W := fst (size (d_fig d)) in let H := snd (size (d_fig d)) in
  0 < W /\ 0 < H /\
  forall x y, 0 <= x -> x < W -> 0 <= y -> y < H ->
    color_at d x y = Some (if qlt x (half * W) then if qlt y (half * H) then Red else Green
                           else if qlt y (half * H) then Blue else Yellow).
Proof. exact (multiple_always z l). Qed.
Print Assumptions C114_multiple.
Example C114_multiple_case : sensible 4 [] ([Sized (q 3 1, q 4 1); Join 5 2; Wheel 1 1 Down] : list (act hue)).
Proof. cbn. repeat (split; [first [exact Logic.I | (vm_compute; reflexivity) | lia]|]). exact Logic.I. Qed.
(** The other layout, in pixels, leaves a gap when the window grows. *)
Theorem C114_pixels_refuted : exists f d, new_canvas (CInt 512) (CInt 512) (zq 100) = Ok f /\
  acts (bare f (fun _ => 1)) (multiple_pixels ++ [Sized (q 1024 100, q 1024 100)]) = Ok d /\
  color_at d (zq 600) (zq 600) = None.
Proof. exact pixels_gap. Qed.
Print Assumptions C114_pixels_refuted.
(** Pixels beside shares overlap when it shrinks: the left edge of the half is hidden. *)
Theorem C114_mixed_refuted : exists f d d', new_canvas (CInt 512) (CInt 512) (zq 100) = Ok f /\
  acts (bare f (fun _ => 1)) strip_and_half = Ok d /\ acts (bare f (fun _ => 1)) (strip_and_half ++ [Sized (q 300 100, q 300 100)]) = Ok d' /\
  color_at d (half * zq 512) (zq 10) = Some Green /\ color_at d' (half * zq 300) (zq 10) = Some Red.
Proof. exact strip_overlaps. Qed.
Print Assumptions C114_mixed_refuted.
