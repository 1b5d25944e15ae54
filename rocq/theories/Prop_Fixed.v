(** Theorems about lengths in units on the screen. *)
From Coq Require Import Reals.
From Verif Require Import Base Slice Measure Viewport ViewportSpec Camera Glm GlmSpec Vec VecSpec Render RenderSpec Trackball Picture PictureSpec PictureFacts Outline OutlineSpec Drag DragSpec DragFacts Live LiveSpec
  Fixed FixedSpec FixedFacts.
Local Open Scope R_scope.

(** ** C112: lengths in units on the screen *)

Section Fixed.
Context {D : Type}.
Variables (visuals : list (D -> vis)) (on_render : Qc -> mat -> mat -> mat -> D -> res D) (port : nat) (figure : nat -> nat).
Notation launched := (launched visuals on_render port figure). Notation lives := (lives visuals on_render port figure).
(** With the flat camera, a point at so many units is drawn that many units from the middle of the
    viewport, however the user zoomed and resized. *)
Theorem C112_points c f x y w h v z d0 s0 hist s k g u argsort qs face edge width size : sorts_numbers argsort -> flat_camera = Ok c -> right_length u -> new_viewport f x y w h = Ok v ->
  nth_error visuals k = Some g -> g (l_data s) = in_units u (triples qs) (fun V => points_vis argsort V face edge width size) ->
  let n := length qs in fits n face -> clear n face -> fits n edge -> clear n edge -> fits n width -> clear n width -> fits_size n size ->
  launched c v z d0 = Ok s0 -> lives s0 hist = Ok s -> settled port figure hist ->
  let view := s_view (l_view s) in
  exists l items order, l_screen s = Some (view, l) /\ nth_error l k = Some items /\ visits n order /\
    map Some (picture view items) = map (fun j => option_map (fun q => ([fixed u view q], [own face j; own edge j; own width j; own size j])) (nth_error qs j)) order.
Proof. exact (points_fixed visuals on_render port figure c f x y w h v z d0 s0 hist s k g u argsort qs face edge width size). Qed.
(** So are both ends of segments. *)
Theorem C112_segments c f x y w h v z d0 s0 hist s k g u argsort gs color width : sorts_numbers argsort -> flat_camera = Ok c -> right_length u -> new_viewport f x y w h = Ok v ->
  nth_error visuals k = Some g -> Forall (fun e => length e = 2%nat) gs -> g (l_data s) = in_units u (triples (concat gs)) (fun V => segments_vis argsort V color width) ->
  let n := length gs in fits n color -> clear n color -> fits n width -> clear n width ->
  launched c v z d0 = Ok s0 -> lives s0 hist = Ok s -> settled port figure hist ->
  let view := s_view (l_view s) in
  exists l items order, l_screen s = Some (view, l) /\ nth_error l k = Some items /\ visits n order /\
    map Some (picture view items) = map (fun j => option_map (fun e => (map (fixed u view) e, [own color j; own width j])) (nth_error gs j)) order.
Proof. exact (segments_fixed visuals on_render port figure c f x y w h v z d0 s0 hist s k g u argsort gs color width). Qed.
(** Meters are drawn ten times as far. *)
Theorem C112_meter_refuted c f x y w h v z d0 s0 hist s k g argsort qs face edge width size : sorts_numbers argsort -> flat_camera = Ok c -> new_viewport f x y w h = Ok v ->
  nth_error visuals k = Some g -> g (l_data s) = in_units Meter (triples qs) (fun V => points_vis argsort V face edge width size) ->
  let n := length qs in fits n face -> clear n face -> fits n edge -> clear n edge -> fits n width -> clear n width -> fits_size n size ->
  launched c v z d0 = Ok s0 -> lives s0 hist = Ok s -> settled port figure hist ->
  let view := s_view (l_view s) in
  exists l items order, l_screen s = Some (view, l) /\ nth_error l k = Some items /\ visits n order /\
    map Some (picture view items) = map (fun j => option_map (fun q => ([fixed_times 10 Meter view q], [own face j; own edge j; own width j; own size j])) (nth_error qs j)) order.
Proof. exact (points_times visuals on_render port figure c f x y w h v z d0 s0 hist s k g Meter argsort qs face edge width size). Qed.
(** With any camera they are drawn where it shows that part of the scene; depths are lost. *)
Theorem C112_scene c f x y w h v z d0 s0 hist s k g u argsort qs face edge width size : sorts_numbers argsort -> made c -> right_length u -> new_viewport f x y w h = Ok v ->
  nth_error visuals k = Some g -> g (l_data s) = in_units u (triples qs) (fun V => points_vis argsort V face edge width size) ->
  let n := length qs in fits n face -> clear n face -> fits n edge -> clear n edge -> fits n width -> clear n width -> fits_size n size ->
  launched c v z d0 = Ok s0 -> lives s0 hist = Ok s -> settled port figure hist ->
  let now := camera_steps figure c (start_of port ++ mouse_of hist) in let view := s_view (l_view s) in
  exists l items order, l_screen s = Some (view, l) /\ nth_error l k = Some items /\ visits n order /\
    map Some (picture view items) = map (fun j => option_map (fun q => ([spot view (clip (c_model now) (c_view now) (c_proj now) (in_scene u view q))], [own face j; own edge j; own width j; own size j]))
                                                             (nth_error qs j)) order.
Proof. exact (scene_end visuals on_render port figure c f x y w h v z d0 s0 hist s k g u argsort qs face edge width size). Qed.
(** So with the default camera, at every moment, of the points one and two units to the right
    one is drawn elsewhere. *)
Theorem C112_perspective_refuted theta phi c f x y w h v z d0 s0 hist s u : ball_camera theta phi 5 1 = Ok c -> new_viewport f x y w h = Ok v ->
  launched c v z d0 = Ok s0 -> lives s0 hist = Ok s ->
  let now := camera_steps figure c (start_of port ++ mouse_of hist) in let view := s_view (l_view s) in
  ViewportSpec.positive view -> long u view <> 0 ->
  ~ (forall q, In q [(1, 0, 0); (Q2Qc 2, 0, 0)]%Qc -> spot view (clip (c_model now) (c_view now) (c_proj now) (in_scene u view q)) = fixed u view q).
Proof. exact (perspective_bends visuals on_render port figure theta phi c f x y w h v z d0 s0 hist s u). Qed.
End Fixed.
Print Assumptions C112_points.
Print Assumptions C112_segments.
Print Assumptions C112_meter_refuted.
Print Assumptions C112_scene.
Print Assumptions C112_perspective_refuted.
Theorem C112_meter_elsewhere v x y z : long Meter v <> 0 -> x <> Q2Qc 0 -> fixed_times 10 Meter v (x, y, z) <> fixed Meter v (x, y, z).
Proof. exact (meter_far v x y z). Qed.
Print Assumptions C112_meter_elsewhere.
(** They can be rendered in any viewport larger than nothing. *)
Theorem C112_rendered {D} (sound : D -> Prop) u argsort qs :
  (forall face edge width size, fits_size (length qs) size -> never_fail sound [fun _ : D => in_units u (triples qs) (fun V => points_vis argsort V face edge width size)]) /\
  (forall gs color width, concat gs = qs -> Forall (fun e => length e = 2%nat) gs -> never_fail sound [fun _ : D => in_units u (triples qs) (fun V => segments_vis argsort V color width)]).
Proof. exact (units_never_fail sound u argsort qs). Qed.
Print Assumptions C112_rendered.
(** The square of that example, zoomed, resized and zoomed again. *)
Example C112_case (figure : nat -> nat) : let visuals := [fun _ : Datatypes.unit => in_units Pixel (triples (concat (square_of 128))) (fun V => segments_vis sort_nums V (Whole 1) (Whole 2))] in
  let up := Moved (Camera.mkMouse Camera.Scroll (figure 7%nat) (Some 7%nat) 0%Qc 0%Qc) Up in let h := [up; Resized (zq 10, zq 5); up] in
  settled 7 figure h /\ never_fail (fun _ => True) visuals /\ Forall (fun e => length e = 2%nat) (square_of 128) /\ right_length Pixel /\
  exists c f v s0 s, flat_camera = Ok c /\ new_canvas (CInt 512) (CInt 512) (zq 100) = Ok f /\ new_viewport f (CFloat 0%Qc) (CFloat 0%Qc) (CFloat 1%Qc) (CFloat 1%Qc) = Ok v /\
    launched visuals no_render 7 figure c v 1%Qc tt = Ok s0 /\ lives visuals no_render 7 figure s0 h = Ok s.
Proof. exact (fixed_example figure). Qed.
