(** Vocabulary for examples running with their camera. *)
From Coq Require Import Reals.
From Verif Require Import Base Slice Measure Viewport ViewportSpec Camera Glm Vec Render Trackball Picture PictureSpec Outline Drag Live.

(** Where the corners of items appear in a viewport. *)
Definition picture (v : Viewport.viewport) (l : list item) : list (list (option (R * R)) * list (option (list Z))) :=
  map (fun '(cs, a) => (map (fun '(x, y) => on_canvas v x y) cs, a)) l.

(** What reaches the camera, and the viewport, of what the user does. *)
Definition mouse_of (h : list event) : list (@Camera.op nat) :=
  flat_map (fun e => match e with Moved m _ => [Camera.Mouse m] | Resized _ | Redrawn => [] end) h.
Definition start_of (port : nat) : list (@Camera.op nat) :=
  [Camera.Connect port "motion"%string 0%nat; Camera.Connect port "scroll"%string 0%nat; Camera.Run].
(** Over the viewport, in its figure. *)
Definition inside (port : nat) (figure : nat -> nat) (e : Camera.mouse) : bool :=
  Nat.eqb (Camera.m_figure e) (figure port) && match Camera.m_inaxes e with Some a => Nat.eqb a port | None => false end.
Definition scrolls_of (port : nat) (figure : nat -> nat) (h : list event) : list Viewport.event :=
  flat_map (fun e => match e with
                     | Moved m b => match Camera.m_kind m with Camera.Scroll => [Viewport.Scroll (inside port figure m) b] | _ => [] end
                     | Resized i => [Viewport.Resize i]
                     | Redrawn => []
                     end) h.
Definition is_resized (e : event) : bool := match e with Resized _ => true | _ => false end.
(** Clicks and turns of the wheel over the viewport, and releases anywhere in its figure. *)
Definition clicks (port : nat) (figure : nat -> nat) (e : Camera.mouse) : bool :=
  match Camera.m_kind e with
  | Camera.Press | Camera.Scroll => inside port figure e
  | Camera.Release => Nat.eqb (Camera.m_figure e) (figure port)
  | Camera.Motion => false
  end.
(** The screen shows what the camera and the viewport are now. *)
Definition current {D} (visuals : list (D -> vis)) (s : live D) : Prop :=
  exists l, render_all visuals (l_data s) (s_view (l_view s)) (c_model (l_cam s)) (c_view (l_cam s)) (c_proj (l_cam s)) = Ok l /\
    l_screen s = Some (s_view (l_view s), l).
(** The data are what onRender made of some for what the camera is now. *)
Definition told {D} (on_render : Qc -> mat -> mat -> mat -> D -> res D) (s : live D) : Prop :=
  exists d, on_render (s_zoom (l_view s)) (c_model (l_cam s)) (c_view (l_cam s)) (c_proj (l_cam s)) d = Ok (l_data s).
(** No event changed the size since the screen was last drawn for certain: since the start,
    a click, or a drawing of matplotlib's own accord. *)
Definition settled (port : nat) (figure : nat -> nat) (h : list event) : Prop :=
  existsb is_resized h = false \/
  exists h1 e h2, h = (h1 ++ e :: h2)%list /\ existsb is_resized h2 = false /\
    (e = Redrawn \/ exists m b, e = Moved m b /\ clicks port figure m = true).

(** A camera as its constructor leaves it. *)
Definition made (c : @Camera.camera nat mat trackball) : Prop := exists ball eye view proj, c = new_camera Drag.shown ball eye view proj.
(** Visuals that can be rendered with sound data, in any viewport larger than nothing and with any matrices. *)
Definition never_fail {D} (sound : D -> Prop) (visuals : list (D -> vis)) : Prop :=
  Forall (fun f => forall d w m v p, sound d -> ViewportSpec.positive w -> exists l, f d w m v p = Ok l) visuals.
(** An onRender that does not raise, and makes sound data, for any zoom the wheel can make of this one. *)
Definition never_raises {D} (sound : D -> Prop) (on_render : Qc -> mat -> mat -> mat -> D -> res D) (zoom : Qc) : Prop :=
  forall turns m v p d, exists d', on_render (fold_left zoomed turns zoom) m v p d = Ok d' /\ sound d'.
(** Sizes are larger than nothing. *)
Definition sensible (h : list event) : Prop :=
  Forall (fun e => match e with Resized (a, b) => (0 < a)%Qc /\ (0 < b)%Qc | _ => True end) h.
