(** An example running with its camera: examples/common/launcher.py:108-120 with
    examples/common/camera.py, a viewport and its canvas.  Puts Camera.v and Drag.v (events,
    matrices), Viewport.v (zoom, sizes) and Picture.v and Outline.v (visuals) together.

    Simplifications: one viewport; data change by the example's own onRender only, and what
    that renders is what is rendered after it; a collection keeps the offsets it was given
    until it is given others, and drawing shows what collections and axes hold.  The real
    numbers of Picture.v. *)
From Coq Require Import Reals.
From Verif Require Import Base Slice Measure Viewport Camera Glm Vec Render Trackball Picture Outline Drag.

(** What a collection holds: for each item its corners in the axes (one for points) and its
    attributes.  gsp_matplotlib/visual/points.py:71-97, segments.py:72-86. *)
Definition item : Type := list (num * num) * list (option (list Z)).
(** A visual: what its collection gets in a viewport, as that is when it is rendered, for the
    three matrices.  [render] from gsp_matplotlib/visual/points.py:61 on, segments.py:61 on, etc. *)
Definition vis : Type := Viewport.viewport -> mat -> mat -> mat -> res (list item).
(** Points, gsp_matplotlib/visual/points.py:62-97. *)
Definition points_vis (argsort : list num -> list nat) (V : arr) (face edge width size : attr) : vis :=
  fun _ model view proj =>
  let* A := placed_points V (transform_of model view proj) in
  let* l := rows_of A in
  let n := length l in
  let idx := argsort (map (fun r => flipped (col r 2)) l) in
  let* sz := attach_size n idx size in
  Ok (collection (pick (map (fun r => [(col r 0, col r 1)]) l) idx) [attach n idx face; attach n idx edge; attach n idx width; sz]).
(** Segments, gsp_matplotlib/visual/segments.py:61-86. *)
Definition segments_vis (argsort : list num -> list nat) (V : arr) (color width : attr) : vis :=
  fun _ model view proj =>
  let* A := placed_points V (transform_of model view proj) in
  let* l := rows_of A in
  let* gs := pairs l in
  let n := length gs in
  let idx := argsort (map (fun g => minus_mean (map (fun r => col r 2) g)) gs) in
  Ok (collection (pick (map (map (fun r => (col r 0, col r 1))) gs) idx) [attach n idx color; attach n idx width]).
(** Paths and polygons, gsp_matplotlib/visual/paths.py:75-144 and gsp_matplotlib/visual/polygons.py:71-155. *)
Definition outlines_vis (argsort : list num -> list nat) (V : arr) (i : indices) (attrs : list attr) : vis :=
  fun _ model view proj =>
  let* A := placed_points V (transform_of model view proj) in
  let* l := rows_of A in
  let* gs := group l i in
  let idx := argsort (map (fun g => minus_mean (map (fun r => col r 2) g)) gs) in
  let* bs := attach_all (length gs) (length l) idx attrs in
  Ok (collection (pick (map (map (fun r => (col r 0, col r 1))) gs) idx) bs).

Section Live.
(** The data the example's onRender changes. *)
Context {D : Type}.
(** The camera; its zoom and the viewport; the matrices visuals were last given (visual.py:111-116); what
    their collections hold; what is on the screen; the data.  examples/common/launcher.py:108-120. *)
Record live := mkLive {
  l_cam : @Camera.camera nat mat trackball;
  l_view : Viewport.scene;
  l_mats : option (mat * mat * mat);
  l_shown : list (list item);
  l_screen : option (Viewport.viewport * list (list item));
  l_data : D }.

(** The visuals, of the data. *)
Variable visuals : list (D -> vis).
(** The example's onRender, of the camera's zoom and matrices (launcher.py:112-113), as in
    examples/points-3d.py:40-43. *)
Variable on_render : Qc -> mat -> mat -> mat -> D -> res D.
(** The viewport of the example, and the figure of each viewport. *)
Variables (port : nat) (figure : nat -> nat).

(** [for _visual in visuals: _visual.render(...)], launcher.py:115-116. *)
Fixpoint render_all (vs : list (D -> vis)) (d : D) (v : Viewport.viewport) (model view proj : mat) : res (list (list item)) :=
  match vs with
  | [] => Ok []
  | f :: r => let* c := f d v model view proj in let* t := render_all r d v model view proj in Ok (c :: t)
  end.
(** update of launcher.py:111-116, and figure.canvas.draw() of camera.py:108. *)
Definition act (s : live) (a : @Camera.action nat mat) : res live :=
  match a with
  | Camera.Call _ _ model view proj =>
      let* d := on_render (s_zoom (l_view s)) model view proj (l_data s) in
      let* l := render_all visuals d (s_view (l_view s)) model view proj in
      Ok (mkLive (l_cam s) (l_view s) (Some (model, view, proj)) l (l_screen s) d)
  | Camera.Draw g =>
      if Nat.eqb g (figure port) then Ok (mkLive (l_cam s) (l_view s) (l_mats s) (l_shown s) (Some (s_view (l_view s), l_shown s)) (l_data s)) else Ok s
  end.
(** Several of them, camera.py:98-99. *)
Fixpoint acts_all (s : live) (l : list Camera.action) : res live :=
  match l with [] => Ok s | a :: r => let* s' := act s a in acts_all s' r end.
(** What the camera does, camera.py:76-230, with what it calls. *)
Definition camera_op (s : live) (o : @Camera.op nat) : res live :=
  let '(c, (l, r)) := Camera.step drag_event Drag.shown figure (l_cam s) o in
  let* s' := acts_all (mkLive c (l_view s) (l_mats s) (l_shown s) (l_screen s) (l_data s)) l in
  let* _ := r in Ok s'.
(** The axes with other limits, camera.py:157-159 and 178-180. *)
Definition with_view (s : live) (v : Viewport.scene) : live := mkLive (l_cam s) v (l_mats s) (l_shown s) (l_screen s) (l_data s).
(** camera.connect: the limits (camera.py:154-159), and the rest. *)
Definition connect_to (s : live) (name : string) : res live :=
  let* v := Viewport.step (l_view s) Viewport.Connect in
  camera_op (with_view s v) (Camera.Connect port name 0%nat).
(** plt.show() of camera.py:82 draws. *)
Definition show (s : live) : live := mkLive (l_cam s) (l_view s) (l_mats s) (l_shown s) (Some (s_view (l_view s), l_shown s)) (l_data s).
(** launcher.py:109, 118-120. *)
Definition launched (c : Camera.camera) (v : Viewport.viewport) (zoom : Qc) (d : D) : res live :=
  let* s := connect_to (mkLive c (new_scene v zoom) None [] None d) "motion" in
  let* s := connect_to s "scroll" in
  let* s := camera_op s Camera.Run in Ok (show s).

(** What the user does: an event of the mouse, with its button, or another size; and drawing of
    matplotlib's own accord, as most backends do some time after a change of size.
    camera.py:163-220, gsp_matplotlib/core/viewport.py:46. *)
Inductive event := Moved (e : Camera.mouse) (b : Viewport.button) | Resized (inches : Qc * Qc) | Redrawn.
(** Is this a turn of the wheel the camera answers to? camera.py:163-168. *)
Definition wheel (c : @Camera.camera nat mat trackball) (e : Camera.mouse) : bool :=
  Camera.mem_nat (Camera.m_figure e) (c_figures c) && match Camera.m_kind e with Camera.Scroll => Camera.over c e | _ => false end.
(** A viewport stretched with its figure, before it is updated: the canvas draws first
    (gsp_matplotlib/core/canvas.py:36-37). *)
Definition stretched (v : Viewport.viewport) (i : Qc * Qc) : Viewport.viewport :=
  let f := p_fig v in mkV (mkFig (f_width f) (f_height f) (f_dpi f) i) (p_extent v) (p_pos v) (p_zoom v) (p_xlim v) (p_ylim v).
(** One event: camera.py:163-220; for sizes gsp_matplotlib/core/canvas.py:36-37, viewport.py:46 and
    gsp_matplotlib/visual/points.py:51-52, in the order of their connection. *)
Definition live_step (s : live) (e : event) : res live :=
  match e with
  | Moved m b =>
      let* v := (if wheel (l_cam s) m then Viewport.step (l_view s) (Viewport.Scroll true b) else Ok (l_view s)) in
      camera_op (with_view s v) (Camera.Mouse m)
  | Resized i =>
      let drawn := Some (stretched (s_view (l_view s)) i, l_shown s) in
      let* v := Viewport.step (l_view s) (Viewport.Resize i) in
      match l_mats s with
      | None => Ok (mkLive (l_cam s) v None (l_shown s) drawn (l_data s))
      | Some (model, view, proj) =>
          let* l := render_all visuals (l_data s) (s_view v) model view proj in Ok (mkLive (l_cam s) v (l_mats s) l drawn (l_data s))
      end
  | Redrawn => Ok (show s)
  end.
(** Events one after the other, from plt.show() on: camera.py:82. *)
Fixpoint lives (s : live) (h : list event) : res live :=
  match h with [] => Ok s | e :: r => let* s' := live_step s e in lives s' r end.
End Live.
Arguments live : clear implicits.
(** An example without onRender, launcher.py:112. *)
Definition no_render {D : Type} : Qc -> mat -> mat -> mat -> D -> res D := fun _ _ _ _ d => Ok d.
