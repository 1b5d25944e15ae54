(** The events of the camera: examples/common/camera.py.

    Simplifications: functions connected to the camera neither fail nor touch the
    camera; zoom and axes limits are in Viewport.v; the text under the pointer
    (lines 147-152) and the measure of time (lines 105-114) are left out.
    matplotlib's [mpl_connect] keeps one registration of a method per figure, and
    [mpl_disconnect] ignores a registration it does not know. *)
From Verif Require Import Base.
From Coq Require Export QArith Qcanon.
Local Open Scope list_scope.

Section Camera.
  (** Functions given by the user, compared by [in] (line 134); matrices; the state
      of a trackball, with drag_to and model (gsp_matplotlib/glm/trackball.py). *)
  Context {F M T : Type} `{EqB F} (drag_to : T -> Qc -> Qc -> Qc -> Qc -> T) (model : T -> M).
  (** Viewports and figures are numbered; the figure of a viewport. *)
  Variable figure : nat -> nat.

  (** The four events of examples/common/camera.py:71-74. *)
  Inductive kind := Motion | Scroll | Press | Release.
  (** The keys of [updates], camera.py:71-74. *)
  Definition kind_of (name : string) : option kind :=
    if String.eqb name "motion" then Some Motion
    else if String.eqb name "scroll" then Some Scroll
    else if String.eqb name "press" then Some Press
    else if String.eqb name "release" then Some Release
    else None.
  (** Comparison of these keys. *)
  Definition kind_eqb (a b : kind) : bool :=
    match a, b with Motion, Motion | Scroll, Scroll | Press, Press | Release, Release => true | _, _ => false end.

  (** A camera: the trackball if it is not "ortho", the three matrices, functions by
      event, the viewport and figure last given to connect, where the pointer was,
      the figure of the registration numbers kept, and the figures that call the
      camera. camera.py:25-74 and 129-145. *)
  Record camera := mkCam {
    c_ball : option T; c_model : M; c_view : M; c_proj : M;
    c_updates : kind -> list F;
    c_viewport : option nat;
    c_mouse : option (Qc * Qc);
    c_cids : option nat;
    c_figures : list nat }.
  (** __init__, camera.py:25-74; [eye] is the identity. *)
  Definition new_camera (ball : option T) (eye view proj : M) : camera :=
    mkCam ball (match ball with Some t => model t | None => eye end) view proj (fun _ => []) None None None [].

  (** What the user sees: a function called with viewport, model, view and
      projection, or a figure drawn. camera.py:93-114. *)
  Inductive action := Call (f : F) (viewport : nat) (model view proj : M) | Draw (fig : nat).
  (** A mouse event of a figure: the viewport it happened over, if any, and where
      in that viewport's coordinates.
      The attributes of a matplotlib event read at camera.py:163-220. *)
  Record mouse := mkMouse { m_kind : kind; m_figure : nat; m_inaxes : option nat; m_x : Qc; m_y : Qc }.
  (** What a program and its user do with a camera, camera.py:76-230. *)
  Inductive op :=
  | Connect (viewport : nat) (event : string) (f : F)
  | Mouse (e : mouse)
  | Run
  | Disconnect.

  (** update, camera.py:93-99: [self.viewport] is read for each function. *)
  Definition update (c : camera) (k : kind) : list action * res unit :=
    match c_updates c k, c_viewport c with
    | [], _ => ([], Ok tt)
    | _, None => ([], Err AttributeError)
    | l, Some v => (map (fun f => Call f v (c_model c) (c_view c) (c_proj c)) l, Ok tt)
    end.
  (** update followed by canvas_draw, camera.py:181-182, 193-194, 210-211 and 219-220. *)
  Definition update_draw (c : camera) (k : kind) : list action * res unit :=
    match update c k, c_viewport c with
    | (l, Err e), _ => (l, Err e)
    | (l, Ok _), None => (l, Err AttributeError)
    | (l, Ok _), Some v => (l ++ [Draw (figure v)], Ok tt)
    end.
  (** Membership in a list; Python's [in]. *)
  Definition mem_nat (n : nat) (l : list nat) : bool := existsb (Nat.eqb n) l.
  (** connect, camera.py:116-160: the viewport is kept before the event's name is
      looked up. *)
  Definition connect (c : camera) (v : nat) (name : string) (f : F) : camera * (list action * res unit) :=
    match kind_of name with
    | None => (mkCam (c_ball c) (c_model c) (c_view c) (c_proj c) (c_updates c) (Some v) (c_mouse c) (c_cids c) (c_figures c),
               ([], Err KeyError))
    | Some k =>
        let l := c_updates c k in
        let l' := if existsb (Base.eqb f) l then l else l ++ [f] in
        let g := figure v in
        (mkCam (c_ball c) (c_model c) (c_view c) (c_proj c)
           (fun k' => if kind_eqb k' k then l' else c_updates c k') (Some v) None (Some g)
           (if mem_nat g (c_figures c) then c_figures c else c_figures c ++ [g]),
         ([Draw g], Ok tt))
    end.
  (** [event.inaxes != self.axes], camera.py:167, 189 and 202. *)
  Definition over (c : camera) (e : mouse) : bool :=
    match m_inaxes e, c_viewport c with Some a, Some v => Nat.eqb a v | _, _ => false end.
  (** The assignment to self.mouse, camera.py:192 and 218. *)
  Definition with_mouse (c : camera) (m : option (Qc * Qc)) : camera :=
    mkCam (c_ball c) (c_model c) (c_view c) (c_proj c) (c_updates c) (c_viewport c) m (c_cids c) (c_figures c).
  (** on_scroll, on_press, on_motion and on_release, camera.py:163-220.  The button
      kept with the position (lines 192, 205 and 207) is never read. *)
  Definition on_event (c : camera) (e : mouse) : camera * (list action * res unit) :=
    match m_kind e with
    | Scroll => if over c e then (c, update_draw c Scroll) else (c, ([], Ok tt))
    | Press => if over c e then let c' := with_mouse c (Some (m_x e, m_y e)) in (c', update_draw c' Press) else (c, ([], Ok tt))
    | Motion =>
        match c_mouse c with
        | None => (c, ([], Ok tt))
        | Some (x0, y0) =>
            if over c e then
              match c_ball c with
              | None => (c, ([], Ok tt))
              | Some t =>
                  let t' := drag_to t (m_x e) (m_y e) (m_x e - x0)%Qc (m_y e - y0)%Qc in
                  let c' := mkCam (Some t') (model t') (c_view c) (c_proj c) (c_updates c) (c_viewport c)
                              (Some (m_x e, m_y e)) (c_cids c) (c_figures c) in
                  (c', update_draw c' Motion)
              end
            else (c, ([], Ok tt))
        end
    | Release => let c' := with_mouse c None in (c', update_draw c' Release)
    end.
  (** disconnect, camera.py:223-230: the figure is the one of the viewport last given
      to connect; its registration numbers mean nothing to another figure. *)
  Definition disconnect (c : camera) : camera * (list action * res unit) :=
    match c_viewport c, c_cids c with
    | Some v, Some g =>
        (if Nat.eqb (figure v) g
         then mkCam (c_ball c) (c_model c) (c_view c) (c_proj c) (c_updates c) (c_viewport c) (c_mouse c) (c_cids c)
                (filter (fun h => negb (Nat.eqb h g)) (c_figures c))
         else c, ([], Ok tt))
    | _, _ => (c, ([], Err AttributeError))
    end.
  (** One operation, camera.py:76-230. *)
  Definition step (c : camera) (o : op) : camera * (list action * res unit) :=
    match o with
    | Connect v name f => connect c v name f
    (** A figure calls the camera if it is registered there. *)
    | Mouse e => if mem_nat (m_figure e) (c_figures c) then on_event c e else (c, ([], Ok tt))
    (** run and save, camera.py:76-90. *)
    | Run => (c, update c Motion)
    | Disconnect => disconnect c
    end.
  (** Operations in order. *)
  Definition steps (c : camera) (l : list op) : camera := fold_left (fun c o => fst (step c o)) l c.
End Camera.
