(** Visuals in viewports, and resizing.  Models gsp/visual/visual.py:17-28 and
    89-123, the parts of render that the visuals of gsp_matplotlib/visual share
    (points.py:28-60, markers.py:68-100, pixels.py:33-66, segments.py:29-59,
    paths.py:31-73, polygons.py:31-69), gsp_matplotlib/core/viewport.py:24-46 and
    gsp_matplotlib/core/canvas.py:27-57.

    Simplifications: one canvas; recording is on and the queue can be written;
    variables evaluate (exceptions are in Render.v); viewports keep their ids, so
    that a viewport is found again in the dictionary of a visual; what a collection
    shows is the transform applied to the positions and the size its viewport was
    laid out for (measures depend on it); matplotlib calls the callbacks of an event
    in the order of their connection, and an axes draws a child as often as it is in
    its list of children. *)
From Verif Require Import Base.

Section Model.
Context {M : Type}.
(** [@]: None when it raises; np.eye(4). *)
Variable mul : M -> M -> option M.
Variable eye : M.

(** Collections made by axes.scatter, which adds them to the axes, and collections
    only added by add_collection.  points.py:42-46, markers.py:82-86, pixels.py:48-52;
    segments.py:43-45, paths.py:57-59, polygons.py:53-55. *)
Inductive kind := Scatter | Plain.
(** A visual: _model, _view, _proj, _transform and the keys of _viewports.
    gsp/visual/visual.py:24-28. *)
Record visual := mkVis { v_kind : kind; v_model : M; v_view : M; v_proj : M; v_transform : option M; v_on : list nat }.
(** The resize callbacks: gsp_matplotlib/core/canvas.py:36-37, gsp_matplotlib/core/viewport.py:45-46, gsp_matplotlib/visual/points.py:51-52. *)
Inductive callback := CDraw | CUpdate (p : nat) | CRender (v p : nat).
(** The commands recorded: gsp/core/viewport.py:30, the constructors of the
    visuals, visual.py:89. *)
Inductive entry := LViewport | LVisual (k : kind) | LRender (v p : nat) (model view proj : option M).
(** A size in pixels, gsp_matplotlib/core/canvas.py:41-45. *)
Definition size := (Z * Z)%type.
(** What the collection of a visual in a viewport shows: gsp_matplotlib/visual/points.py:62-97. *)
Definition content := nat -> nat -> option (M * size).
(** The figure: gsp_matplotlib/core/canvas.py:27-37 and what is added to it. *)
Record scene := mkScene {
  s_size : size;                            (* of the figure *)
  s_views : list size;                      (* what each viewport is laid out for *)
  s_visuals : list visual;
  s_axes : list (list nat);                 (* children of the axes of each viewport *)
  s_shown : content;                        (* visual, viewport: the collection *)
  s_callbacks : list callback;
  s_drawn : option (list size * content);   (* what was last drawn *)
  s_log : list entry }.

(** Canvas(...): gsp_matplotlib/core/canvas.py:27-37. *)
Definition start (sz : size) : scene := mkScene sz [] [] [] (fun _ _ => None) [CDraw] None [].
(** Viewport(...): gsp_matplotlib/core/viewport.py:24-46. *)
Definition new_viewport (s : scene) : scene :=
  mkScene (s_size s) (s_views s ++ [s_size s]) (s_visuals s) (s_axes s ++ [[]]) (s_shown s)
          (s_callbacks s ++ [CUpdate (length (s_views s))]) (s_drawn s) (s_log s ++ [LViewport]).
(** Points(...) and the others: visual.py:17-28. *)
Definition new_visual (s : scene) (k : kind) : scene :=
  mkScene (s_size s) (s_views s) (s_visuals s ++ [mkVis k eye eye eye (Some eye) []]) (s_axes s) (s_shown s)
          (s_callbacks s) (s_drawn s) (s_log s ++ [LVisual k]).

(** [model if model is not None else self._model], gsp/visual/visual.py:111-116. *)
Definition given (o : option M) (d : M) : M := match o with Some m => m | None => d end.
(** [self._proj @ self._view @ self._model]: visual.py:118-121. *)
Definition product (proj view model : M) : option M := match mul proj view with Some pv => mul pv model | None => None end.
(** The collection of a visual in a viewport is updated, gsp_matplotlib/visual/points.py:62-97. *)
Definition show (c : content) (v p : nat) (x : M * size) : content :=
  fun v' p' => if Nat.eqb v v' && Nat.eqb p p' then Some x else c v' p'.
(** How often the collection is among the children of the axes, as above for [kind]: gsp_matplotlib/visual/points.py:42-46. *)
Definition children (k : kind) (v : nat) : list nat := match k with Scatter => [v; v] | Plain => [v] end.
(** render: visual.py:110-123, then gsp_matplotlib/visual/points.py:41-60 and the like. *)
Definition render (s : scene) (v p : nat) (model view proj : option M) : scene :=
  match nth_error (s_visuals s) v, nth_error (s_views s) p, nth_error (s_axes s) p with
  | Some x, Some laid, Some ch =>
      let m := given model (v_model x) in
      let vw := given view (v_view x) in
      let pr := given proj (v_proj x) in
      let t := product pr vw m in
      let known := existsb (Nat.eqb p) (v_on x) in
      let x' := mkVis (v_kind x) m vw pr t (if known then v_on x else v_on x ++ [p]) in
      mkScene (s_size s) (s_views s) (upd (s_visuals s) v x')
              (if known then s_axes s else upd (s_axes s) p (ch ++ children (v_kind x) v))
              (match t with Some t => show (s_shown s) v p (t, laid) | None => s_shown s end)
              (if known then s_callbacks s else s_callbacks s ++ [CRender v p])
              (s_drawn s) (s_log s ++ [LRender v p model view proj])
  | _, _, _ => s
  end.
(** figure.canvas.draw() and savefig. gsp_matplotlib/core/canvas.py:37 and 48-57. *)
Definition draw (s : scene) : scene :=
  mkScene (s_size s) (s_views s) (s_visuals s) (s_axes s) (s_shown s) (s_callbacks s) (Some (s_views s, s_shown s)) (s_log s).
(** Viewport._update: gsp_matplotlib/core/viewport.py:53-131. *)
Definition update (s : scene) (p : nat) : scene :=
  mkScene (s_size s) (upd (s_views s) p (s_size s)) (s_visuals s) (s_axes s) (s_shown s) (s_callbacks s) (s_drawn s) (s_log s).
(** One callback: gsp_matplotlib/core/canvas.py:37, gsp_matplotlib/core/viewport.py:46, gsp_matplotlib/visual/points.py:51-52. *)
Definition call (s : scene) (c : callback) : scene :=
  match c with
  | CDraw => draw s
  | CUpdate p => update s p
  | CRender v p => render s v p None None None
  end.
(** matplotlib sets the size of the figure and calls the callbacks.
    The callbacks connected by gsp_matplotlib/core/canvas.py:36-37 and the others. *)
Definition resize (s : scene) (sz : size) : scene :=
  fold_left call (s_callbacks s)
    (mkScene sz (s_views s) (s_visuals s) (s_axes s) (s_shown s) (s_callbacks s) (s_drawn s) (s_log s)).

(** What happens: calls of the program, gsp_matplotlib/core/canvas.py:48-57 for Save, and resizing. *)
Inductive event := ENewViewport | ENewVisual (k : kind) | ERender (v p : nat) (model view proj : option M) | EResize (sz : size) | ESave.
(** One event, by the definitions above (gsp/visual/visual.py:89-123, gsp_matplotlib/core/canvas.py:48-57). *)
Definition step (s : scene) (e : event) : scene :=
  match e with
  | ENewViewport => new_viewport s
  | ENewVisual k => new_visual s k
  | ERender v p m vw pr => render s v p m vw pr
  | EResize sz => resize s sz
  | ESave => draw s
  end.
(** Events one after the other, gsp/visual/visual.py:89-123. *)
Definition run (s : scene) (h : list event) : scene := fold_left step h s.
(** Executing the commands recorded, on a new canvas. gsp/io/command.py:436-455. *)
Definition execute (s : scene) (l : entry) : scene :=
  match l with
  | LViewport => new_viewport s
  | LVisual k => new_visual s k
  | LRender v p m vw pr => render s v p m vw pr
  end.
(** CommandQueue.run, gsp/io/command.py:150-154. *)
Definition replay (sz : size) (l : list entry) : scene := fold_left execute l (start sz).
End Model.
Arguments event M : clear implicits.
Arguments scene M : clear implicits.
Arguments entry M : clear implicits.
Arguments visual M : clear implicits.
