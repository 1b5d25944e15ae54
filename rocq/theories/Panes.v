(** Several viewports on one canvas, and the cameras connected to them:
    gsp_matplotlib/core/viewport.py, gsp_matplotlib/core/canvas.py and the zooming
    part of examples/common/camera.py, as examples/viewport-multiple.py and
    examples/viewport-with-margins.py use them.

    Simplifications: those of Viewport.v.  The first error ends the program, as it
    does without a window.  The functions connected to a camera are left out
    (Camera.v), and so are the visuals (Scene.v).  A point on the edge of a viewport
    counts as inside at the left and at the bottom; matplotlib leaves that to
    rounding. *)
From Verif Require Import Base Measure Viewport.
Local Open Scope Qc_scope.

Section Panes.
  (** Colours, gsp/core/types.py. *)
  Context {C : Type}.

  (** What a viewport keeps besides its canvas, viewport.py:24-37. *)
  Record pane := mkPane {
    a_extent : coord * coord * coord * coord;
    a_pos : Qc * Qc * Qc * Qc;
    a_zoom : Qc;
    a_xlim : Qc * Qc;
    a_ylim : Qc * Qc;
    a_color : C }.
  (** The viewport of Viewport.v: [self._canvas] is shared, viewport.py:24. *)
  Definition view (f : fig) (a : pane) : viewport :=
    mkV f (a_extent a) (a_pos a) (a_zoom a) (a_xlim a) (a_ylim a).
  (** What an operation on it leaves, viewport.py:24-37. *)
  Definition pane_of (v : viewport) (c : C) : pane :=
    mkPane (p_extent v) (p_pos v) (p_zoom v) (p_xlim v) (p_ylim v) c.

  (** A canvas with its viewports in order of creation; of each camera the zoom and
      the viewport last given to connect; the cameras called by the figure, in the
      order of their registration.  viewport.py:29, examples/common/camera.py:55,
      129-145. *)
  Record desk := mkDesk {
    d_fig : fig;
    d_panes : list pane;
    d_zoom : nat -> Qc;
    d_axes : nat -> option nat;
    d_registered : list nat }.
  (** A canvas without viewports, and cameras made with these zooms.
      canvas.py:27-34, examples/common/camera.py:25, 55. *)
  Definition bare (f : fig) (zoom : nat -> Qc) : desk := mkDesk f [] zoom (fun _ => None) [].

  (** What a program and its user do: viewport.py:15, 46;
      examples/common/camera.py:116, 163 and 223. *)
  Inductive act :=
  | New (x y width height : coord) (color : C)
  | Sized (inches : Qc * Qc)
  | Join (camera viewport : nat)
  | Leave (camera : nat)
  | Wheel (x y : Qc) (b : button).

  (** Whether a number lies between [a] and [a + w]; matplotlib turns a rectangle of
      negative width round.  viewport.py:114. *)
  Definition between (a w p : Qc) : bool :=
    if qle 0 w then qle a p && qlt p (a + w) else qle (a + w) p && qlt p a.
  (** Whether a point of the canvas, in pixels from the bottom left, is in the
      viewport: matplotlib's [patch.contains_point], for the position of viewport.py:114. *)
  Definition holds (f : fig) (a : pane) (x y : Qc) : bool :=
    let '(l, b, w, h) := a_pos a in
    let '(W, H) := size f in
    between (l * W) (w * W) x && between (b * H) (h * H) y.
  (** [event.inaxes], examples/common/camera.py:167, and what is drawn on top: of
      the axes there, the one added last.  viewport.py:29. *)
  Fixpoint topmost (f : fig) (n : nat) (l : list pane) (x y : Qc) : option nat :=
    match l with
    | [] => None
    | a :: l' => match topmost f (S n) l' x y with
                 | Some i => Some i
                 | None => if holds f a x y then Some n else None
                 end
    end.
  (** The viewport at a point. viewport.py:29. *)
  Definition at_point (d : desk) (x y : Qc) : option nat := topmost (d_fig d) 0 (d_panes d) x y.
  (** The colour of a point, viewport.py:33; without a viewport the canvas is
      transparent, canvas.py:31-32.  Colours are opaque. *)
  Definition color_at (d : desk) (x y : Qc) : option C :=
    match at_point d x y with
    | Some i => match nth_error (d_panes d) i with Some a => Some (a_color a) | None => None end
    | None => None
    end.

  (** One element of a list replaced: the axes changed at viewport.py:114-128. *)
  Fixpoint put {A} (n : nat) (a : A) (l : list A) : list A :=
    match l, n with
    | [], _ => []
    | _ :: l', O => a :: l'
    | b :: l', S m => b :: put m a l'
    end.
  (** The figure after a resize: matplotlib, viewport.py:46. *)
  Definition resized (f : fig) (inches : Qc * Qc) : fig := mkFig (f_width f) (f_height f) (f_dpi f) inches.
  (** The callbacks of the resize event, in the order of creation: viewport.py:46. *)
  Fixpoint update_all (f : fig) (l : list pane) : res (list pane) :=
    match l with
    | [] => Ok []
    | a :: l' =>
        let* v := update (view f a) in
        let* r := update_all f l' in
        Ok (pane_of v (a_color a) :: r)
    end.
  (** examples/common/camera.py:154-159 and 175-180, for a viewport of the canvas. *)
  Definition show (d : desk) (i : nat) (z : Qc) : res desk :=
    match nth_error (d_panes d) i with
    | None => Err AttributeError
    | Some a =>
        let* v := show_zoom (view (d_fig d) a) z in
        Ok (mkDesk (d_fig d) (put i (pane_of v (a_color a)) (d_panes d)) (d_zoom d) (d_axes d) (d_registered d))
    end.
  (** An attribute of one camera assigned, examples/common/camera.py:130, 171-173. *)
  Definition assign {A} (f : nat -> A) (k : nat) (a : A) : nat -> A := fun j => if Nat.eqb j k then a else f j.
  (** on_scroll, examples/common/camera.py:163-182, of one camera; [inaxes] was
      found when the event was made. *)
  Definition on_scroll (inaxes : option nat) (b : button) (d : desk) (k : nat) : res desk :=
    match inaxes, d_axes d k with
    | Some i, Some j =>
        if Nat.eqb i j then
          let z := zoomed (d_zoom d k) b in
          show (mkDesk (d_fig d) (d_panes d) (assign (d_zoom d) k z) (d_axes d) (d_registered d)) j z
        else Ok d
    | _, _ => Ok d
    end.
  (** The callbacks of the scroll event, examples/common/camera.py:138. *)
  Fixpoint scroll_all (inaxes : option nat) (b : button) (l : list nat) (d : desk) : res desk :=
    match l with
    | [] => Ok d
    | k :: l' => let* d := on_scroll inaxes b d k in scroll_all inaxes b l' d
    end.
  (** One of them.  New: viewport.py:15-46.  Sized: viewport.py:46.  Join: connect,
      examples/common/camera.py:129-159; a camera already registered keeps its
      place.  Leave: disconnect, 223-230.  Wheel: 163-182. *)
  Definition act_on (d : desk) (a : act) : res desk :=
    match a with
    | New x y width height color =>
        let* v := new_viewport (d_fig d) x y width height in
        Ok (mkDesk (d_fig d) (d_panes d ++ [pane_of v color]) (d_zoom d) (d_axes d) (d_registered d))
    | Sized inches =>
        let f := resized (d_fig d) inches in
        let* l := update_all f (d_panes d) in
        Ok (mkDesk f l (d_zoom d) (d_axes d) (d_registered d))
    | Join k i =>
        match nth_error (d_panes d) i with
        | None => Err AttributeError
        | Some _ =>
            show (mkDesk (d_fig d) (d_panes d) (d_zoom d) (assign (d_axes d) k (Some i))
                    (if existsb (Nat.eqb k) (d_registered d) then d_registered d else d_registered d ++ [k]))
              i (d_zoom d k)
        end
    | Leave k =>
        match d_axes d k with
        | None => Err AttributeError
        | Some _ => Ok (mkDesk (d_fig d) (d_panes d) (d_zoom d) (d_axes d) (filter (fun j => negb (Nat.eqb j k)) (d_registered d)))
        end
    | Wheel x y b => scroll_all (at_point d x y) b (d_registered d) d
    end.
  (** Several of them, in order: viewport.py:15, 46; examples/common/camera.py:116, 163, 223. *)
  Fixpoint acts (d : desk) (l : list act) : res desk :=
    match l with [] => Ok d | a :: l' => let* d' := act_on d a in acts d' l' end.
End Panes.
Arguments pane : clear implicits.
Arguments desk : clear implicits.
Arguments act : clear implicits.
