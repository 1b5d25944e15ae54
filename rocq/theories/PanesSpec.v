(** Vocabulary for the properties of several viewports on one canvas. *)
From Verif Require Import Base Measure Viewport ViewportSpec Panes.
From Coq Require Export Permutation.
Local Open Scope Qc_scope.

Section Spec.
  Context {C : Type}.
  (** What the viewports were made with, in order of creation. *)
  Fixpoint made (l : list (act C)) : list (coord * coord * coord * coord * C) :=
    match l with
    | [] => []
    | New x y w h c :: l' => (x, y, w, h, c) :: made l'
    | _ :: l' => made l'
    end.
  (** The size of the figure after the last resize, in inches. *)
  Definition inches_after (start : Qc * Qc) (l : list (act C)) : Qc * Qc :=
    fold_left (fun s a => match a with Sized i => i | _ => s end) l start.
  (** The viewport a camera works in: the last it was connected to, if it was not
      disconnected since. *)
  Definition connected_to (k : nat) (l : list (act C)) : option nat :=
    fold_left (fun s a => match a with
                          | Join j i => if Nat.eqb j k then Some i else s
                          | Leave j => if Nat.eqb j k then None else s
                          | _ => s
                          end) l None.
  (** The point [x], in pixels, lies between [a] and [a + w]. *)
  Definition lies (a w x : Qc) : Prop := (a <= x /\ x < a + w) \/ (a + w <= x /\ x < a).
  (** The point, in pixels from the bottom left of the canvas, is in the rectangle
      that was asked for. *)
  Definition covers (f : fig) (m : coord * coord * coord * coord * C) (x y : Qc) : Prop :=
    let '(mx, my, mw, mh, _) := m in
    exists px py pw ph,
      asks f (fst (size f)) mx px /\ asks f (snd (size f)) my py /\
      asks f (fst (size f)) mw pw /\ asks f (snd (size f)) mh ph /\
      lies px pw x /\ lies py ph y.
  Definition color_of (m : coord * coord * coord * coord * C) : C := snd m.
  (** A width or a height of 0 is something else (C51). *)
  Definition not_zero (m : coord * coord * coord * coord * C) : Prop :=
    let '(_, _, w, h, _) := m in ~ zero w /\ ~ zero h.
  (** The [i]th viewport covers the point and no later one does. *)
  Definition on_top (f : fig) (l : list (coord * coord * coord * coord * C)) (x y : Qc) (i : nat) : Prop :=
    (exists m, nth_error l i = Some m /\ covers f m x y) /\
    forall j m, (i < j)%nat -> nth_error l j = Some m -> ~ covers f m x y.

  (** Edges: a share of the side of the canvas plus a number of pixels. *)
  Definition edge : Type := Qc * Qc.
  Definition at_side (s : Qc) (e : edge) : Qc := fst e * s + snd e.
  Definition from_to (a b : edge) : edge := (fst b - fst a, snd b - snd a).
  (** A coordinate asks for an edge (or a length), on every canvas of this resolution. *)
  Definition means (dpi : Qc) (c : coord) (e : edge) : Prop :=
    forall f s px, f_dpi f = dpi -> s <> 0 -> (asks f s c px <-> px = at_side s e).
  Fixpoint rising (l : list Qc) : Prop :=
    match l with a :: ((b :: _) as r) => a <= b /\ rising r | _ => True end.
  (** The cell of column [i] and row [j]. *)
  Definition is_cell (dpi : Qc) (xs ys : list edge) (m : coord * coord * coord * coord * C) (ij : nat * nat) : Prop :=
    let '(mx, my, mw, mh, _) := m in
    exists a a' b b',
      nth_error xs (fst ij) = Some a /\ nth_error xs (S (fst ij)) = Some a' /\
      nth_error ys (snd ij) = Some b /\ nth_error ys (S (snd ij)) = Some b' /\
      means dpi mx a /\ means dpi my b /\ means dpi mw (from_to a a') /\ means dpi mh (from_to b b').
  (** One viewport for each column and row, made in any order [order]. *)
  Definition is_grid (dpi : Qc) (xs ys : list edge) (order : list (nat * nat)) (l : list (coord * coord * coord * coord * C)) : Prop :=
    Permutation order (list_prod (seq 0 (pred (length xs))) (seq 0 (pred (length ys)))) /\
    Forall2 (is_cell dpi xs ys) l order.
  (** The number is between the [i]th edge and the next. *)
  Definition in_band (s : Qc) (es : list edge) (i : nat) (x : Qc) : Prop :=
    exists a a', nth_error es i = Some a /\ nth_error es (S i) = Some a' /\ at_side s a <= x /\ x < at_side s a'.

  (** Programs that have no reason to fail, [n] viewports having been made and the
      cameras [joined] connected. *)
  Fixpoint sensible (n : nat) (joined : list nat) (l : list (act C)) : Prop :=
    match l with
    | [] => True
    | New x y w h _ :: l' => plain x /\ plain y /\ some_length w /\ some_length h /\ sensible (S n) joined l'
    | Sized (a, b) :: l' => 0 < a /\ 0 < b /\ sensible n joined l'
    | Join k i :: l' => (i < n)%nat /\ sensible n (k :: joined) l'
    | Leave k :: l' => In k joined /\ sensible n joined l'
    | Wheel _ _ _ :: l' => sensible n joined l'
    end.
  Definition is_sized (a : act C) : bool := match a with Sized _ => true | _ => false end.
  Definition is_new (a : act C) : bool := match a with New _ _ _ _ _ => true | _ => false end.
  (** The viewports a step may change the picture of. *)
  Definition touches (d : desk C) (a : act C) (i : nat) : Prop :=
    match a with
    | New _ _ _ _ _ => False
    | Sized _ => True
    | Join _ j => i = j
    | Leave _ => False
    | Wheel x y _ => at_point d x y = Some i
    end.
End Spec.

(** examples/viewport-multiple.py:16-28, both layouts. *)
Inductive hue := Red | Green | Blue | Yellow.
Definition half : Qc := q 1 2.
Definition multiple : list (act hue) :=
  [New (CFloat 0) (CFloat 0) (CFloat half) (CFloat half) Red;
   New (CFloat 0) (CFloat half) (CFloat half) (CFloat half) Green;
   New (CFloat half) (CFloat 0) (CFloat half) (CFloat half) Blue;
   New (CFloat half) (CFloat half) (CFloat half) (CFloat half) Yellow].
Definition multiple_pixels : list (act hue) :=
  [New (CInt 0) (CInt 0) (CInt 256) (CInt 256) Red;
   New (CInt 0) (CInt 256) (CInt 256) (CInt 256) Green;
   New (CInt 256) (CInt 0) (CInt 256) (CInt 256) Blue;
   New (CInt 256) (CInt 256) (CInt 256) (CInt 256) Yellow].
(** A bar of 100 pixels beside the rest of the canvas. *)
Definition sidebar : list (act hue) :=
  [New (CInt 0) (CInt 0) (CInt 100) (CFloat 1) Red;
   New (measure Pixel (zq 100)) (CInt 0) (plus_measure 1 Pixel (- zq 100)) (CFloat 1) Green].
(** A half of the canvas and a strip of 200 pixels. *)
Definition strip_and_half : list (act hue) :=
  [New (CFloat half) (CInt 0) (CFloat half) (CFloat 1) Green; New (CInt 0) (CInt 0) (CInt 200) (CFloat 1) Red].
(** Edges at the two ends and in the middle, and beside the bar. *)
Definition halves : list edge := [(0, 0); (half, 0); (1, 0)].
Definition bar_edges : list edge := [(0, 0); (0, zq 100); (1, 0)].
Definition ends : list edge := [(0, 0); (1, 0)].
