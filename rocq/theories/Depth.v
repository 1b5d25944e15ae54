(** Points coloured by where they are: a Colormap of an Out, as in
    examples/points-colormap.py:26-32.  Models gsp/transform/colormap.py:69-84 and
    gsp/transform/out.py:46-74 as gsp_matplotlib/visual/points.py:62-97 calls them.

    Simplifications: those of Picture.v; the numbers of "screen[positions]", kept in single
    precision, are exact; of an infinity or a nan among the values nothing is kept but that
    no value can be normalised. *)
From Coq Require Import Reals.
From Verif Require Import Base Slice Measure Viewport Camera Glm Vec Render Trackball Picture Live.
Local Open Scope R_scope.

(** "screen[positions]" after [set_variable], gsp_matplotlib/visual/points.py:65-72: its column [k], as "screen[positions].x",
    ".y" or ".z" picks it (out.py:56-70). *)
Definition screen (k : nat) (r : list num) : num := if Nat.eqb k 2 then flipped (col r 2) else col r k.
(** The numbers, if all of them are finite; value.min() and value.max() are not otherwise.
    colormap.py:82-83. *)
Fixpoint finite (l : list num) : option (list R) :=
  match l with
  | [] => Some []
  | Num x :: r => option_map (cons x) (finite r)
  | NonFinite :: _ => None
  end.
(** value.min(), of no values a ValueError; colormap.py:82. *)
Definition lowest (l : list R) : res R := match l with [] => Err ValueError | x :: r => Ok (fold_left Rmin r x) end.
(** value.max(), colormap.py:83. *)
Definition highest (l : list R) : res R := match l with [] => Err ValueError | x :: r => Ok (fold_left Rmax r x) end.
(** [x or default], colormap.py:82-83: zero counts as nothing. *)
Definition given (x : option R) (default : res R) : res R :=
  match x with Some v => if Req_EM_T v 0 then default else Ok v | None => default end.
(** matplotlib's Normalize, colormap.py:82-84: a ValueError if vmin is above vmax, 0 if they are equal. *)
Definition scaled (vmin vmax v : R) : R := if Req_EM_T vmin vmax then 0 else (v - vmin) / (vmax - vmin).
(** Colormap.evaluate, colormap.py:69-84; [cmap] is matplotlib's colour map, [bad] its colour for what
    cannot be normalised. *)
Definition shades (cmap : R -> list Z) (bad : list Z) (vmin vmax : option R) (l : list num) : res (list (list Z)) :=
  match l with
  | [] => Err ValueError
  | _ =>
    match finite l with
    | None => Ok (map (fun _ => bad) l)
    | Some l =>
      let* a := given vmin (lowest l) in
      let* b := given vmax (highest l) in
      if Rle_dec a b then Ok (map (fun x => cmap (scaled a b x)) l) else Err ValueError
    end
  end.
(** Points whose fill_colors is [Colormap(vmin, vmax)(Out("screen[positions].…"))], gsp_matplotlib/visual/points.py:62-97. *)
Definition shaded_vis (argsort : list num -> list nat) (V : arr) (k : nat) (cmap : R -> list Z) (bad : list Z) (vmin vmax : option R) (edge width size : attr) : vis :=
  fun _ model view proj =>
  let* A := placed_points V (transform_of model view proj) in
  let* l := rows_of A in
  let n := length l in
  let idx := argsort (map (fun r => flipped (col r 2)) l) in
  let* face := shades cmap bad vmin vmax (map (screen k) l) in
  let* sz := attach_size n idx size in
  Ok (collection (pick (map (fun r => [(col r 0, col r 1)]) l) idx) [attach n idx (Render.Rows face); attach n idx edge; attach n idx width; sz]).
