(** Vocabulary for the point cloud example. *)
From Coq Require Import QArith Qcanon Reals.
From Verif Require Import Base Measure Viewport Glm Vec Render Cloud CloudSpec Picture PictureSpec Terrain.

(** The points of the file that are to be shown: inside the bounds, and not farthest out on
    a side without a bound. *)
Definition selected (b : bounds) (ps : list pt) (i : nat) : Prop := exists p, nth_error ps i = Some p /\ within b p /\ inner b ps p.
(** The point as a vertex. *)
Definition vertex (p : pt) : vec3 := V3 (inR (coord X p)) (inR (coord Y p)) (inR (coord Z p)).
(** Point [i] of the file where the camera puts it, with its own colour. *)
Definition shown_point code (ps : list pt) (cs : list (list BinInt.Z)) v model view proj (i : nat) : option (option (R * R) * list (option (list BinInt.Z))) :=
  match nth_error ps i, nth_error cs i with
  | Some p, Some c => Some (spot v (clip model view proj (vertex p)), [Some (map (fun z => code (Q2Qc (z # 255))) c)])
  | _, _ => None
  end.
(** The bounds of the program: x and z between -0.1 and 0.1. *)
Definition program_bounds : bounds :=
  mkBounds (fun a => match a with Y => None | _ => Some (Q2Qc (-1 # 10)) end) (fun a => match a with Y => None | _ => Some (Q2Qc (1 # 10)) end).
