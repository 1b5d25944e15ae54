(** Markers.  Models gsp/core/types.py:102-208 (Marker) and
    gsp_matplotlib/visual/markers.py:32-65 (generate_markers).

    Simplifications: matplotlib's arcs are a parameter as in Svg.v; what
    MarkerStyle, Affine2D.rotate_deg and the alignment of markers.py:56-63 do to a
    path are parameters; types and angles are numbers or one-dimensional arrays. *)
From Verif Require Import Base.
From Verif Require Export Svg.
Local Open Scope nat_scope.
Local Open Scope string_scope.

(** The members, gsp/core/types.py:138-149. *)
Inductive marker := point_ | triangle | square | minus | plus | cross | star | club | heart | spade | diamond | arrow.
(** The members of the enumeration, gsp/core/types.py:138-149. *)
Definition all_markers : list marker := [point_; triangle; square; minus; plus; cross; star; club; heart; spade; diamond; arrow].
(** The values of the members, gsp/core/types.py:138-149. *)
Definition number (m : marker) : Z :=
  match m with
  | point_ => 1 | triangle => 2 | square => 3 | minus => 4 | plus => 5 | cross => 6
  | star => 7 | club => 8 | heart => 9 | spade => 10 | diamond => 11 | arrow => 12
  end%Z.
(** The drawings, gsp/core/types.py:158-206. *)
Definition drawing (m : marker) : string :=
  match m with
  | point_ => "M12,2A10,10 0 0,0 2,12A10,10 0 0,0 12,22A10,10 0 0,0 22,12A10,10 0 0,0 12,2Z"
  | triangle => "M1,21H23L12,2Z"
  | square => "M3,3V21H21V3"
  | minus => "M20 14H4V10H20"
  | plus => "M20 14H14V20H10V14H4V10H10V4H14V10H20V14Z"
  | cross => "M20 6.91L17.09 4L12 9.09L6.91 4L4 6.91L9.09 12L4 17.09L6.91 20L12 14.91L17.09 20L20 17.09L14.91 12L20 6.91Z"
  | star => "M12,17.27L18.18,21L16.54,13.97L22,9.24L14.81,8.62L12,2L9.19,8.62L2,9.24L7.45,13.97L5.82,21L12,17.27Z"
  | club => "M12,2C14.3,2 16.3,4 16.3,6.2C16.21,8.77 14.34,9.83 14.04,10C15.04,9.5 16.5,9.5 16.5,9.5C19,9.5 21,11.3 21,13.8C21,16.3 19,18 16.5,18C16.5,18 15,18 13,17C13,17 12.7,19 15,22H9C11.3,19 11,17 11,17C9,18 7.5,18 7.5,18C5,18 3,16.3 3,13.8C3,11.3 5,9.5 7.5,9.5C7.5,9.5 8.96,9.5 9.96,10C9.66,9.83 7.79,8.77 7.7,6.2C7.7,4 9.7,2 12,2Z"
  | heart => "M12,21.35L10.55,20.03C5.4,15.36 2,12.27 2,8.5C2,5.41 4.42,3 7.5,3C9.24,3 10.91,3.81 12,5.08C13.09,3.81 14.76,3 16.5,3C19.58,3 22,5.41 22,8.5C22,12.27 18.6,15.36 13.45,20.03L12,21.35Z"
  | spade => "M12,2C9,7 4,9 4,14C4,16 6,18 8,18C9,18 10,18 11,17C11,17 11.32,19 9,22H15C13,19 13,17 13,17C14,18 15,18 16,18C18,18 20,16 20,14C20,9 15,7 12,2Z"
  | diamond => "M19,12L12,22L5,12L12,2"
  | arrow => "M14,20H10V11L6.5,14.5L4.08,12.08L12,4.16L19.92,12.08L17.5,14.5L14,11V20Z"
  end.
(** float(text) for the numbers above: digits with at most one point.
    gsp/core/svg.py:275, 360, 370, 464-466. *)
Fixpoint fraction_digits (s : list ascii) : nat :=
  match s with [] => 0 | a :: r => if (a =? ".")%char then length r else fraction_digits r end.
(** float(text), gsp/core/svg.py:275, 360, 370, 464-466. *)
Definition decimal (s : list ascii) : Qc :=
  let n := fold_left (fun n a => if is_digit a then (10 * n + Z.of_nat (nat_of_ascii a - 48))%Z else n) s 0%Z in
  (Q2Qc (inject_Z n) / Q2Qc (inject_Z (10 ^ Z.of_nat (fraction_digits s))))%Qc.
(** The point svg_to_path starts from by default, gsp/core/svg.py:488. *)
Definition origin : point := (0%Qc, 0%Qc).
(** What svg_to_path returns, gsp/core/svg.py:521. *)
Definition mpath : Type := normalised * list code.

Section Marks.
Variable arc : point -> point -> Qc -> Qc -> Qc -> point -> res (point * list (point * point * point)).
(** gsp/core/types.py:155-206: the dictionary, all drawings parsed at the first call. *)
Fixpoint table_of (l : list marker) : res (dict Z mpath) :=
  match l with
  | [] => Ok []
  | m :: r => let* p := svg_to_path arc decimal (drawing m) origin in let* d := table_of r in Ok ((number m, p) :: d)
  end.
(** gsp/core/types.py:153-208, path, given a number. *)
Definition path_of (n : Z) : res mpath :=
  let* d := table_of all_markers in
  match dget d n with Some p => Ok p | None => Err KeyError end.

(** One value for all, or an array. gsp_matplotlib/visual/markers.py:35-37. *)
Inductive values (A : Type) := One (a : A) | Each (l : list A).
Arguments One {A} a.
Arguments Each {A} l.
(** gsp_matplotlib/visual/markers.py:41-48, [try: v = values[i] except: v = values]: one value, or the
    whole array when it has no element [i]. *)
Definition item {A} (v : values A) (i : nat) : A + list A :=
  match v with
  | One a => inl a
  | Each l => match nth_error l i with Some a => inl a | None => inr l end
  end.

Context {angle shape position axis_t : Type}.
Variable styled : mpath -> shape.                       (* MarkerStyle(path) and its transform, 50-53 *)
Variable turned : angle -> shape -> shape.              (* rotate_deg, 51-53 *)
Variable aligned : position -> shape -> res shape.      (* glm.align(positions[i], (0,0,1)) and 57-63 *)
(** Marker.path(mtype), 49: an array cannot be hashed. gsp_matplotlib/visual/markers.py:49. *)
Definition typed (t : Z + list Z) : res mpath := match t with inl n => path_of n | inr _ => Err TypeError end.
(** math.radians of an array takes arrays of one element only.
    gsp_matplotlib/visual/markers.py:51. *)
Definition angled (a : angle + list angle) (s : shape) : res shape :=
  match a with inl x => Ok (turned x s) | inr [x] => Ok (turned x s) | inr _ => Err TypeError end.
(** gsp_matplotlib/visual/markers.py:41-65, one turn of the loop. *)
Definition one_marker (types : values Z) (angles : values angle) (axis : option axis_t) (i : nat) (p : position) : res shape :=
  let* path := typed (item types i) in
  let* s := angled (item angles i) (styled path) in
  match axis with Some _ => aligned p s | None => Ok s end.
(** The loop, gsp_matplotlib/visual/markers.py:40-65. *)
Fixpoint markers_from (types : values Z) (angles : values angle) (axis : option axis_t) (i : nat) (ps : list position) : res (list shape) :=
  match ps with
  | [] => Ok []
  | p :: r => let* s := one_marker types angles axis i p in let* l := markers_from types angles axis (S i) r in Ok (s :: l)
  end.
(** gsp_matplotlib/visual/markers.py:32-65. *)
Definition generate_markers (types : values Z) (angles : values angle) (axis : option axis_t) (ps : list position) : res (list shape) :=
  markers_from types angles axis 0 ps.
End Marks.
Arguments One {A} a.
Arguments Each {A} l.
