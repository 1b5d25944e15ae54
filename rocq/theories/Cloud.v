(** Cropping and thinning a cloud of points.  Models point_cloud_crop and
    point_cloud_downsample, examples/lidar-point-cloud.py:43-91 and 107-132.

    Simplifications: coordinates are rationals, no infinities or NaN; numpy's random
    choice is a parameter. *)
From Coq Require Import QArith Qcanon.
From Verif Require Import Base.
Local Open Scope nat_scope.

(** A row of point_positions, lidar-point-cloud.py:32. *)
Definition pt : Type := Qc * Qc * Qc.
(** The column, lidar-point-cloud.py:71-81. *)
Inductive axis := X | Y | Z.
(** point_positions[:, a], lidar-point-cloud.py:71-89. *)
Definition coord (a : axis) (p : pt) : Qc := match a with X => fst (fst p) | Y => snd (fst p) | Z => snd p end.
(** The comparisons of lidar-point-cloud.py:84-89. *)
Definition ltb (a b : Qc) : bool := if Qclt_le_dec a b then true else false.
(** min() and max() of a column: an empty one raises. lidar-point-cloud.py:71, 75 and 79. *)
Fixpoint least (x : Qc) (l : list Qc) : Qc := match l with [] => x | y :: r => least (if ltb y x then y else x) r end.
(** max() of a column, lidar-point-cloud.py:73, 77 and 81. *)
Fixpoint greatest (x : Qc) (l : list Qc) : Qc := match l with [] => x | y :: r => greatest (if ltb x y then y else x) r end.
(** lidar-point-cloud.py:71, 75 and 79, with the case of no points. *)
Definition col_min (a : axis) (ps : list pt) : res Qc := match map (coord a) ps with [] => Err ValueError | x :: r => Ok (least x r) end.
(** lidar-point-cloud.py:73, 77 and 81, with the case of no points. *)
Definition col_max (a : axis) (ps : list pt) : res Qc := match map (coord a) ps with [] => Err ValueError | x :: r => Ok (greatest x r) end.
(** Bounds given or not, lines 46-51. *)
Record bounds := mkBounds { lo : axis -> option Qc; hi : axis -> option Qc }.
(** Lines 70-81. *)
Definition bound_or (g : option Qc) (d : res Qc) : res Qc := match g with Some q => Ok q | None => d end.
(** a[mask]: a mask of another length raises. lidar-point-cloud.py:91. *)
Fixpoint take {A} (m : list bool) (l : list A) : res (list A) :=
  match m, l with
  | [], [] => Ok []
  | b :: m, x :: l => let* r := take m l in Ok (if b then x :: r else r)
  | _, _ => Err IndexError
  end.
Section Colors.
Context {C : Type}.
(** lidar-point-cloud.py:69-91. *)
Definition crop (ps : list pt) (cs : list C) (b : bounds) : res (list pt * list C) :=
  let* x0 := bound_or (lo b X) (col_min X ps) in
  let* x1 := bound_or (hi b X) (col_max X ps) in
  let* y0 := bound_or (lo b Y) (col_min Y ps) in
  let* y1 := bound_or (hi b Y) (col_max Y ps) in
  let* z0 := bound_or (lo b Z) (col_min Z ps) in
  let* z1 := bound_or (hi b Z) (col_max Z ps) in
  let mask := map (fun p => ltb x0 (coord X p) && ltb (coord X p) x1 && ltb y0 (coord Y p) && ltb (coord Y p) y1
                            && ltb z0 (coord Z p) && ltb (coord Z p) z1) ps in
  let* ps' := take mask ps in
  let* cs' := take mask cs in
  Ok (ps', cs').
(** a[indices] lidar-point-cloud.py:132. *)
Fixpoint pick {A} (l : list A) (is_ : list nat) : res (list A) :=
  match is_ with
  | [] => Ok []
  | i :: r => match nth_error l i with Some x => let* xs := pick l r in Ok (x :: xs) | None => Err IndexError end
  end.
(** Lines 124-132; [choose n k] is np.random.choice(n, size=k, replace=False), which
    raises for negative k. *)
Definition downsample (choose : nat -> nat -> list nat) (ps : list pt) (cs : list C) (wished : option BinInt.Z) : res (list pt * list C) :=
  match wished with
  | None => Ok (ps, cs)
  | Some w =>
      if (BinInt.Z.of_nat (length ps) <=? w)%Z then Ok (ps, cs)
      else if (w <? 0)%Z then Err ValueError
      else let idx := choose (length ps) (BinInt.Z.to_nat w) in
           let* ps' := pick ps idx in let* cs' := pick cs idx in Ok (ps', cs')
  end.
End Colors.
