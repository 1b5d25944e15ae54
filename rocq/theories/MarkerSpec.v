(** What users expect of markers. *)
From Verif Require Import Base Svg Marker.
Local Open Scope Qc_scope.

(** matplotlib's arcs between different points with radii that are not zero do not
    fail. *)
Definition arcs_defined (arc : point -> point -> Qc -> Qc -> Qc -> point -> res (point * list (point * point * point))) : Prop :=
  forall c r x lg sw e, c <> e -> fst r <> 0 -> snd r <> 0 -> exists g, arc c r x lg sw e = Ok g.
(** A quarter of a circle keeps within the square of its ends and corners, here
    within the icon. *)
Definition whole (n : Z) : Qc := Q2Qc (inject_Z n).
Definition in_icon (p : point) : Prop := whole 2 <= fst p /\ fst p <= whole 22 /\ whole 2 <= snd p /\ snd p <= whole 22.
Definition arcs_inside (arc : point -> point -> Qc -> Qc -> Qc -> point -> res (point * list (point * point * point))) : Prop :=
  forall c r x lg sw e p l, in_icon c -> in_icon e -> r = (whole 10, whole 10) -> arc c r x lg sw e = Ok (p, l) ->
  in_icon p /\ Forall (fun t => in_icon (fst (fst t)) /\ in_icon (snd (fst t)) /\ in_icon (snd t)) l.
(** The outline is closed. *)
Definition closed (cs : list code) : Prop := last cs MOVETO = CLOSEPOLY.
(** The path is the drawing scaled about the middle (12, 12) of the 24 by 24 icon,
    with y upwards. *)
Definition about_middle (k : Qc) (v w : point) : Prop :=
  fst w = k * (fst v - whole 12) /\ snd w = - (k * (snd v - whole 12)).
(** The value for item [i]: the one given for all, or element [i] of an array. *)
Inductive value_at {A} : values A -> nat -> A -> Prop :=
| one_for_all a i : value_at (One a) i a
| one_each l i a : nth_error l i = Some a -> value_at (Each l) i a.
(** An angle may also be given for all by an array of one. *)
Inductive angle_at {A} : values A -> nat -> A -> Prop :=
| angle_value v i a : value_at v i a -> angle_at v i a
| angle_single a i : angle_at (Each [a]) i a.
Definition known (n : Z) : Prop := (1 <= n <= 12)%Z.
