(** C73: elliptical arcs of paths. *)
From Coq Require Import Reals Lra.
From Verif Require Import Base Arc ArcSpec ArcFacts.
Local Open Scope R_scope.

(** The ellipse passes through both ends of the arc, at the angles returned. *)
Theorem C73_ends x1 y1 rx ry rot large sweep x2 y2 : rx <> 0 -> ry <> 0 -> (x1, y1) <> (x2, y2) ->
  exists k, endpoint_to_center x1 y1 rx ry rot large sweep x2 y2 = Ok k /\ 0 <= c_from k < 360 /\
    on_ellipse rot k (c_from k) = (x1, y1) /\ on_ellipse rot k (c_to k) = (x2, y2).
Proof. exact (ends x1 y1 rx ry rot large sweep x2 y2). Qed.
Print Assumptions C73_ends.
(** Radii large enough are kept; others are scaled up, by the least that joins the
    ends. *)
Theorem C73_radii x1 y1 rx ry rot large sweep x2 y2 k : rx <> 0 -> ry <> 0 -> (x1, y1) <> (x2, y2) ->
  endpoint_to_center x1 y1 rx ry rot large sweep x2 y2 = Ok k -> let s := spread rx ry rot x1 y1 x2 y2 in
  (s <= 1 -> c_rx k = Rabs rx /\ c_ry k = Rabs ry) /\
  (1 <= s -> c_rx k = Rabs rx * sqrt s /\ c_ry k = Rabs ry * sqrt s /\ c_x k = (x1 + x2) / 2 /\ c_y k = (y1 + y2) / 2).
Proof. exact (radii x1 y1 rx ry rot large sweep x2 y2 k). Qed.
Print Assumptions C73_radii.
(** The sweep flag is the direction, the large flag chooses the longer way. *)
Theorem C73_direction x1 y1 rx ry rot large sweep x2 y2 k : rx <> 0 -> ry <> 0 -> (x1, y1) <> (x2, y2) -> flag large -> flag sweep ->
  endpoint_to_center x1 y1 rx ry rot large sweep x2 y2 = Ok k -> let s := spread rx ry rot x1 y1 x2 y2 in
  (sweep = 1 -> 0 < c_to k - c_from k < 360) /\ (sweep = 0 -> -360 < c_to k - c_from k < 0) /\
  (1 <= s -> Rabs (c_to k - c_from k) = 180) /\
  (s < 1 -> large = 1 -> 180 < Rabs (c_to k - c_from k)) /\ (s < 1 -> large = 0 -> Rabs (c_to k - c_from k) < 180).
Proof. exact (direction x1 y1 rx ry rot large sweep x2 y2 k). Qed.
Print Assumptions C73_direction.
(** The path runs from the start to the end, whatever the direction, if matplotlib's
    arc runs between the angles it is given. *)
Theorem C73_path x1 y1 rx ry rot large sweep x2 y2 arc : rx <> 0 -> ry <> 0 -> (x1, y1) <> (x2, y2) -> flag large -> flag sweep ->
  (forall t1 t2, t1 < t2 < t1 + 360 -> arc t1 t2 <> [] /\ hd (0, 0) (arc t1 t2) = (cos (t1 * PI / 180), sin (t1 * PI / 180)) /\
                                       last (arc t1 t2) (0, 0) = (cos (t2 * PI / 180), sin (t2 * PI / 180))) ->
  exists vs, arc_path arc x1 y1 rx ry rot large sweep x2 y2 = Ok vs /\ hd (0, 0) vs = (x1, y1) /\ last vs (0, 0) = (x2, y2).
Proof. exact (path x1 y1 rx ry rot large sweep x2 y2 arc). Qed.
Print Assumptions C73_path.
(** Other arcs are errors; the parser never asks for one (C73_never_degenerate). *)
Theorem C73_degenerate x1 y1 rx ry rot large sweep x2 y2 : rx = 0 \/ ry = 0 \/ (x1, y1) = (x2, y2) ->
  endpoint_to_center x1 y1 rx ry rot large sweep x2 y2 = Err ZeroDivisionError.
Proof. exact (arc_errors x1 y1 rx ry rot large sweep x2 y2). Qed.
Print Assumptions C73_degenerate.

(** A quarter of the unit circle, and the other three quarters. *)
Example C73_case : (1 : R) <> 0 /\ ((1 : R), (0 : R)) <> (0, 1) /\ flag 0 /\ flag 1 /\ spread 1 1 0 1 0 0 1 < 1.
Proof.
  split; [lra|]. split; [intros E; injection E; lra|]. split; [left; reflexivity|]. split; [right; reflexivity|]. rewrite spread_quarter. lra.
Qed.
Example C73_quarter : exists k, endpoint_to_center 1 0 1 1 0 0 1 0 1 = Ok k /\ c_rx k = 1 /\ on_ellipse 0 k (c_to k) = (0, 1) /\ 0 < c_to k - c_from k < 180.
Proof.
  destruct C73_case as (N & D & F0 & F1 & L). destruct (C73_ends 1 0 1 1 0 0 1 0 1 N N D) as (k & E & _ & _ & P). exists k. split; [exact E|].
  destruct (C73_radii _ _ _ _ _ _ _ _ _ _ N N D E) as (H & _). split; [rewrite (proj1 (H (Rlt_le _ _ L))); apply Rabs_R1|]. split; [exact P|].
  destruct (C73_direction _ _ _ _ _ _ _ _ _ _ N N D F0 F1 E) as (A & _ & _ & _ & B). specialize (A eq_refl). specialize (B L eq_refl).
  rewrite Rabs_right in B by lra. lra.
Qed.
Example C73_arc : exists arc : R -> R -> list (R * R), forall t1 t2, t1 < t2 < t1 + 360 -> arc t1 t2 <> [] /\
  hd (0, 0) (arc t1 t2) = (cos (t1 * PI / 180), sin (t1 * PI / 180)) /\ last (arc t1 t2) (0, 0) = (cos (t2 * PI / 180), sin (t2 * PI / 180)).
Proof.
  exists (fun t1 t2 => [(cos (t1 * PI / 180), sin (t1 * PI / 180)); (cos (t2 * PI / 180), sin (t2 * PI / 180))]).
  intros t1 t2 _. split; [discriminate|]. split; reflexivity.
Qed.
