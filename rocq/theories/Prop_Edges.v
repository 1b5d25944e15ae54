(** C130: canvases and viewports have the sizes asked for, but for rounding. *)
From Coq Require Import Reals Lra ZArith Lia.
From Verif Require Import Base Glm Drift Edges EdgesSpec EdgesFacts.
Local Open Scope R_scope.

(** A canvas tells the size it was made with, but for the last digits. *)
Theorem C130_canvas w d : usual w d -> exists s, canvas_size w d = Ok s /\ Rabs (s - w) <= / 2 ^ 51 * w.
Proof. exact (canvas_close w d). Qed.
Print Assumptions C130_canvas.
(** It does not tell exactly that size. *)
Theorem C130_canvas_exact_refuted : ~ (forall w d, usual w d -> canvas_size w d = Ok w).
Proof. exact (fun H => inexact (H 58 100 ordinary)). Qed.
Print Assumptions C130_canvas_exact_refuted.
(** Both edges of a viewport given in pixels are where they were asked for. *)
Theorem C130_edges w d x n : usual (IZR w) d -> (0 <= x)%Z -> (0 < n)%Z -> (x + n <= 1000000)%Z ->
  exists l r, edges w d (Pixels x) (Pixels n) = Ok (l, r) /\ at_pixel (IZR w) l x /\ at_pixel (IZR w) r (x + n).
Proof. exact (edges_close w d x n). Qed.
Print Assumptions C130_edges.
(** Viewports put side by side leave no gap and have no overlap that shows. *)
Theorem C130_neighbours w d x n m : usual (IZR w) d -> (0 <= x)%Z -> (0 < n)%Z -> (0 < m)%Z -> (x + n + m <= 1000000)%Z ->
  exists l r l' r', edges w d (Pixels x) (Pixels n) = Ok (l, r) /\ edges w d (Pixels (x + n)) (Pixels m) = Ok (l', r') /\ Rabs (l' * IZR w - r * IZR w) <= 2 * / 10 ^ 8.
Proof. exact (neighbours_close w d x n m). Qed.
Print Assumptions C130_neighbours.
(** A place in pixels and the same place as the quotient Python computes are the same. *)
Theorem C130_both_ways w d n f : usual w d -> (0 <= n <= 1000000)%Z -> fdiv (IZR n) w = Ok f ->
  exists p q, placed_at w d (Pixels n) = Ok p /\ placed_at w d (Fraction f) = Ok q /\ at_pixel w p n /\ at_pixel w q n.
Proof. exact (both_ways w d n f). Qed.
Print Assumptions C130_both_ways.
(** A viewport as large as the canvas starts at its edge and ends at its other edge. *)
Theorem C130_whole w d : usual (IZR w) d -> exists l r, edges w d (Pixels 0) (Pixels w) = Ok (l, r) /\ l = 0 /\ Rabs (r * IZR w - IZR w) <= / 10 ^ 8.
Proof. exact (whole_canvas w d). Qed.
Print Assumptions C130_whole.
(** It may end beyond that edge: the fraction is above one on a canvas of 58 pixels at 100 dpi. *)
Theorem C130_within_refuted : ~ (forall w d l r, usual (IZR w) d -> edges w d (Pixels 0) (Pixels w) = Ok (l, r) -> r <= 1).
Proof. exact beyond. Qed.
Print Assumptions C130_within_refuted.
(** A viewport of no width has none: false, since it is as wide as the canvas. *)
Theorem C130_empty_refuted : ~ (forall w d x l r, usual (IZR w) d -> (0 <= x <= w)%Z -> edges w d (Pixels x) (Pixels 0) = Ok (l, r) -> at_pixel (IZR w) r x).
Proof. exact not_empty. Qed.
Print Assumptions C130_empty_refuted.
Theorem C130_empty w d x : usual (IZR w) d -> (0 <= x)%Z -> (x + w <= 1000000)%Z ->
  exists l r, edges w d (Pixels x) (Pixels 0) = Ok (l, r) /\ edges w d (Pixels x) (Fraction 0) = Ok (l, r) /\ at_pixel (IZR w) l x /\ at_pixel (IZR w) r (x + w).
Proof. exact (zero_close w d x). Qed.
Print Assumptions C130_empty.
(** A viewport given in fractions within the canvas stays within it. *)
Theorem C130_fractions w d a b : usual (IZR w) d -> rnd a = a -> 0 <= a -> 0 < b -> a + b <= 1 ->
  exists r, edges w d (Fraction a) (Fraction b) = Ok (a, r) /\ Rabs (r - (a + b)) <= / 2 ^ 52 /\ a <= r <= 1.
Proof. exact (fraction_edges w d a b). Qed.
Print Assumptions C130_fractions.
(** The resolution does not move a viewport. *)
Theorem C130_resolution w d d' x n : usual (IZR w) d -> usual (IZR w) d' -> (0 <= x)%Z -> (0 < n)%Z -> (x + n <= 1000000)%Z ->
  exists l r l' r', edges w d (Pixels x) (Pixels n) = Ok (l, r) /\ edges w d' (Pixels x) (Pixels n) = Ok (l', r') /\ Rabs (l' * IZR w - l * IZR w) <= 2 * / 10 ^ 8 /\ Rabs (r' * IZR w - r * IZR w) <= 2 * / 10 ^ 8.
Proof. exact (resolutions_close w d d' x n). Qed.
Print Assumptions C130_resolution.
(** However wide the window has become, a viewport given in pixels stays where it was asked for, *)
Theorem C130_resized made now d x n : usual now d -> (0 <= x)%Z -> (0 < n)%Z -> (x + n <= 1000000)%Z ->
  exists l r, resized made now d (Pixels x) (Pixels n) = Ok (l, r) /\ at_pixel now l x /\ at_pixel now r (x + n).
Proof. exact (resized_close made now d x n). Qed.
Print Assumptions C130_resized.
(** and one given in fractions keeps exactly the same part of the canvas. *)
Theorem C130_resized_fractions made now d a b : usual (IZR made) d -> usual now d -> b <> 0 -> resized made now d (Fraction a) (Fraction b) = edges made d (Fraction a) (Fraction b).
Proof. exact (resized_fractions made now d a b). Qed.
Print Assumptions C130_resized_fractions.
(** A viewport that filled the canvas for want of a width does not follow it: it keeps the width the
    canvas was made with. *)
Theorem C130_resized_empty made now d x : usual now d -> (0 <= x)%Z -> (0 <= made)%Z -> (x + made <= 1000000)%Z ->
  exists l r, resized made now d (Pixels x) (Pixels 0) = Ok (l, r) /\ at_pixel now l x /\ at_pixel now r (x + made).
Proof. exact (resized_empty made now d x). Qed.
Print Assumptions C130_resized_empty.
Theorem C130_filled_refuted : ~ (forall made now d l r, usual (IZR made) d -> usual now d -> resized made now d (Pixels 0) (Pixels 0) = Ok (l, r) -> Rabs (r * now - now) <= 1).
Proof. exact not_filled. Qed.
Print Assumptions C130_filled_refuted.

(** A canvas of 58 pixels at 100 dpi is usual, and tells a little less than 58; being a pixel off is
    not allowed. *)
Example C130_case : usual 58 100 /\ usual 116 100 /\ canvas_size 58 100 = Ok (58 - / 2 ^ 47) /\ placed_at 58 100 (Pixels 58) = Ok (1 + / 2 ^ 52) /\
  ~ at_pixel 58 (1 / 2) 28 /\ at_pixel 58 (1 / 2) 29 /\ rnd (1 / 2) = 1 / 2.
Proof.
  split; [exact ordinary|]. split; [unfold usual; lra|]. split; [exact (proj1 fifty_eight)|]. split; [exact (proj2 fifty_eight)|]. unfold at_pixel. split; [|split; [|exact half_float]].
  - rewrite Rabs_pos_eq by lra. cbn [pow]. lra.
  - replace (1 / 2 * 58 - 29) with 0 by lra. rewrite Rabs_R0. cbn [pow]. lra.
Qed.
