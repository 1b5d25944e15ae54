(** C124: nothing overflows. *)
From Coq Require Import Reals Lra List.
From Verif Require Import Base Glm GlmSpec Trackball TrackballSpec Drift DriftSpec DriftRound DriftFacts Vec Single SingleSpec Joined Overflow OverflowFacts.
Import ListNotations.
Local Open Scope R_scope.

(** In view of the camera no operation on the way of a vertex to the picture overflows or divides by
    zero: it is placed at finite numbers, and those are the ones of C121 to C123. *)
Theorem C124_vertex L theta phi l : good_library L -> Forall on_screen l ->
  exists b b' proj, fnew L theta phi = Ok b /\ facts L b l = Ok b' /\ perspective 35 1 1 100 false = Ok proj /\
    forall s view' proj' p x y z, / 1000 <= s <= 1000 -> in_cube s p -> stored (camera_view s) view' -> stored proj proj' ->
      (places (transpose (t_model b')) view' proj' p x y z <->
       exists q, x = Num (x3 q) /\ y = Num (y3 q) /\ z = Num (z3 q) /\ placed_computed (transpose (t_model b')) view' proj' p q).
Proof. exact (never_overflows L theta phi l). Qed.
Print Assumptions C124_vertex.
(** Nor does what vertices are sorted by, nor the mean depth of up to eight million vertices. *)
Theorem C124_keys L theta phi l : good_library L -> Forall on_screen l ->
  exists b b' proj, fnew L theta phi = Ok b /\ facts L b l = Ok b' /\ perspective 35 1 1 100 false = Ok proj /\
    forall s view' proj' ps qs, / 1000 <= s <= 1000 -> Forall (in_cube s) ps -> stored (camera_view s) view' -> stored proj proj' ->
      Forall2 (placed_computed (transpose (t_model b')) view' proj') ps qs ->
      (forall q k, In q qs -> keyed (Num (z3 q)) k -> exists k', k = Num k' /\ sort_key q k') /\
      (forall k, qs <> [] -> INR (length qs) <= 8 * 10 ^ 6 -> averaged (map (fun q => Num (z3 q)) qs) k -> mean_key qs k).
Proof. exact (never_overflows_keys L theta phi l). Qed.
Print Assumptions C124_keys.
(** With any matrices and vertices whose numbers are up to a million, the homogeneous coordinates are
    finite. *)
Theorem C124_any_matrices model view proj p T c : mbig (10 ^ 6) model -> mbig (10 ^ 6) view -> mbig (10 ^ 6) proj -> big (10 ^ 6) (point p) ->
  transforms model view proj T -> moves T p c ->
  exists T' c', T = exactly_all T' /\ c = exactly c' /\ transform_computed model view proj T' /\ moved T' p c'.
Proof. exact (all_num model view proj p T c). Qed.
Print Assumptions C124_any_matrices.
(** Without a bound they need not be: scaling by 2^70 twice loses every vertex, the origin too. *)
Theorem C124_unbounded_refuted : ~ (forall model view proj p x y z, places model view proj p x y z -> exists r, x = Num r).
Proof. intros H. destruct (overflow_happens (V3 0 0 0)) as (y & z & P). destruct (H _ _ _ _ _ _ _ P). discriminate. Qed.
Print Assumptions C124_unbounded_refuted.

Example C124_case : mbig (10 ^ 6) (scaled 1000) /\ mbig (10 ^ 6) (camera_view 4) /\ big (10 ^ 6) (point (V3 7 (-8) 900000)) /\ ~ mbig (10 ^ 6) (scaled (2 ^ 70)) /\
  good_library correct_library /\ in_cube 2 (V3 (1 / 2) (- 1 / 2) (1 / 3)).
Proof.
  unfold mbig, big, scaled, camera_view, point, in_cube. cbn [row0 row1 row2 row3 x4 y4 z4 w4 x3 y3 z3].
  assert (E : 10 ^ 6 = 1000000) by (cbn [pow]; lra). rewrite E.
  split; [repeat split; apply Rabs_le; lra|]. split; [repeat split; apply Rabs_le; lra|]. split; [repeat split; apply Rabs_le; lra|]. split.
  { intros ((H & _) & _). apply Rabs_le_iff in H. assert (2 ^ 20 <= 2 ^ 70) by (apply Rle_pow; [lra|repeat constructor]). assert (2 ^ 20 = 1048576) by (cbn [pow]; lra). lra. }
  split; [exact correct_good|]. repeat split; apply Rabs_le; lra.
Qed.
