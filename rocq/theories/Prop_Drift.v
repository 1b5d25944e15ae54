(** C113: the trackball in floating point. *)
From Coq Require Import Reals Lra List.
From Verif Require Import Base Glm GlmSpec Trackball TrackballSpec Drift DriftSpec DriftRound DriftFacts DriftFollow.
Import ListNotations.
Local Open Scope R_scope.

(** However long and in whatever way the view is turned, nothing raises and the float32 matrix
    handed to the visuals is a rotation up to a ten millionth. *)
Theorem C113_never_distorted L theta phi l : good_library L -> Forall on_screen l -> exists b b', fnew L theta phi = Ok b /\ facts L b l = Ok b' /\
  nearly_rotation (/ 10 ^ 7) (t_model b') /\ Rabs (q_dot (t_rotation b') (t_rotation b') - 1) <= / 10 ^ 11 /\ (t_count b' <= 97)%nat.
Proof. exact (never_distorted L theta phi l). Qed.
Print Assumptions C113_never_distorted.
(** Every point stays as far from the centre as it was, and the centre stays. *)
Theorem C113_lengths_kept L theta phi l p : good_library L -> Forall on_screen l -> exists b b', fnew L theta phi = Ok b /\ facts L b l = Ok b' /\
  only_block (t_model b') /\ Rabs (norm (image (t_model b') p) - norm p) <= 27 / 10 ^ 7 * norm p.
Proof. exact (lengths_kept L theta phi l p). Qed.
Print Assumptions C113_lengths_kept.
(** It follows the exact trackball of C47 and C59: after n drags and assignments every entry is
    within 10^-7 + 2 10^-10 (n + 1).  Readings of angles, which store what they read, and drags
    across nearly the whole ball, where the arc sine is steep, are left out. *)
Theorem C113_follows_the_exact L theta phi l : good_library L -> Rabs theta <= 360 -> Rabs phi <= 360 -> Forall inside l -> exists b b', fnew L theta phi = Ok b /\ facts L b l = Ok b' /\
  near (/ 10 ^ 7 + INR (length l + 1) * (2 / 10 ^ 10)) (t_model b') (t_model (acts (new_trackball theta phi) l)).
Proof. exact (follows_exact L theta phi l). Qed.
Print Assumptions C113_follows_the_exact.
(** All drags of the pointer by at most a tenth of the view are among them. *)
Theorem C113_short_drags x y dx dy : Rabs x <= 1 -> Rabs y <= 1 -> Rabs (x + dx) <= 1 -> Rabs (y + dy) <= 1 -> Rabs dx + Rabs dy <= / 5 -> inside (Drag x y dx dy).
Proof. exact (short_drag x y dx dy). Qed.
Print Assumptions C113_short_drags.
Example C113_follows_example : Forall inside [Drag (1 / 2) (-1 / 4) (1 / 64) (3 / 32); SetTheta 400; Drag (-1) 1 (1 / 10) (- 1 / 10); SetPhi (-30)].
Proof.
  repeat apply Forall_cons; try apply Forall_nil; try exact Logic.I; apply short_drag; try (apply Rabs_le; lra); unfold Rabs; repeat destruct (Rcase_abs _); lra.
Qed.
Example C113_example :
  good_library correct_library /\ Forall on_screen [Drag (1 / 2) (-1 / 4) (1 / 64) (3 / 32); SetTheta 400; Drag 90 (-100) 0 (1 / 1000); ReadPhi; SetPhi (-30)] /\
  ~ nearly_rotation (/ 10 ^ 7) (Mat (V4 1 0 0 0) (V4 0 1 0 0) (V4 0 0 (11 / 10) 0) (V4 0 0 0 1)).
Proof.
  split; [exact correct_good|]. split.
  - repeat apply Forall_cons; try apply Forall_nil; cbn [on_screen]; try exact Logic.I; repeat split; apply Rabs_le; lra.
  - intros (m & (_ & _ & _ & H & _) & _ & _ & (A & B & C & D) & _). destruct m as [r0 r1 [x y z w] r3]. unfold dot4 in H. cbn [row2 x4 y4 z4 w4 pow] in *.
    apply Rabs_le_iff in A, B, C, D. nra.
Qed.
