(** C123: pictures of things with several corners, in floating point. *)
From Coq Require Import Reals Lra List.
From Verif Require Import Base Glm GlmSpec Trackball TrackballSpec Drift DriftSpec DriftRound DriftFacts Viewport Vec VecSpec Render RenderSpec Picture PictureSpec PictureFacts
  Outline OutlineSpec Single SingleSpec SingleFacts Rendered RenderedSpec Joined JoinedSpec JoinedFacts.
Import ListNotations.
Local Open Scope R_scope.

(** Every segment is drawn once, with its own colour and width, both ends within a hundredth of a
    pixel of where exact arithmetic puts them, and it is not covered by one that is wholly farther
    by a little more than a thousandth. *)
Theorem C123_segments L theta phi l : good_library L -> Forall on_screen l ->
  exists b b' m proj, fnew L theta phi = Ok b /\ facts L b l = Ok b' /\ rotation m /\ near (/ 10 ^ 7) (t_model b') m /\
    perspective 35 1 1 100 false = Ok proj /\
    forall argsort v s view' proj' ps gs color width out, sorts_numbers argsort ->
      usable v -> Rabs (unit_x v) <= 1000 -> Rabs (unit_y v) <= 1000 -> / 1000 <= s <= 1000 -> Forall (in_cube s) ps ->
      stored (camera_view s) view' -> stored proj proj' ->
      in_pairs gs ps -> let n := length gs in fits n color -> clear n color -> fits n width -> clear n width ->
      segments_computed argsort v ps (transpose (t_model b')) view' proj' color width out ->
      exists order, visits n order /\ joined_covers (fun p => - z4 (eye (transpose m) (camera_view s) p)) gs order /\
        joined_beside (/ 100) (fun p => spot v (clip (transpose m) (camera_view s) proj p)) (fun j => [own color j; own width j]) gs order out.
Proof. exact (whole_segments L theta phi l). Qed.
Print Assumptions C123_segments.
(** The same for paths and polygons with any number of vertices. *)
Theorem C123_outlines L theta phi l : good_library L -> Forall on_screen l ->
  exists b b' m proj, fnew L theta phi = Ok b /\ facts L b l = Ok b' /\ rotation m /\ near (/ 10 ^ 7) (t_model b') m /\
    perspective 35 1 1 100 false = Ok proj /\
    forall argsort v s view' proj' ps i gs attrs out, sorts_numbers argsort ->
      usable v -> Rabs (unit_x v) <= 1000 -> Rabs (unit_y v) <= 1000 -> / 1000 <= s <= 1000 -> Forall (in_cube s) ps ->
      stored (camera_view s) view' -> stored proj proj' ->
      group ps i = Ok gs -> let n := length gs in Forall (fun a => fits n a /\ clear_path n (length ps) a) attrs ->
      outlines_computed argsort v ps (transpose (t_model b')) view' proj' i attrs out ->
      exists order, visits n order /\ joined_covers (fun p => - z4 (eye (transpose m) (camera_view s) p)) gs order /\
        joined_beside (/ 100) (fun p => spot v (clip (transpose m) (camera_view s) proj p)) (fun j => map (fun a => own a j) attrs) gs order out.
Proof. exact (whole_outlines L theta phi l). Qed.
Print Assumptions C123_outlines.
(** Every marker is drawn once, of its own shape, where its vertex is. *)
Theorem C123_markers {X} L theta phi l : good_library L -> Forall on_screen l ->
  exists b b' m proj, fnew L theta phi = Ok b /\ facts L b l = Ok b' /\ rotation m /\ near (/ 10 ^ 7) (t_model b') m /\
    perspective 35 1 1 100 false = Ok proj /\
    forall argsort v s view' proj' ps (shapes : list X) face edge width size out, sorts_numbers argsort ->
      usable v -> Rabs (unit_x v) <= 1000 -> Rabs (unit_y v) <= 1000 -> / 1000 <= s <= 1000 -> Forall (in_cube s) ps ->
      stored (camera_view s) view' -> stored proj proj' ->
      let n := length ps in length shapes = n ->
      fits n face -> clear n face -> fits n edge -> clear n edge -> fits n width -> clear n width -> fits_size n size ->
      markers_computed argsort v ps (transpose (t_model b')) view' proj' shapes face edge width size out ->
      exists order, visits n order /\ covers_but (/ 1000) (fun p => - z4 (eye (transpose m) (camera_view s) p)) ps order /\
        shaped_beside (/ 100) (fun p => spot v (clip (transpose m) (camera_view s) proj p)) (fun j => [own face j; own edge j; own width j; own size j]) shapes ps order out.
Proof. exact (whole_markers L theta phi l). Qed.
Print Assumptions C123_markers.
(** Such pictures are drawn. *)
Theorem C123_drawn {X} L theta phi l : good_library L -> Forall on_screen l ->
  exists b b' proj, fnew L theta phi = Ok b /\ facts L b l = Ok b' /\ perspective 35 1 1 100 false = Ok proj /\
    forall argsort v s ps gs i gs' (shapes : list X) color width attrs face edge size, sorts_numbers argsort -> / 1000 <= s <= 1000 -> Forall (in_cube s) ps ->
      in_pairs gs ps -> group ps i = Ok gs' -> Forall (fun a => fits (length gs') a /\ clear_path (length gs') (length ps) a) attrs -> fits_size (length ps) size ->
      let M := transpose (t_model b') in let V := single (camera_view s) in let Q := single proj in
      stored (camera_view s) V /\ stored proj Q /\
      (exists out, segments_computed argsort v ps M V Q color width out) /\
      (exists out, outlines_computed argsort v ps M V Q i attrs out) /\
      exists out, markers_computed argsort v ps M V Q shapes face edge width size out.
Proof. exact (whole_joined_exist L theta phi l). Qed.
Print Assumptions C123_drawn.
(** However many numbers are added, in whatever order. *)
Theorem C123_sums l r : summed l r ->
  Rabs (r - total l) <= ((1 + / 16777216) ^ length l - 1) * weight l + (1 + / 16777216) ^ length l * (2 * INR (length l) - 1) * / 10 ^ 30.
Proof. exact (summed_any l r). Qed.
Print Assumptions C123_sums.

Definition strips : list (list vec3) := [[V3 1 1 1; V3 (-1) 1 (1 / 2)]; [V3 0 (1 / 3) (-1); V3 0 0 (- 1 / 2)]].
Example C123_case : good_library correct_library /\ Forall on_screen [Trackball.Drag (1 / 2) (-1 / 4) (1 / 64) (3 / 32); SetPhi 30] /\
  sorts_numbers sort_nums /\ in_pairs strips (concat strips) /\ Forall (in_cube 1) (concat strips) /\ group (concat strips) (Render.Uniform 2) = Ok strips /\
  Forall (fun a => fits 2 a /\ clear_path 2 4 a) [Render.Rows [[1%Z]; [2%Z]]; Whole 3%Z] /\
  ~ joined_covers (fun p => - z3 p) strips [0; 1]%nat /\ joined_covers (fun p => - z3 p) strips [1; 0]%nat.
Proof.
  split; [exact correct_good|]. split.
  { repeat apply Forall_cons; try apply Forall_nil; cbn [on_screen]; try exact Logic.I; repeat split; apply Rabs_le; lra. }
  split; [exact sort_nums_sorts|]. split; [split; [reflexivity|repeat constructor]|]. split.
  { unfold strips, concat. cbn [app]. repeat apply Forall_cons; try apply Forall_nil; unfold in_cube; cbn [x3 y3 z3]; repeat split; apply Rabs_le; lra. }
  split; [reflexivity|]. split; [repeat constructor; cbn; auto|]. split.
  - intros H. apply (H 0%nat 1%nat 0%nat 1%nat _ _ ltac:(auto) eq_refl eq_refl eq_refl eq_refl). split; [discriminate|]. split; [discriminate|].
    intros p q [<-|[<-|[]]] [<-|[<-|[]]]; unfold margin; cbn [length Nat.add INR z3 pow]; lra.
  - intros [|[|i]] [|[|j]] a b g h L A B G H (_ & _ & D); try (exfalso; inversion L; fail); try discriminate; cbn in A, B; try (destruct i; discriminate); try (destruct j; discriminate);
      injection A as <-; injection B as <-; injection G as <-; injection H as <-; try (exfalso; inversion L as [|? L']; inversion L'; fail).
    pose proof (D _ _ (or_introl eq_refl) (or_introl eq_refl)) as K. unfold margin in K. cbn [length Nat.add INR z3 pow] in K. lra.
Qed.
