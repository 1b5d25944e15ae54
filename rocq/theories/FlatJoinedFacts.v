(** Things with several corners under the flat camera. *)
From Coq Require Import Reals Lra Psatz List Permutation ZArith Lia.
From Verif Require Import Base Glm GlmSpec Trackball Drift DriftSpec DriftRound DriftFacts Slice Ragged Viewport Vec VecSpec Render RenderSpec RenderFacts Picture PictureSpec PictureFacts Outline OutlineSpec OutlineFacts Single SingleSpec SingleFacts Rendered RenderedSpec RenderedFacts Joined JoinedSpec JoinedFacts Optics OpticsSpec OpticsFacts Flat FlatSpec FlatFacts.
Import ListNotations.
Local Open Scope R_scope.

Section Whole.
Variables (v : Viewport.viewport) (argsort : list num -> list nat) (ps : list vec3) (proj : mat).
Hypotheses (U : usable v) (SORT : sorts_numbers argsort) (FS : Forall single_vertex ps) (FC : Forall (in_cube 1) ps) (E0 : flat_proj_computed = Ok proj).

Definition flat_seen (p q : vec3) : Prop := in_cube 1 p /\ single_vertex p /\ flat_placed p q.
Lemma vertices_flat T qs : transform_computed eye4 eye4 proj T -> Forall2 (vertex_computed T) ps qs -> Forall2 flat_seen ps qs.
Proof.
  intros HT H. revert FS FC. induction H as [|p q l m Hq _ IH]; intros J K; constructor; inversion J; inversion K; subst; auto.
  split; [assumption|]. split; [assumption|]. exact (flat_vertex proj E0 T p q HT Hq).
Qed.
Lemma flat_corner p q : flat_seen p q -> on_canvas v (Num (x3 q)) (Num (y3 q)) = upright_spot v p.
Proof. intros (_ & S & H). destruct (flat_exact p q S H) as [-> ->]. apply on_canvas_spot. exact U. Qed.
Lemma flat_seen_depth p q : flat_seen p q -> -1 <= z3 p <= 1 /\ Rabs (z3 q - (-2 / 99 * z3 p - 101 / 99)) <= 5 / 10 ^ 7 /\ Rabs (z3 q) <= 105 / 100.
Proof.
  intros (C & _ & H). destruct (flat_depth p q C H) as (_ & _ & Z). destruct C as (_ & _ & C). rewrite Rmult_1_l in C. apply Rabs_le_iff in C.
  split; [lra|]. split; [exact Z|]. apply Rabs_le_iff in Z. apply Rabs_le. cbn [pow] in *. lra.
Qed.
Lemma flat_means g g' h h' x y : Forall2 flat_seen g h -> Forall2 flat_seen g' h' -> farther (fun p => - z3 p) g g' ->
  mean_key h (Num x) -> mean_key h' (Num y) -> y < x.
Proof.
  intros G G' (N1 & N2 & D) K K'.
  assert (H1 : h <> []) by (intros ->; inversion G; subst; auto). assert (H2 : h' <> []) by (intros ->; inversion G'; subst; auto).
  assert (L1 : length g = length h) by exact (Forall2_len _ _ _ G). assert (L2 : length g' = length h') by exact (Forall2_len _ _ _ G').
  unfold margin in D. rewrite L1, L2, plus_INR in D. set (n := INR (length h)) in *. set (n' := INR (length h')) in *.
  pose proof (length_pos h H1) as P1. pose proof (length_pos h' H2) as P2. fold n in P1. fold n' in P2.
  set (d := / 1000 + (n + n') / 10 ^ 5) in *. assert (D0 : 0 <= d) by (unfold d; cbn [pow]; lra).
  assert (DS : forall q q', In q h -> In q' h' -> z3 q + (2 / 99 * d - / 10 ^ 6) <= z3 q' /\ d <= 2).
  { intros q q' Hq Hq'. destruct (Forall2_In_r _ _ _ _ G Hq) as (p & Hp & Sp). destruct (Forall2_In_r _ _ _ _ G' Hq') as (p' & Hp' & Sp').
    destruct (flat_seen_depth p q Sp) as (W & C & _). destruct (flat_seen_depth p' q' Sp') as (W' & C' & _). pose proof (D p p' Hp Hp') as E. cbv beta in E.
    apply Rabs_le_iff in C, C'. cbn [pow] in *. split; lra. }
  assert (SM : d <= 2).
  { destruct h as [|q h0]; [contradiction|]. destruct h' as [|q' h0']; [contradiction|]. exact (proj2 (DS q q' (or_introl eq_refl) (or_introl eq_refl))). }
  assert (B1 : forall q, In q h -> Rabs (z3 q) <= 105 / 100) by (intros q Hq; destruct (Forall2_In_r _ _ _ _ G Hq) as (p & _ & Sp); apply (flat_seen_depth p q Sp)).
  assert (B2 : forall q, In q h' -> Rabs (z3 q) <= 105 / 100) by (intros q Hq; destruct (Forall2_In_r _ _ _ _ G' Hq) as (p & _ & Sp); apply (flat_seen_depth p q Sp)).
  pose proof (exact_mean_sep _ h h' H1 H2 (fun q q' A B => proj1 (DS q q' A B))) as ES.
  assert (X : Rabs (- x - exact_mean h) <= 2 / 10 ^ 7 * n + / 10 ^ 6) by (apply (mean_err h (Num x) (- x) H1 B1); [unfold d in SM; cbn [pow] in SM; unfold n in *; lra|exact K|f_equal; ring]).
  assert (Y : Rabs (- y - exact_mean h') <= 2 / 10 ^ 7 * n' + / 10 ^ 6) by (apply (mean_err h' (Num y) (- y) H2 B2); [unfold d in SM; cbn [pow] in SM; unfold n' in *; lra|exact K'|f_equal; ring]).
  apply Rabs_le_iff in X, Y. unfold d in ES. cbn [pow] in *. lra.
Qed.
Lemma flat_joined_order gs hs ks : Forall2 (Forall2 flat_seen) gs hs -> Forall2 mean_key hs ks ->
  visits (length gs) (argsort ks) /\ joined_covers (fun p => - z3 p) gs (argsort ks).
Proof.
  intros G K. pose proof (Forall2_len _ _ _ G) as L1. pose proof (Forall2_len _ _ _ K) as L2.
  split; [unfold visits; rewrite L1, L2; apply (proj1 (SORT ks))|].
  intros i j a b g g' Hij Hi Hj Ea Eb FA.
  destruct (Forall2_nth _ _ _ G a g Ea) as (h & Eh & Hh). destruct (Forall2_nth _ _ _ G b g' Eb) as (h' & Eh' & Hh').
  destruct (Forall2_nth _ _ _ K a h Eh) as (k & Ek & Kk). destruct (Forall2_nth _ _ _ K b h' Eh') as (k' & Ek' & Kk').
  assert (X : exists x, k = Num x). { destruct h; [destruct FA as (N1 & _); inversion Hh; subst; contradiction|]. destruct Kk as (t & m & _ & _ & ->). eauto. }
  assert (Y : exists y, k' = Num y). { destruct h'; [destruct FA as (_ & N2 & _); inversion Hh'; subst; contradiction|]. destruct Kk' as (t & m & _ & _ & ->). eauto. }
  destruct X as [x ->], Y as [y ->]. pose proof (flat_means g g' h h' x y Hh Hh' FA Kk Kk') as LT.
  pose proof (proj2 (SORT ks) i j a b x y Hij Hi Hj Ek Ek'). lra.
Qed.
Lemma flat_joined_items gs hs idx own_ out : Forall2 (Forall2 flat_seen) gs hs ->
  map Some out = map (fun j => option_map (fun x => (x, own_ j)) (nth_error (map (corners_at v) hs) j)) idx -> visits (length gs) idx ->
  joined_at (upright_spot v) own_ gs idx out.
Proof.
  intros G E V. eapply options_joined; [exact E|]. intros j x Ij Ex. cbv beta in Ex.
  assert (J : (j < length gs)%nat) by (apply (Permutation_in _ V) in Ij; apply in_seq in Ij; lia).
  destruct (nth_error gs j) as [g|] eqn:Eg; [|apply nth_error_None in Eg; lia].
  destruct (Forall2_nth _ _ _ G j g Eg) as (h & Eh & Hh). rewrite nth_error_map, Eh in Ex. cbn [option_map] in Ex. injection Ex as <-.
  exists g. split; [reflexivity|]. cbn [fst snd]. split; [|reflexivity].
  unfold corners_at. clear - Hh U. induction Hh as [|p q g h Hq _ IH]; [reflexivity|]. cbn [map]. rewrite IH, (flat_corner p q Hq). reflexivity.
Qed.
Lemma flat_segments_whole gs color width out : in_pairs gs ps -> let n := length gs in
  fits n color -> clear n color -> fits n width -> clear n width ->
  segments_computed argsort v ps eye4 eye4 proj color width out ->
  exists order, visits n order /\ joined_covers (fun p => - z3 p) gs order /\
    joined_at (upright_spot v) (fun j => [own color j; own width j]) gs order out.
Proof.
  intros (G1 & G2) n F1 C1 F2 C2 (T & qs & hs & ks & HT & HV & HG & HK & H). cbv zeta in H.
  pose proof (vertices_flat T qs HT HV) as HS.
  destruct (split_groups flat_seen (@pairs) ps qs hs (@pairs_map) (fun C x gs => in_pairs_of x gs) HS HG) as (gs' & Eg & G).
  assert (gs' = gs) by (rewrite <- G1, (pairs_ok gs G2) in Eg; congruence). subst gs'.
  destruct (flat_joined_order gs hs ks G HK) as [V C]. assert (LH : length hs = n) by (symmetry; exact (Forall2_len _ _ _ G)). rewrite LH in H.
  exists (argsort ks). split; [exact V|]. split; [exact C|]. subst out. apply (flat_joined_items gs hs); auto.
  rewrite drawn with (as_ := [color; width]); [reflexivity|now rewrite map_length, LH|].
  intros i j Hi. cbn [map]. now rewrite !(shown_attach n (argsort ks)) with (j := j) by assumption.
Qed.
Lemma flat_outlines_whole i gs attrs out : group ps i = Ok gs -> let n := length gs in
  Forall (fun a => fits n a /\ clear_path n (length ps) a) attrs ->
  outlines_computed argsort v ps eye4 eye4 proj i attrs out ->
  exists order, visits n order /\ joined_covers (fun p => - z3 p) gs order /\
    joined_at (upright_spot v) (fun j => map (fun a => own a j) attrs) gs order out.
Proof.
  intros GR n FA (T & qs & hs & ks & bs & HT & HV & HG & HK & H). cbv zeta in H. destruct H as [EB H].
  pose proof (vertices_flat T qs HT HV) as HS.
  destruct (split_groups flat_seen (fun C l => group l i) ps qs hs (fun C D h x => group_map h x i) (fun C x gs => in_group x i gs) HS HG) as (gs' & Eg & G).
  assert (gs' = gs) by congruence. subst gs'.
  destruct (flat_joined_order gs hs ks G HK) as [V C]. assert (LH : length hs = n) by (symmetry; exact (Forall2_len _ _ _ G)).
  assert (LQ : length qs = length ps) by (symmetry; exact (Forall2_len _ _ _ HV)). rewrite LH, LQ in EB.
  destruct (attach_all_shown n (length ps) (argsort ks) V attrs FA) as (bs' & Eb & Hb). rewrite Eb in EB. injection EB as <-.
  exists (argsort ks). split; [exact V|]. split; [exact C|]. subst out. apply (flat_joined_items gs hs); auto.
  rewrite drawn with (as_ := attrs); [reflexivity|now rewrite map_length, LH|exact Hb].
Qed.
Lemma flat_markers_whole {X} (shapes : list X) face edge width size out : let n := length ps in length shapes = n ->
  fits n face -> clear n face -> fits n edge -> clear n edge -> fits n width -> clear n width -> fits_size n size ->
  markers_computed argsort v ps eye4 eye4 proj shapes face edge width size out ->
  exists order, visits n order /\ covers_but (/ 10000) (fun p => - z3 p) ps order /\
    shaped_at (upright_spot v) (fun j => [own face j; own edge j; own width j; own size j]) shapes ps order out.
Proof.
  intros n LS F1 C1 F2 C2 F3 C3 F4 (T & qs & ks & sz & HT & HV & HK & H).
  cbv zeta in H. assert (LQ : length qs = n) by (symmetry; exact (Forall2_len _ _ _ HV)). assert (LK : length ks = n) by (rewrite <- LQ; symmetry; exact (Forall2_len _ _ _ HK)).
  rewrite LQ in H. set (idx := argsort (map Num ks)) in *. destruct H as (ES & ->).
  assert (V : visits n idx) by (unfold visits; rewrite <- LK, <- (map_length Num ks); apply (proj1 (SORT (map Num ks)))).
  destruct (shown_size n idx size V F4) as (b & Eb & Hb). rewrite Eb in ES. injection ES as <-.
  exists idx. split; [exact V|]. split.
  - intros i j a c p q Hij Hi Hj Ep Eq. destruct (Forall2_nth _ _ _ HV a p Ep) as (p' & Ep' & Hp). destruct (Forall2_nth _ _ _ HV c q Eq) as (q' & Eq' & Hq).
    destruct (Forall2_nth _ _ _ HK a p' Ep') as (k & Ek & Kk). destruct (Forall2_nth _ _ _ HK c q' Eq') as (k' & Ek' & Kk').
    assert (K : k <= k') by (apply (proj2 (SORT (map Num ks)) i j a c k k' Hij Hi Hj); rewrite nth_error_map, ?Ek, ?Ek'; reflexivity).
    apply Rnot_le_lt. intros D.
    destruct (flat_order p q p' q' k k' (nth_cube ps FC a p Ep) (nth_cube ps FC c q Eq) (flat_vertex proj E0 T p p' HT Hp) (flat_vertex proj E0 T q q' HT Hq) Kk Kk'); lra.
  - assert (E : map Some (collection (combine (Slice.pick shapes idx) (Slice.pick (map (fun q => on_canvas v (Num (x3 q)) (Num (y3 q))) qs) idx)) [attach n idx face; attach n idx edge; attach n idx width; b]) =
       map (fun j => option_map (fun x => (x, map (fun a => own a j) [face; edge; width; size])) (nth_error (combine shapes (map (fun q => on_canvas v (Num (x3 q)) (Num (y3 q))) qs)) j)) idx).
    { rewrite combine_pick; [|now rewrite map_length, LQ|intros j Hj; rewrite LS; now apply (visits_in n idx)].
      apply drawn.
      + rewrite combine_length, map_length, LQ, LS, Nat.min_id. exact V.
      + intros i j Hi. cbn [map]. rewrite !(shown_attach n idx) with (j := j) by assumption. now rewrite (Hb i j Hi). }
    eapply options_joined; [exact E|]. intros j x Ij Ex. cbv beta in Ex.
    assert (J : (j < n)%nat) by (apply (Permutation_in _ V) in Ij; apply in_seq in Ij; lia).
    destruct (nth_error ps j) as [p|] eqn:Ep; [|apply nth_error_None in Ep; unfold n in *; lia].
    destruct (nth_error shapes j) as [sh|] eqn:Esh; [|apply nth_error_None in Esh; unfold n in *; lia].
    destruct (Forall2_nth _ _ _ HV j p Ep) as (q & Eq & Hq).
    assert (CN : forall (x : list X) (y : list (option (R * R))) i, nth_error (combine x y) i = match nth_error x i, nth_error y i with Some a, Some b => Some (a, b) | _, _ => None end).
    { clear. induction x as [|a x IH]; intros [|c y] [|q]; cbn; auto. now destruct (nth_error x q). }
    rewrite CN, nth_error_map, Esh, Eq in Ex. cbn [option_map] in Ex. injection Ex as <-.
    exists p, sh, (on_canvas v (Num (x3 q)) (Num (y3 q))). cbn [fst snd map]. repeat split; auto.
    apply flat_corner. split; [exact (nth_cube ps FC j p Ep)|]. split; [exact (nth_single ps FS j p Ep)|exact (flat_vertex proj E0 T p q HT Hq)].
Qed.
Lemma flat_vertices T : transform_computed eye4 eye4 proj T -> exists qs ks, Forall2 (vertex_computed T) ps qs /\ Forall2 sort_key qs ks.
Proof.
  intros HT. clear FS FC. induction ps as [|p l (qs & ks & A & B)]; [exists [], []; auto|].
  destruct (moved_exists T p) as [k Hk].
  assert (W : w4 k = 1).
  { destruct flat_proj as (c & d & F & Fc & Fd & _). rewrite E0 in F. injection F as ->.
    destruct HT as (PV & P1 & P2). apply flat_product in P1 as ->; [|exact Fc|exact Fd]. apply flat_product in P2 as ->; [|exact Fc|exact Fd].
    destruct Hk as (_ & _ & _ & M3). unfold flat_form, terms, point in M3. cbn [row0 row1 row2 row3 x4 y4 z4 w4] in M3. eapply sparse_is; [exact M3|cbn [total]; ring| |apply f32_1]. sparse. }
  exists (V3 (rnd32 (x4 k / w4 k)) (rnd32 (y4 k / w4 k)) (rnd32 (z4 k / w4 k)) :: qs), (rnd32 (1 - rnd32 (z4 k / w4 k)) :: ks).
  split; constructor; auto; [|now left]. exists k. split; [exact Hk|]. unfold divided, result. repeat split; auto. lra.
Qed.
Lemma flat_joined_exist {X} gs i gs' (shapes : list X) color width attrs face edge size : in_pairs gs ps -> group ps i = Ok gs' ->
  Forall (fun a => fits (length gs') a /\ clear_path (length gs') (length ps) a) attrs -> fits_size (length ps) size ->
  (exists out, points_computed argsort v ps eye4 eye4 proj face edge width size out) /\ (exists out, pixels_computed argsort v ps eye4 eye4 proj color out) /\
  (exists out, segments_computed argsort v ps eye4 eye4 proj color width out) /\
  (exists out, outlines_computed argsort v ps eye4 eye4 proj i attrs out) /\
  exists out, markers_computed argsort v ps eye4 eye4 proj shapes face edge width size out.
Proof.
  intros (G1 & G2) GR FA FZ. destruct (product_exists proj eye4) as [PV E1], (product_exists PV eye4) as [T E2].
  assert (HT : transform_computed eye4 eye4 proj T) by (exists PV; auto).
  destruct (flat_vertices T HT) as (qs & ks & A & B).
  assert (LQ : length qs = length ps) by (symmetry; exact (Forall2_len _ _ _ A)). assert (LK : length ks = length ps) by (rewrite <- LQ; symmetry; exact (Forall2_len _ _ _ B)).
  assert (V0 : visits (length ps) (argsort (map Num ks))) by (unfold visits; rewrite <- LK, <- (map_length Num ks); apply (proj1 (SORT (map Num ks)))).
  destruct (shown_size _ _ size V0 FZ) as (sz0 & Ez0 & _).
  split. { eexists. exists T, qs, ks, sz0. cbv zeta. rewrite LQ. eauto 8. }
  split. { eexists. exists T, qs. cbv zeta. eauto 8. }
  split; [|split].
  - destruct (split_back (vertex_computed T) (@pairs) ps qs gs (@pairs_map) A) as [hs Eh]; [rewrite <- G1; now apply pairs_ok|].
    destruct (mean_exists hs) as [ms K]. eexists. exists T, qs, hs, ms. cbv zeta. eauto 8.
  - destruct (split_groups (vertex_computed T) (fun C l => group l i) ps qs) with (hs := match group qs i with Ok h => h | Err _ => [] end) as (g2 & Eg & G).
    + exact (fun C D h x => group_map h x i). + exact (fun C x gs => in_group x i gs). + exact A.
    + destruct (split_back (vertex_computed T) (fun C l => group l i) ps qs gs' (fun C D h x => group_map h x i) A GR) as [hs Eh]. now rewrite Eh.
    + destruct (split_back (vertex_computed T) (fun C l => group l i) ps qs gs' (fun C D h x => group_map h x i) A GR) as [hs Eh]. cbv beta in Eh. rewrite Eh in G.
      assert (g2 = gs') by congruence. subst g2. destruct (mean_exists hs) as [ms K].
      assert (LH : length hs = length gs') by (symmetry; exact (Forall2_len _ _ _ G)).
      assert (V : visits (length gs') (argsort ms)) by (unfold visits; rewrite <- LH, (Forall2_len _ _ _ K); apply (proj1 (SORT ms))).
      destruct (attach_all_shown (length gs') (length ps) (argsort ms) V attrs FA) as (bs & Eb & _).
      eexists. exists T, qs, hs, ms, bs. cbv zeta. rewrite LH, LQ. eauto 10.
  - assert (V : visits (length ps) (argsort (map Num ks))) by (unfold visits; rewrite <- LK, <- (map_length Num ks); apply (proj1 (SORT (map Num ks)))).
    destruct (shown_size _ _ size V FZ) as (sz & Ez & _). eexists. exists T, qs, ks, sz. cbv zeta. rewrite LQ. eauto 8.
Qed.
End Whole.
