(** Bounds on the rounding of the flat camera. *)
From Coq Require Import Reals Lra Psatz List Permutation ZArith Lia.
From Flocq Require Import Core.
From Verif Require Import Base Glm GlmSpec Vec Trackball Drift DriftSpec DriftRound DriftFacts Viewport VecSpec Render RenderSpec RenderFacts Picture PictureSpec PictureFacts Single SingleSpec SingleFacts Rendered RenderedSpec RenderedFacts Optics OpticsSpec OpticsFacts Flat FlatSpec.
Import ListNotations.
Local Open Scope R_scope.

Definition flat_form (c d : R) : mat := Mat (V4 1 0 0 0) (V4 0 1 0 0) (V4 0 0 c d) (V4 0 0 0 1).
Lemma side_2 : fsub 1 (-1) = 2.
Proof. unfold fsub. replace (1 - -1) with (bpow radix2 1) by (cbn; lra). rewrite rnd_bpow by lia. reflexivity. Qed.
Lemma flat_proj : exists c d, flat_proj_computed = Ok (flat_form c d) /\ f32 c /\ f32 d /\ held (-2 / 99) c /\ held (-101 / 99) d.
Proof.
  unfold flat_proj_computed, fortho. assert (S : sides 1 100) by (unfold sides; rewrite !Rabs_pos_eq by lra; cbn [pow]; lra).
  destruct (over_sides (- 2) 1 100 ltac:(rewrite Rabs_left; lra) S) as (q2 & Q2 & K2), (middle_sides 1 100 S) as (q5 & Q5 & K5).
  assert (O : rnd 1 = 1) by (apply (rnd_bpow 0); lia). assert (O32 : rnd32 1 = 1) by (apply (rnd32_int 1); reflexivity).
  assert (Z : fadd 1 (-1) = 0) by (unfold fadd; replace (1 + -1) with 0 by ring; apply rnd_0).
  rewrite side_2, Z, Q2, Q5, !fdiv_ok by lra. cbn [bind]. replace (2 / 2) with 1 by lra. replace (- 0 / 2) with 0 by lra. rewrite O, rnd_0, rnd32_0, O32.
  exists (rnd32 q2), (rnd32 q5). split; [reflexivity|]. split; [apply f32_rnd32|]. split; [apply f32_rnd32|].
  replace (100 - 1) with 99 in K2, K5 by ring. replace (- (100 + 1)) with (-101) in K5 by ring. split; [exact K2|exact K5].
Qed.
Lemma sparse_is l r e : summed l r -> total l = e -> (length (filter some l) <= 1)%nat -> f32 e -> r = e.
Proof. intros H T N F. rewrite <- T. apply summed_sparse; [exact H|exact N|rewrite T; exact F]. Qed.
Lemma sparse_any p l : (length (filter some l) <= 0)%nat -> (length (filter some (p :: l)) <= 1)%nat.
Proof. intros H. cbn [filter]. destruct (some p); cbn [length]; lia. Qed.
Lemma sparse_zero n a b l : a * b = 0 -> (length (filter some l) <= n)%nat -> (length (filter some ((a, b) :: l)) <= n)%nat.
Proof. intros E H. cbn [filter]. rewrite (some_zero a b E). exact H. Qed.
Ltac sparse := repeat first [cbn [filter length]; lia|apply sparse_zero; [ring|]|apply sparse_any].
Lemma f32_1 : f32 1.
Proof. rewrite <- (rnd32_int 1 ltac:(reflexivity)). apply f32_rnd32. Qed.
Lemma flat_product c d C : f32 c -> f32 d -> product (flat_form c d) eye4 C -> C = flat_form c d.
Proof.
  intros F G. unfold product, row_product, flat_form, eye4, transpose, terms. cbn [row0 row1 row2 row3 x4 y4 z4 w4].
  destruct C as [[a0 a1 a2 a3] [b0 b1 b2 b3] [c0 c1 c2 c3] [d0 d1 d2 d3]]. cbn [row0 row1 row2 row3 x4 y4 z4 w4].
  intros ((A0 & A1 & A2 & A3) & (B0 & B1 & B2 & B3) & (C0 & C1 & C2 & C3) & (D0 & D1 & D2 & D3)). pose proof f32_1. pose proof f32_0.
  f_equal; f_equal; (eapply sparse_is; [eassumption|cbn [total]; ring| |assumption]); sparse.
Qed.
Lemma flat_moved p q : flat_placed p q -> exists c d T, held (-2 / 99) c /\ held (-101 / 99) d /\ w4 T = 1 /\
  summed [(1, x3 p); (0, y3 p); (0, z3 p); (0, 1)] (x4 T) /\ summed [(0, x3 p); (1, y3 p); (0, z3 p); (0, 1)] (y4 T) /\
  summed [(0, x3 p); (0, y3 p); (c, z3 p); (d, 1)] (z4 T) /\ result (x4 T) (x3 q) /\ result (y4 T) (y3 q) /\ result (z4 T) (z3 q).
Proof.
  intros (proj & E & T & k & (PV & P1 & P2) & (M0 & M1 & M2 & M3) & _ & R0 & R1 & R2). destruct flat_proj as (c & d & F & Fc & Fd & Hc & Hd). rewrite F in E. injection E as <-.
  apply flat_product in P1 as ->; [|exact Fc|exact Fd]. apply flat_product in P2 as ->; [|exact Fc|exact Fd].
  unfold flat_form, terms, point in *. cbn [row0 row1 row2 row3 x4 y4 z4 w4] in *.
  assert (W : w4 k = 1). { eapply sparse_is; [exact M3|cbn [total]; ring| |apply f32_1]. sparse. }
  rewrite W in *. unfold Rdiv in *. rewrite Rinv_1, !Rmult_1_r in *. exists c, d, k. repeat (split; [assumption|]). assumption.
Qed.
Lemma flat_exact p q : single_vertex p -> flat_placed p q -> x3 q = x3 p /\ y3 q = y3 p.
Proof.
  intros (S0 & S1 & _) H. destruct (flat_moved p q H) as (c & d & k & _ & _ & _ & X & Y & _ & RX & RY & _).
  assert (FX : f32 (x3 p)) by (rewrite S0; apply f32_rnd32). assert (FY : f32 (y3 p)) by (rewrite S1; apply f32_rnd32).
  assert (EX : x4 k = x3 p). { eapply sparse_is; [exact X|cbn [total]; ring| |exact FX]. sparse. }
  assert (EY : y4 k = y3 p). { eapply sparse_is; [exact Y|cbn [total]; ring| |exact FY]. sparse. }
  rewrite EX in RX. rewrite EY in RY. split; apply f32_stays; assumption.
Qed.
Lemma four_err l r B : length l = 4%nat -> summed l r -> weight l <= B -> B <= 2 -> Rabs (r - total l) <= 24 / 10 ^ 8 * B + / 10 ^ 20.
Proof.
  intros N S W B2. pose proof (summed_err l r S) as E. rewrite N in E. assert (G : 0 <= g 4 <= 24 / 10 ^ 8) by (unfold g, u24; cbn [pow]; lra).
  assert (H : g 4 * weight l <= 24 / 10 ^ 8 * B).
  { assert (0 <= weight l) by apply weight_pos. apply Rle_trans with (24 / 10 ^ 8 * weight l); [apply Rmult_le_compat_r; lra|apply Rmult_le_compat_l; lra]. }
  unfold SingleFacts.eta in E. cbn [pow] in *. lra.
Qed.
Lemma flat_depth p q : in_cube 1 p -> flat_placed p q -> Rabs (x3 q - x3 p) <= / 10 ^ 6 /\ Rabs (y3 q - y3 p) <= / 10 ^ 6 /\ Rabs (z3 q - (-2 / 99 * z3 p - 101 / 99)) <= 5 / 10 ^ 7.
Proof.
  intros (X & Y & Z) H. rewrite !Rmult_1_l in *. destruct (flat_moved p q H) as (c & d & k & Hc & Hd & _ & SX & SY & SZ & RX & RY & RZ).
  assert (EX : Rabs (x4 k - x3 p) <= 24 / 10 ^ 8 * 1 + / 10 ^ 20).
  { replace (x3 p) with (total [(1, x3 p); (0, y3 p); (0, z3 p); (0, 1)]) by (cbn [total]; ring). apply four_err; [reflexivity|exact SX| |lra].
    cbn [weight]. rewrite !Rmult_0_l, Rmult_1_l, Rabs_R0. lra. }
  assert (EY : Rabs (y4 k - y3 p) <= 24 / 10 ^ 8 * 1 + / 10 ^ 20).
  { replace (y3 p) with (total [(0, x3 p); (1, y3 p); (0, z3 p); (0, 1)]) by (cbn [total]; ring). apply four_err; [reflexivity|exact SY| |lra].
    cbn [weight]. rewrite !Rmult_0_l, Rmult_1_l, Rabs_R0. lra. }
  unfold held in Hc, Hd. rewrite (Rabs_left (-2 / 99)) in Hc by lra. rewrite (Rabs_left (-101 / 99)) in Hd by lra.
  apply Rabs_le_iff in Hc, Hd, X, Y, Z.
  assert (CZ : - (21 / 1000) <= c * z3 p <= 21 / 1000) by (cbn [pow] in *; split; nra).
  assert (EZ : Rabs (z4 k - (c * z3 p + d)) <= 24 / 10 ^ 8 * (105 / 100) + / 10 ^ 20).
  { replace (c * z3 p + d) with (total [(0, x3 p); (0, y3 p); (c, z3 p); (d, 1)]) by (cbn [total]; ring). apply four_err; [reflexivity|exact SZ| |lra].
    cbn [weight]. rewrite !Rmult_0_l, Rmult_1_r, Rabs_R0. assert (Rabs (c * z3 p) <= 21 / 1000) by (apply Rabs_le; lra). assert (Rabs d <= 1021 / 1000) by (apply Rabs_le; cbn [pow] in *; lra). lra. }
  assert (CE : - (/ 10 ^ 8) <= c * z3 p - -2 / 99 * z3 p <= / 10 ^ 8) by (replace (c * z3 p - -2 / 99 * z3 p) with ((c - -2 / 99) * z3 p) by ring; cbn [pow] in *; split; nra).
  apply result_err in RX, RY, RZ.
  assert (E2 : SingleFacts.eta <= / 10 ^ 11) by (unfold SingleFacts.eta; apply Rinv_le_contravar; [apply pow_lt; lra|]; apply Rle_pow; [lra|lia]).
  apply Rabs_le_iff in EX, EY, EZ.
  assert (BX : Rabs (x4 k) <= 11 / 10) by (apply Rabs_le; cbn [pow] in *; lra). assert (BY : Rabs (y4 k) <= 11 / 10) by (apply Rabs_le; cbn [pow] in *; lra).
  assert (BZ : Rabs (z4 k) <= 11 / 10) by (apply Rabs_le; cbn [pow] in *; lra).
  assert (RX' : Rabs (x3 q - x4 k) <= 7 / 10 ^ 8) by (unfold u24 in *; cbn [pow] in *; lra). assert (RY' : Rabs (y3 q - y4 k) <= 7 / 10 ^ 8) by (unfold u24 in *; cbn [pow] in *; lra).
  assert (RZ' : Rabs (z3 q - z4 k) <= 7 / 10 ^ 8) by (unfold u24 in *; cbn [pow] in *; lra). apply Rabs_le_iff in RX', RY', RZ'.
  repeat split; apply Rabs_le; cbn [pow] in *; lra.
Qed.
Lemma flat_mats_ok : flat_mats = Ok (eye4, eye4, flat_form (-2 / 99) (-101 / 99)).
Proof.
  unfold flat_mats, ortho. rewrite !div_ok by lra. cbn [bind]. unfold finish, eye4, flat_form. do 3 f_equal; f_equal; lra.
Qed.
Lemma flat_clip p : clip eye4 eye4 (flat_form (-2 / 99) (-101 / 99)) p = V4 (x3 p) (y3 p) (-2 / 99 * z3 p - 101 / 99) 1.
Proof. unfold clip, PictureSpec.eye, apply4, dot4, eye4, flat_form, point. cbn [row0 row1 row2 row3 x4 y4 z4 w4]. f_equal; lra. Qed.
Lemma flat_close : exists model view proj, flat_mats = Ok (model, view, proj) /\ forall p q, in_cube 1 p -> flat_placed p q ->
  within (/ 10 ^ 6) q (exact_place (clip model view proj p)).
Proof.
  exists eye4, eye4, (flat_form (-2 / 99) (-101 / 99)). split; [exact flat_mats_ok|]. intros p q C H. rewrite flat_clip. unfold within, exact_place. cbn [x3 y3 z3 x4 y4 z4 w4].
  unfold Rdiv. rewrite Rinv_1, !Rmult_1_r. destruct (flat_depth p q C H) as (X & Y & Z). split; [exact X|]. split; [exact Y|]. unfold Rdiv in Z. cbn [pow] in *. lra.
Qed.
Lemma flat_pixels : exists model view proj, flat_mats = Ok (model, view, proj) /\ forall v p q, usable v -> single_vertex p -> flat_placed p q ->
  on_canvas v (Num (x3 q)) (Num (y3 q)) = spot v (clip model view proj p).
Proof.
  exists eye4, eye4, (flat_form (-2 / 99) (-101 / 99)). split; [exact flat_mats_ok|]. intros v p q U S H. destruct (flat_exact p q S H) as [-> ->]. rewrite flat_clip.
  rewrite (on_canvas_spot v _ _ U). unfold spot. cbn [x4 y4 w4]. destruct (Req_EM_T 1 0); [lra|]. unfold Rdiv. rewrite Rinv_1, !Rmult_1_r. reflexivity.
Qed.
Lemma flat_order p p' q q' k k' : in_cube 1 p -> in_cube 1 p' -> flat_placed p q -> flat_placed p' q' -> sort_key q k -> sort_key q' k' ->
  z3 p' + / 10000 <= z3 p -> z3 q < z3 q' /\ k' < k.
Proof.
  intros C C' H H' K K' D. destruct (flat_depth p q C H) as (_ & _ & Z), (flat_depth p' q' C' H') as (_ & _ & Z'). unfold sort_key in *. apply result_err in K, K'.
  destruct C as (_ & _ & CZ), C' as (_ & _ & CZ'). rewrite !Rmult_1_l in *. apply Rabs_le_iff in Z, Z', CZ, CZ'.
  assert (E2 : SingleFacts.eta <= / 10 ^ 11) by (unfold SingleFacts.eta; apply Rinv_le_contravar; [apply pow_lt; lra|]; apply Rle_pow; [lra|lia]).
  assert (B : Rabs (1 - z3 q) <= 21 / 10) by (apply Rabs_le; cbn [pow] in *; lra). assert (B' : Rabs (1 - z3 q') <= 21 / 10) by (apply Rabs_le; cbn [pow] in *; lra).
  assert (L : Rabs (k - (1 - z3 q)) <= 13 / 10 ^ 8) by (unfold u24 in *; cbn [pow] in *; lra). assert (L' : Rabs (k' - (1 - z3 q')) <= 13 / 10 ^ 8) by (unfold u24 in *; cbn [pow] in *; lra).
  apply Rabs_le_iff in L, L'. cbn [pow] in *. split; lra.
Qed.
Lemma flat_always p : exists q, flat_placed p q.
Proof.
  destruct flat_proj as (c & d & F & Fc & Fd & _). destruct (always_computed eye4 eye4 (flat_form c d) p) as (T & k & H1 & H2 & H3).
  assert (W : w4 k = 1).
  { destruct H1 as (PV & P1 & P2). apply flat_product in P1 as ->; [|exact Fc|exact Fd]. apply flat_product in P2 as ->; [|exact Fc|exact Fd].
    destruct H2 as (_ & _ & _ & M3). unfold flat_form, terms, point in M3. cbn [row0 row1 row2 row3 x4 y4 z4 w4] in M3. eapply sparse_is; [exact M3|cbn [total]; ring| |apply f32_1]. sparse. }
  destruct (H3 ltac:(rewrite W; lra)) as (q & Q). exists q, (flat_form c d). split; [exact F|]. exists T, k. auto.
Qed.

(** ** Whole pictures *)
Section Whole.
Variables (v : Viewport.viewport) (argsort : list num -> list nat) (ps : list vec3) (proj : mat).
Hypotheses (U : usable v) (SORT : sorts_numbers argsort) (FS : Forall single_vertex ps) (FC : Forall (in_cube 1) ps) (E : flat_proj_computed = Ok proj).
Lemma flat_vertex T p q : transform_computed eye4 eye4 proj T -> vertex_computed T p q -> flat_placed p q.
Proof. intros HT (c & A & B). exists proj. split; [exact E|]. exists T, c. auto. Qed.
Lemma nth_single j p : nth_error ps j = Some p -> single_vertex p.
Proof. intros H. apply nth_error_In in H. exact (proj1 (Forall_forall _ _) FS p H). Qed.
Lemma nth_cube j p : nth_error ps j = Some p -> in_cube 1 p.
Proof. intros H. apply nth_error_In in H. exact (proj1 (Forall_forall _ _) FC p H). Qed.
Lemma flat_items T qs idx own_ out : transform_computed eye4 eye4 proj T -> Forall2 (vertex_computed T) ps qs ->
  map Some out = map (fun j => option_map (fun x => (x, own_ j)) (nth_error (map (fun q => on_canvas v (Num (x3 q)) (Num (y3 q))) qs) j)) idx ->
  visits (length ps) idx -> drawn_at (upright_spot v) own_ ps idx out.
Proof.
  intros HT HV EO V. eapply options_beside; [exact EO|]. intros j x Ij Ex. cbv beta in Ex.
  assert (J : (j < length ps)%nat) by (apply (Permutation_in _ V) in Ij; apply in_seq in Ij; lia).
  destruct (nth_error ps j) as [p|] eqn:Ep; [|apply nth_error_None in Ep; lia].
  destruct (Forall2_nth _ _ _ HV j p Ep) as (q & Eq & Hq). rewrite nth_error_map, Eq in Ex. cbn [option_map] in Ex. injection Ex as <-.
  exists p. split; [reflexivity|]. cbn [fst snd]. split; [|reflexivity].
  destruct (flat_exact p q (nth_single j p Ep) (flat_vertex T p q HT Hq)) as [-> ->]. apply on_canvas_spot. exact U.
Qed.
Lemma flat_points face edge width size out : let n := length ps in
  fits n face -> clear n face -> fits n edge -> clear n edge -> fits n width -> clear n width -> fits_size n size ->
  points_computed argsort v ps eye4 eye4 proj face edge width size out ->
  exists order, visits n order /\ covers_but (/ 10000) (fun p => - z3 p) ps order /\
    drawn_at (upright_spot v) (fun j => [own face j; own edge j; own width j; own size j]) ps order out.
Proof.
  intros n F1 C1 F2 C2 F3 C3 F4 (T & qs & ks & sz & HT & HV & HK & H). cbv zeta in H.
  assert (LQ : length qs = n) by (symmetry; exact (Forall2_len _ _ _ HV)). assert (LK : length ks = n) by (rewrite <- LQ; symmetry; exact (Forall2_len _ _ _ HK)).
  rewrite LQ in H. set (idx := argsort (map Num ks)) in *. destruct H as (ES & ->).
  assert (V : visits n idx) by (unfold visits; rewrite <- LK, <- (map_length Num ks); apply (proj1 (SORT (map Num ks)))).
  destruct (shown_size n idx size V F4) as (b & Eb & Hb). rewrite Eb in ES. injection ES as <-.
  exists idx. split; [exact V|]. split.
  - intros i j a c p q Hij Hi Hj Ep Eq. destruct (Forall2_nth _ _ _ HV a p Ep) as (p' & Ep' & Hp). destruct (Forall2_nth _ _ _ HV c q Eq) as (q' & Eq' & Hq).
    destruct (Forall2_nth _ _ _ HK a p' Ep') as (k & Ek & Kk). destruct (Forall2_nth _ _ _ HK c q' Eq') as (k' & Ek' & Kk').
    assert (K : k <= k') by (apply (proj2 (SORT (map Num ks)) i j a c k k' Hij Hi Hj); rewrite nth_error_map, ?Ek, ?Ek'; reflexivity).
    apply Rnot_le_lt. intros D.
    destruct (flat_order p q p' q' k k' (nth_cube a p Ep) (nth_cube c q Eq) (flat_vertex T p p' HT Hp) (flat_vertex T q q' HT Hq) Kk Kk'); lra.
  - apply (flat_items T qs); auto. rewrite drawn with (as_ := [face; edge; width; size]); [reflexivity|now rewrite map_length, LQ|].
    intros i j Hi. cbn [map]. rewrite !(shown_attach n idx) with (j := j) by assumption. now rewrite (Hb i j Hi).
Qed.
Lemma flat_pixels_drawn color out : let n := length ps in fits n color -> clear n color ->
  pixels_computed argsort v ps eye4 eye4 proj color out ->
  exists order, visits n order /\ covers_but (/ 10000) (fun p => z3 p) ps order /\
    drawn_at (upright_spot v) (fun j => [own color j]) ps order out.
Proof.
  intros n F1 C1 (T & qs & HT & HV & H). cbv zeta in H.
  assert (LQ : length qs = n) by (symmetry; exact (Forall2_len _ _ _ HV)). rewrite LQ in H.
  set (ks := map (fun q => Num (z3 q)) qs) in *. set (idx := argsort ks) in *. subst out.
  assert (LK : length ks = n) by (unfold ks; now rewrite map_length).
  assert (V : visits n idx) by (unfold visits; rewrite <- LK; apply (proj1 (SORT ks))).
  exists idx. split; [exact V|]. split.
  - intros i j a c p q Hij Hi Hj Ep Eq. destruct (Forall2_nth _ _ _ HV a p Ep) as (p' & Ep' & Hp). destruct (Forall2_nth _ _ _ HV c q Eq) as (q' & Eq' & Hq).
    assert (K : z3 p' <= z3 q') by (apply (proj2 (SORT ks) i j a c _ _ Hij Hi Hj); unfold ks; rewrite nth_error_map, ?Ep', ?Eq'; reflexivity).
    apply Rnot_le_lt. intros D.
    destruct (flat_order q p q' p' (rnd (1 - z3 q')) (rnd (1 - z3 p')) (nth_cube c q Eq) (nth_cube a p Ep) (flat_vertex T q q' HT Hq) (flat_vertex T p p' HT Hp)); try (now right); lra.
  - apply (flat_items T qs); auto. rewrite drawn with (as_ := [color]); [reflexivity|now rewrite map_length, LQ|].
    intros i j Hi. cbn [map]. now rewrite !(shown_attach n idx) with (j := j) by assumption.
Qed.
End Whole.
Lemma not_single : ~ single_vertex (V3 (1 + / 2 ^ 30) 0 0).
Proof.
  intros (H & _). cbn [x3] in H. assert (F : f32 (1 + / 2 ^ 30)) by (rewrite H; apply f32_rnd32).
  apply FLT_format_generic in F; [|reflexivity]. destruct F as [[m e] E N X]. cbn in N, X. unfold F2R in E. cbn [Fnum Fexp] in E.
  assert (P : 0 < bpow radix2 e) by apply bpow_gt_0. assert (M : (0 < m)%Z).
  { apply lt_IZR. apply Rmult_lt_reg_r with (bpow radix2 e); [exact P|]. rewrite <- E. cbn [pow]. lra. }
  assert (B : (-24 < e)%Z).
  { destruct (Z_lt_le_dec (-24) e) as [L|L]; [exact L|exfalso]. assert (Q : bpow radix2 e <= bpow radix2 (-24)) by (apply bpow_le; exact L).
    change (bpow radix2 (-24)) with (/ 16777216) in Q. assert (K : IZR m <= 16777215) by (apply IZR_le; lia). assert (0 <= IZR m) by (apply IZR_le; lia).
    assert (IZR m * bpow radix2 e <= 16777215 * / 16777216) by (apply Rmult_le_compat; lra). cbn [pow] in E. lra. }
  assert (Y : IZR m * bpow radix2 (e + 23) = 8388608 + / 128).
  { rewrite bpow_plus. change (bpow radix2 23) with 8388608. rewrite <- Rmult_assoc, <- E. cbn [pow]. lra. }
  assert (I : bpow radix2 (e + 23) = IZR (2 ^ (e + 23))) by (symmetry; apply (IZR_Zpower radix2); lia).
  rewrite I, <- mult_IZR in Y. set (z := (m * 2 ^ (e + 23))%Z) in Y. clearbody z.
  assert (L1 : (8388608 < z)%Z) by (apply lt_IZR; lra). assert (L2 : (z < 8388609)%Z) by (apply lt_IZR; lra). lia.
Qed.
