(** Nothing overflows. *)
From Coq Require Import Reals Lra Psatz List Permutation ZArith Lia.
From Verif Require Import Base Glm GlmSpec Trackball TrackballSpec Drift DriftSpec DriftRound DriftFacts Viewport Vec VecSpec Picture PictureSpec PictureFacts
  Single SingleSpec SingleFacts Rendered RenderedSpec RenderedFacts Joined JoinedSpec JoinedFacts Overflow.
Import ListNotations.
Local Open Scope R_scope.

Lemma limit : 10 ^ 37 <= 2 ^ 127.
Proof. rewrite !pow_IZR. apply IZR_le. vm_compute. discriminate. Qed.
Lemma pow37 : 10 ^ 37 = 10 ^ 7 * 10 ^ 30. Proof. rewrite <- pow_add. reflexivity. Qed.
Lemma fits_result x z y : result x z -> Rabs z < 10 ^ 37 -> y = Num z \/ (2 ^ 127 <= Rabs z /\ y = NonFinite) -> y = Num z.
Proof. intros _ B [E|[L _]]; [exact E|]. pose proof limit. lra. Qed.

Definition lift (l : list (R * R)) : list (num * num) := map (fun ab => (Num (fst ab), Num (snd ab))) l.
Lemma summed_size l r : summed l r -> INR (length l) <= 8 * 10 ^ 6 -> Rabs r <= 2 * weight l + / 10 ^ 20.
Proof.
  intros H N. pose proof (summed_any l r H) as E. pose proof (total_weight l) as T. pose proof (weight_pos l) as W. pose proof (pos_INR (length l)) as N0.
  assert (US : INR (length l) * u24 <= / 2) by (unfold u24; cbn [pow] in N; lra). pose proof (P_small _ US) as PS. pose proof (P_one (length l)).
  assert (P2 : P (length l) <= 2) by lra. assert (G : g (length l) * weight l <= 1 * weight l) by (apply Rmult_le_compat_r; [exact W|unfold g; unfold P in P2; lra]).
  pose proof (summed_len _ _ H) as L1. apply le_INR in L1. cbn [INR] in L1.
  assert (A : P (length l) * (2 * INR (length l) - 1) <= 2 * (2 * (8 * 10 ^ 6))) by (apply Rmult_le_compat; cbn [pow] in *; lra).
  assert (B : P (length l) * (2 * INR (length l) - 1) * eta <= 2 * (2 * (8 * 10 ^ 6)) * eta) by (apply Rmult_le_compat_r; [pose proof eta_pos; lra|exact A]).
  assert (C : 2 * (2 * (8 * 10 ^ 6)) * eta <= / 10 ^ 20) by (unfold eta; cbn [pow]; lra).
  replace r with ((r - total l) + total l) by ring. eapply Rle_trans; [apply Rabs_triang|]. lra.
Qed.
Lemma summed_fits l r : summed l r -> INR (length l) <= 8 * 10 ^ 6 -> weight l <= 10 ^ 30 -> Rabs r < 10 ^ 37.
Proof.
  intros H N W. pose proof (summed_size l r H N) as B. rewrite pow37. assert (1 <= 10 ^ 30) by (apply pow_R1_Rle; lra).
  assert (/ 10 ^ 20 <= 1) by (cbn [pow]; lra). assert (K : 10 ^ 7 * 10 ^ 30 = 10000000 * 10 ^ 30) by (f_equal; cbn [pow]; lra). rewrite K. lra.
Qed.
Lemma sums_num l r : sums l r -> forall l', l = lift l' -> INR (length l') <= 8 * 10 ^ 6 -> weight l' <= 10 ^ 30 -> exists r', r = Num r' /\ summed l' r'.
Proof.
  induction 1 as [a b r H|a b l x r H IH K|l m x y r H IH H' IH' K|l m r H IH Q]; intros l' E N W.
  - destruct l' as [|[a' b'] [|]]; try discriminate. injection E as -> ->. cbn [times fst snd] in H. destruct H as (z & Rz & Hz).
    assert (S : summed [(a', b')] z) by (constructor; exact Rz). exists z. split; [|exact S]. exact (fits_result _ _ _ Rz (summed_fits _ _ S N W) Hz).
  - destruct l' as [|[a' b'] l']; [discriminate|]. cbn [lift map fst snd] in E. injection E as -> -> E. cbn [weight] in W. pose proof (Rabs_pos (a' * b')).
    cbn [length] in N. rewrite S_INR in N. destruct (IH l' E ltac:(lra) ltac:(lra)) as (x' & -> & Sx). cbn [fused] in K. destruct K as (z & Rz & Hz).
    assert (S : summed ((a', b') :: l') z) by (econstructor; eassumption). exists z. split; [|exact S].
    apply (fits_result _ _ _ Rz (summed_fits _ _ S ltac:(cbn [length]; rewrite S_INR; lra) W) Hz).
  - unfold lift in E. symmetry in E. apply map_eq_app in E as (l1 & m1 & -> & E1 & E2). rewrite app_length, plus_INR in N. rewrite weight_app in W.
    pose proof (weight_pos l1). pose proof (weight_pos m1). pose proof (pos_INR (length l1)). pose proof (pos_INR (length m1)).
    destruct (IH l1 (eq_sym E1) ltac:(lra) ltac:(lra)) as (x' & -> & Sx). destruct (IH' m1 (eq_sym E2) ltac:(lra) ltac:(lra)) as (y' & -> & Sy).
    cbn [added] in K. destruct K as (z & Rz & Hz). assert (S : summed (l1 ++ m1) z) by (eapply sum_parts; eassumption). exists z. split; [|exact S].
    apply (fits_result _ _ _ Rz (summed_fits _ _ S ltac:(rewrite app_length, plus_INR; lra) ltac:(rewrite weight_app; lra)) Hz).
  - rewrite E in Q. unfold lift in Q. apply Permutation_sym in Q. apply Permutation_sym, Permutation_map_inv in Q. destruct Q as (l1 & E1 & P1).
    rewrite (Permutation_length P1) in N. rewrite (weight_perm _ _ P1) in W.
    destruct (IH l1 E1 N W) as (r' & -> & S). exists r'. split; [reflexivity|]. exact (sum_order _ _ _ S (Permutation_sym P1)).
Qed.
Lemma num_sums l r : summed l r -> sums (lift l) (Num r).
Proof.
  induction 1 as [a b r H|a b l x r H IH K|l m x y r H IH H' IH' K|l m r H IH Q].
  - constructor. exists r. auto.
  - apply (sums_fused _ _ _ (Num x)); [exact IH|]. exists r. auto.
  - unfold lift. rewrite map_app. apply (sums_parts _ _ (Num x) (Num y)); [exact IH|exact IH'|]. exists r. auto.
  - apply (sums_order (lift l)); [exact IH|]. now apply Permutation_map.
Qed.

(** ** Matrices *)
Lemma factors_lift a b : factors (exactly a) (exactly b) = lift (terms a b). Proof. reflexivity. Qed.
Lemma weight_terms K K' a b : big K a -> big K' b -> 0 <= K -> 0 <= K' -> weight (terms a b) <= 4 * (K * K').
Proof.
  intros (A0 & A1 & A2 & A3) (B0 & B1 & B2 & B3) P1 P2. unfold terms. cbn [weight].
  assert (M : forall x y, Rabs x <= K -> Rabs y <= K' -> Rabs (x * y) <= K * K') by (intros x y X Y; rewrite Rabs_mult; apply Rmult_le_compat; auto using Rabs_pos).
  pose proof (M _ _ A0 B0). pose proof (M _ _ A1 B1). pose proof (M _ _ A2 B2). pose proof (M _ _ A3 B3). lra.
Qed.
Lemma four_terms a b : INR (length (terms a b)) <= 8 * 10 ^ 6.
Proof. unfold terms. cbn [length INR pow]. lra. Qed.
Lemma terms_num K K' a b r : big K a -> big K' b -> 1 <= K -> 1 <= K' -> 4 * (K * K') <= 10 ^ 30 ->
  sums (factors (exactly a) (exactly b)) r -> exists r', r = Num r' /\ summed (terms a b) r' /\ Rabs r' <= 9 * (K * K').
Proof.
  intros A B P1 P2 L H. pose proof (weight_terms K K' a b A B ltac:(lra) ltac:(lra)) as W.
  destruct (sums_num _ _ H (terms a b) (factors_lift a b) (four_terms a b) ltac:(lra)) as (r' & -> & S). exists r'. split; [reflexivity|]. split; [exact S|].
  pose proof (summed_size _ _ S (four_terms a b)). assert (1 <= K * K') by nra. assert (/ 10 ^ 20 <= 1) by (cbn [pow]; lra). lra.
Qed.
Lemma mbig_transpose K B : mbig K B -> mbig K (transpose B).
Proof. unfold mbig, big, transpose. cbn [row0 row1 row2 row3 x4 y4 z4 w4]. tauto. Qed.
Lemma row_num K K' a B c : big K a -> mbig K' B -> 1 <= K -> 1 <= K' -> 4 * (K * K') <= 10 ^ 30 -> row_computed (exactly a) B c ->
  exists c', c = exactly c' /\ row_product a B c' /\ big (9 * (K * K')) c'.
Proof.
  intros A HB P1 P2 L (H0 & H1 & H2 & H3). apply mbig_transpose in HB. destruct HB as (B0 & B1 & B2 & B3).
  destruct (terms_num K K' _ _ _ A B0 P1 P2 L H0) as (x & X & SX & BX). destruct (terms_num K K' _ _ _ A B1 P1 P2 L H1) as (y & Y & SY & BY).
  destruct (terms_num K K' _ _ _ A B2 P1 P2 L H2) as (z & Z & SZ & BZ). destruct (terms_num K K' _ _ _ A B3 P1 P2 L H3) as (w & W & SW & BW).
  exists (V4 x y z w). split; [destruct c; cbn in *; subst; reflexivity|]. split; [repeat split; assumption|repeat split; assumption].
Qed.
Lemma matrix_num K K' A B C : mbig K A -> mbig K' B -> 1 <= K -> 1 <= K' -> 4 * (K * K') <= 10 ^ 30 -> matrix_computed (exactly_all A) B C ->
  exists C', C = exactly_all C' /\ product A B C' /\ mbig (9 * (K * K')) C'.
Proof.
  intros (A0 & A1 & A2 & A3) HB P1 P2 L (H0 & H1 & H2 & H3). cbn [exactly_all r0 r1 r2 r3] in *.
  destruct (row_num K K' _ _ _ A0 HB P1 P2 L H0) as (x & X & SX & BX). destruct (row_num K K' _ _ _ A1 HB P1 P2 L H1) as (y & Y & SY & BY).
  destruct (row_num K K' _ _ _ A2 HB P1 P2 L H2) as (z & Z & SZ & BZ). destruct (row_num K K' _ _ _ A3 HB P1 P2 L H3) as (w & W & SW & BW).
  exists (Mat x y z w). split; [destruct C; cbn in *; subst; reflexivity|]. split; [exact (conj SX (conj SY (conj SZ SW)))|exact (conj BX (conj BY (conj BZ BW)))].
Qed.
Lemma powers : 10 ^ 6 * 10 ^ 6 = 10 ^ 12 /\ 10 ^ 12 * 10 ^ 6 = 10 ^ 18 /\ 10 ^ 18 * 10 ^ 6 = 10 ^ 24 /\ 1 <= 10 ^ 6 /\ 1 <= 10 ^ 12 /\ 1 <= 10 ^ 18 /\
  1000000 * 10 ^ 24 = 10 ^ 30 /\ 10 ^ 12 <= 10 ^ 24 /\ 10 ^ 18 <= 10 ^ 24.
Proof. repeat split; cbn [pow]; lra. Qed.
Lemma all_num model view proj p T c : mbig (10 ^ 6) model -> mbig (10 ^ 6) view -> mbig (10 ^ 6) proj -> big (10 ^ 6) (point p) ->
  transforms model view proj T -> moves T p c ->
  exists T' c', T = exactly_all T' /\ c = exactly c' /\ transform_computed model view proj T' /\ moved T' p c'.
Proof.
  intros BM BV BP Bp (PV & H1 & H2) (M0 & M1 & M2 & M3). destruct powers as (E1 & E2 & E3 & G1 & G2 & G3 & E4 & L1 & L2).
  destruct (matrix_num _ _ _ _ _ BP BV G1 G1 ltac:(rewrite E1; lra) H1) as (PV' & -> & S1 & B1). rewrite E1 in B1.
  assert (F1 : 4 * (9 * 10 ^ 12 * 10 ^ 6) <= 10 ^ 30) by (rewrite Rmult_assoc, E2; lra).
  destruct (matrix_num _ _ _ _ _ B1 BM ltac:(lra) G1 F1 H2) as (T' & -> & S2 & B2). rewrite Rmult_assoc, E2 in B2.
  assert (F2 : 4 * (9 * (9 * 10 ^ 18) * 10 ^ 6) <= 10 ^ 30) by (rewrite !Rmult_assoc, E3; lra).
  destruct B2 as (R0 & R1 & R2 & R3). cbn [exactly_all r0 r1 r2 r3] in *.
  destruct (terms_num _ _ _ _ _ R0 Bp ltac:(lra) G1 F2 M0) as (x & X & SX & _). destruct (terms_num _ _ _ _ _ R1 Bp ltac:(lra) G1 F2 M1) as (y & Y & SY & _).
  destruct (terms_num _ _ _ _ _ R2 Bp ltac:(lra) G1 F2 M2) as (z & Z & SZ & _). destruct (terms_num _ _ _ _ _ R3 Bp ltac:(lra) G1 F2 M3) as (w & W & SW & _).
  exists T', (V4 x y z w). split; [reflexivity|]. split; [destruct c; cbn in *; subst; reflexivity|]. split; [exists PV'; auto|repeat split; assumption].
Qed.
Lemma num_matrix A B C : product A B C -> matrix_computed (exactly_all A) B (exactly_all C).
Proof.
  intros ((? & ? & ? & ?) & (? & ? & ? & ?) & (? & ? & ? & ?) & (? & ? & ? & ?)).
  repeat split; cbn [exactly_all exactly r0 r1 r2 r3 n0 n1 n2 n3]; rewrite factors_lift; now apply num_sums.
Qed.
Lemma num_places model view proj p q : placed_computed model view proj p q -> places model view proj p (Num (x3 q)) (Num (y3 q)) (Num (z3 q)).
Proof.
  intros (T & c & (PV & H1 & H2) & (M0 & M1 & M2 & M3) & (W & X & Y & Z)). exists (exactly_all T), (exactly c).
  split; [exists (exactly_all PV); auto using num_matrix|]. split.
  - repeat split; cbn [exactly_all exactly r0 r1 r2 r3 n0 n1 n2 n3]; rewrite factors_lift; now apply num_sums.
  - cbn [exactly n0 n1 n2 n3 quotient_of]. split; [|split]; right; (split; [exact W|]); eexists; eauto.
Qed.

(** ** The camera *)
Section Whole.
Variables (f s : R) (M N viewh projh : mat).
Hypotheses (F : 0 < f <= 328 / 100) (S : / 1000 <= s <= 1000) (BM : only_block M) (BN : only_block N)
  (NE : near (/ 10 ^ 7) M N) (NN : forall q, dot (block N q) (block N q) = dot q q)
  (SV : stored (camera_view s) viewh) (SP : stored (lens f) projh).
Lemma held_big K x y : held x y -> Rabs x <= K -> 0 <= K -> Rabs y <= 2 * K.
Proof.
  unfold held. intros H B P. assert (/ 2 ^ 23 * Rabs x <= 1 * K) by (apply Rmult_le_compat; [cbn [pow]; lra|apply Rabs_pos|cbn [pow]; lra|exact B]).
  replace y with ((y - x) + x) by ring. eapply Rle_trans; [apply Rabs_triang|]. lra.
Qed.
Lemma held4_big K a b : held4 a b -> big K a -> 0 <= K -> big (2 * K) b.
Proof. intros (A0 & A1 & A2 & A3) (B0 & B1 & B2 & B3) P. repeat split; eapply held_big; eauto. Qed.
Lemma stored_big K A B : stored A B -> mbig K A -> 0 <= K -> mbig (2 * K) B.
Proof. intros (A0 & A1 & A2 & A3) (B0 & B1 & B2 & B3) P. split; [|split; [|split]]; eapply held4_big; eauto. Qed.
Lemma big_mono K K' v : big K v -> K <= K' -> big K' v.
Proof. intros (A & B & C & D) L. repeat split; lra. Qed.
Lemma mbig_mono K K' A : mbig K A -> K <= K' -> mbig K' A.
Proof. intros (A0 & A1 & A2 & A3) L. split; [|split; [|split]]; eapply big_mono; eauto. Qed.
Lemma lens_big : mbig 1000 (lens f).
Proof. unfold lens, mbig, big. cbn [row0 row1 row2 row3 x4 y4 z4 w4]. repeat split; apply Rabs_le; lra. Qed.
Lemma camera_num p x y z : in_cube s p -> places M viewh projh p x y z ->
  exists q, x = Num (x3 q) /\ y = Num (y3 q) /\ z = Num (z3 q) /\ placed_computed M viewh projh p q.
Proof.
  intros I (T & c & HT & HM & QX & QY & QZ). destruct (bigs s M N p S I BM NE NN) as (B1 & B2 & B3).
  assert (L : 1000 <= 10 ^ 6) by (cbn [pow]; lra). assert (L2 : 2 * 1000 <= 10 ^ 6) by (cbn [pow]; lra).
  destruct (all_num M viewh projh p T c (mbig_mono _ _ _ B2 L) (mbig_mono _ _ _ (stored_big _ _ _ SV B1 ltac:(lra)) L2)
    (mbig_mono _ _ _ (stored_big _ _ _ SP lens_big ltac:(lra)) L2) (big_mono _ _ _ B3 L) HT HM) as (T' & c' & -> & -> & HT' & HM').
  assert (W : 0 < w4 c') by exact (positive f s M N viewh projh p F S I BM NE NN SV SP T' c' HT' HM').
  cbn [exactly n0 n1 n2 n3 quotient_of] in *.
  destruct QX as [[Z _]|[_ (x' & RX & EX)]]; [lra|]. destruct QY as [[Z _]|[_ (y' & RY & EY)]]; [lra|]. destruct QZ as [[Z _]|[_ (z' & RZ & EZ)]]; [lra|].
  set (q := V3 x' y' z'). assert (PC : placed_computed M viewh projh p q).
  { exists T', c'. split; [exact HT'|]. split; [exact HM'|]. split; [lra|]. cbn [q x3 y3 z3]. auto. }
  assert (SM : Rabs x' <= 10 /\ Rabs y' <= 10 /\ Rabs z' <= 10).
  { destruct (close f s M N viewh projh p F S I BM BN NE NN SV SP q PC) as (CX & CY & CZ). rewrite lens_clip in CX, CY, CZ by assumption.
    unfold exact_place in *. cbn [x3 y3 z3 x4 y4 z4 w4 q] in *.
    destruct (depth_range s N p S I NN) as (DX & DY & DW). unfold block in *. cbn [x3 y3 z3] in *.
    set (w := 5 - s * (x4 (row2 N) * x3 p + y4 (row2 N) * y3 p + z4 (row2 N) * z3 p)) in *.
    set (X := s * (x4 (row0 N) * x3 p + y4 (row0 N) * y3 p + z4 (row0 N) * z3 p)) in *. set (Y := s * (x4 (row1 N) * x3 p + y4 (row1 N) * y3 p + z4 (row1 N) * z3 p)) in *.
    assert (Q : forall t b, Rabs t <= b -> b <= 9 * (3267 / 1000) -> Rabs (t / w) <= 9) by (intros t b B1' B2'; apply (bound_div t w b 9); lra).
    assert (FX : forall t, Rabs t <= 173206 / 100000 -> Rabs (f * t) <= 29) by (intros t Ht; rewrite Rabs_mult, (Rabs_pos_eq f) by lra; pose proof (Rabs_pos t); nra).
    assert (QX : Rabs (f * X / w) <= 9) by (apply (Q _ 29); [now apply FX|lra]). assert (QY : Rabs (f * Y / w) <= 9) by (apply (Q _ 29); [now apply FX|lra]).
    assert (QZ : Rabs ((101 / 99 * w - 200 / 99) / w) <= 9) by (apply (Q _ 8); [apply Rabs_le; lra|lra]).
    apply Rabs_le_iff in CX, CY, CZ, QX, QY, QZ. cbn [pow] in *. repeat split; apply Rabs_le; lra. }
  destruct SM as (SX & SY & SZ). assert (B : 10 < 10 ^ 37) by (apply Rlt_le_trans with (10 ^ 2); [cbn [pow]; lra|apply Rle_pow; [lra|lia]]).
  exists q. cbn [q x3 y3 z3]. split; [apply (fits_result _ _ _ RX); [lra|exact EX]|]. split; [apply (fits_result _ _ _ RY); [lra|exact EY]|].
  split; [apply (fits_result _ _ _ RZ); [lra|exact EZ]|exact PC].
Qed.
Lemma camera_key p q k : in_cube s p -> placed_computed M viewh projh p q -> keyed (Num (z3 q)) k -> exists k', k = Num k' /\ sort_key q k'.
Proof.
  intros I PC (z & RZ & EZ). exists z. split; [|exact RZ]. apply (fits_result _ _ _ RZ); [|exact EZ].
  destruct (seen_depth f s M N viewh projh F S BM BN NE NN SV SP p q (conj I PC)) as (_ & _ & D). apply result_err in RZ.
  assert (A : Rabs (1 - z3 q) <= 3) by (apply Rabs_le_iff in D; apply Rabs_le; lra). pose proof eta_pos.
  assert (eta <= 1) by (unfold eta; cbn [pow]; lra). assert (u24 * Rabs (1 - z3 q) <= 1 * 3) by (apply Rmult_le_compat; [unfold u24; lra|apply Rabs_pos|unfold u24; lra|exact A]).
  assert (Rabs z <= 10) by (replace z with ((z - (1 - z3 q)) + (1 - z3 q)) by ring; eapply Rle_trans; [apply Rabs_triang|]; lra).
  assert (10 < 10 ^ 37) by (apply Rlt_le_trans with (10 ^ 2); [cbn [pow]; lra|apply Rle_pow; [lra|lia]]). lra.
Qed.
Lemma camera_mean ps h k : Forall (in_cube s) ps -> Forall2 (placed_computed M viewh projh) ps h -> h <> [] -> INR (length h) <= 8 * 10 ^ 6 ->
  averaged (map (fun q => Num (z3 q)) h) k -> mean_key h k.
Proof.
  intros I PC NE0 L (t & St & Hk). rewrite map_map in St.
  assert (B : forall q, In q h -> Rabs (z3 q) <= 105 / 100).
  { intros q Hq. destruct (Forall2_In_r _ _ _ _ PC Hq) as (p & Hp & Sp). apply (seen_depth f s M N viewh projh F S BM BN NE NN SV SP p q). split; [|exact Sp]. exact (proj1 (Forall_forall _ _) I p Hp). }
  set (l := map (fun q => (z3 q, 1)) h). assert (LL : length l = length h) by (unfold l; apply map_length).
  assert (W : weight l <= 105 / 100 * INR (length h)).
  { unfold l. clear - B. induction h as [|q h IH]; [cbn; lra|]. cbn [map weight length]. rewrite S_INR, Rmult_1_r.
    pose proof (B q (or_introl eq_refl)). specialize (IH (fun x H => B x (or_intror H))). lra. }
  assert (W2 : weight l <= 10 ^ 30) by (apply Rle_trans with (10 ^ 7); [cbn [pow] in *; lra|apply Rle_pow; [lra|lia]]).
  destruct (sums_num _ _ St l) as (t' & -> & S'); [unfold l, lift; now rewrite map_map|now rewrite LL|exact W2|].
  rewrite map_length in Hk. destruct Hk as (m & (z & RZ & EZ) & Ek).
  assert (N1 : 1 <= INR (length h)) by (change 1 with (INR 1); apply le_INR; destruct h; [contradiction|cbn; lia]).
  assert (m = Num z).
  { apply (fits_result _ _ _ RZ); [|exact EZ]. pose proof (summed_size _ _ S' ltac:(rewrite LL; exact L)) as B1. apply result_err in RZ.
    assert (A : Rabs (t' / INR (length h)) <= 3).
    { unfold Rdiv. rewrite Rabs_mult, (Rabs_right (/ INR (length h))) by (apply Rle_ge, Rlt_le, Rinv_0_lt_compat; lra). apply Rmult_le_reg_r with (INR (length h)); [lra|].
      rewrite Rmult_assoc, Rinv_l by lra. assert (/ 10 ^ 20 <= / 10) by (cbn [pow]; lra). lra. }
    pose proof eta_pos. assert (eta <= 1) by (unfold eta; cbn [pow]; lra).
    assert (u24 * Rabs (t' / INR (length h)) <= 1 * 3) by (apply Rmult_le_compat; [unfold u24; lra|apply Rabs_pos|unfold u24; lra|exact A]).
    assert (Rabs z <= 10) by (replace z with ((z - t' / INR (length h)) + t' / INR (length h)) by ring; eapply Rle_trans; [apply Rabs_triang|]; lra).
    assert (10 < 10 ^ 37) by (apply Rlt_le_trans with (10 ^ 2); [cbn [pow]; lra|apply Rle_pow; [lra|lia]]). lra. }
  subst m. subst k. destruct h as [|q0 h0]; [contradiction|]. exists t', z. auto.
Qed.
End Whole.

Lemma never_overflows L theta phi l : good_library L -> Forall on_screen l ->
  exists b b' proj, fnew L theta phi = Ok b /\ facts L b l = Ok b' /\ perspective 35 1 1 100 false = Ok proj /\
    forall s view' proj' p x y z, / 1000 <= s <= 1000 -> in_cube s p -> stored (camera_view s) view' -> stored proj proj' ->
      (places (transpose (t_model b')) view' proj' p x y z <->
       exists q, x = Num (x3 q) /\ y = Num (y3 q) /\ z = Num (z3 q) /\ placed_computed (transpose (t_model b')) view' proj' p q).
Proof.
  intros GL O. destruct (turned L theta phi l GL O) as (b & b' & m & E1 & E2 & R & NE & OB). destruct lens_ok as (f & F & _ & EF).
  exists b, b', (lens f). do 3 (split; [assumption|]). intros s v' p' p x y z S I SV SP. split.
  - exact (camera_num f s (transpose (t_model b')) (transpose m) v' p' F S (block_transpose _ OB) (block_transpose _ (proj1 R)) (near_transpose _ _ _ NE) (fun q => block_norm m q R) SV SP p x y z I).
  - intros (q & -> & -> & -> & H). now apply num_places.
Qed.
Lemma never_overflows_keys L theta phi l : good_library L -> Forall on_screen l ->
  exists b b' proj, fnew L theta phi = Ok b /\ facts L b l = Ok b' /\ perspective 35 1 1 100 false = Ok proj /\
    forall s view' proj' ps qs, / 1000 <= s <= 1000 -> Forall (in_cube s) ps -> stored (camera_view s) view' -> stored proj proj' ->
      Forall2 (placed_computed (transpose (t_model b')) view' proj') ps qs ->
      (forall q k, In q qs -> keyed (Num (z3 q)) k -> exists k', k = Num k' /\ sort_key q k') /\
      (forall k, qs <> [] -> INR (length qs) <= 8 * 10 ^ 6 -> averaged (map (fun q => Num (z3 q)) qs) k -> mean_key qs k).
Proof.
  intros GL O. destruct (turned L theta phi l GL O) as (b & b' & m & E1 & E2 & R & NE & OB). destruct lens_ok as (f & F & _ & EF).
  exists b, b', (lens f). do 3 (split; [assumption|]). intros s v' p' ps qs S I SV SP PC. split.
  - intros q k Hq. destruct (Forall2_In_r _ _ _ _ PC Hq) as (p & Hp & Sp).
    exact (camera_key f s (transpose (t_model b')) (transpose m) v' p' F S (block_transpose _ OB) (block_transpose _ (proj1 R)) (near_transpose _ _ _ NE) (fun q => block_norm m q R) SV SP p q k (proj1 (Forall_forall _ _) I p Hp) Sp).
  - intros k. exact (camera_mean f s (transpose (t_model b')) (transpose m) v' p' F S (block_transpose _ OB) (block_transpose _ (proj1 R)) (near_transpose _ _ _ NE) (fun q => block_norm m q R) SV SP ps qs k I PC).
Qed.
(** ** Without the bounds *)
Definition scaled (k : R) : mat := Mat (V4 k 0 0 0) (V4 0 k 0 0) (V4 0 0 k 0) (V4 0 0 0 1).
Lemma pow_steps : 2 ^ 140 = 8192 * 2 ^ 127 /\ 2 ^ 70 * 2 ^ 70 = 2 ^ 140 /\ 1 <= 2 ^ 127.
Proof.
  split; [|split; [rewrite <- pow_add; reflexivity|apply pow_R1_Rle; lra]].
  replace (2 ^ 140) with (2 ^ 13 * 2 ^ 127) by (rewrite <- pow_add; reflexivity). f_equal. cbn [pow]. lra.
Qed.
Lemma too_large : outcome (2 ^ 70 * 2 ^ 70) NonFinite.
Proof.
  exists (rnd (2 ^ 70 * 2 ^ 70)). split; [now right|]. right. split; [|reflexivity]. destruct pow_steps as (E1 & E2 & G). rewrite E2.
  assert (H : result (2 ^ 140) (rnd (2 ^ 140))) by now right. apply result_err in H. rewrite E1 in *. set (P := 2 ^ 127) in *.
  rewrite (Rabs_pos_eq (8192 * P)) in H by lra. assert (eta <= 1) by (unfold eta; cbn [pow]; lra). apply Rabs_le_iff in H. unfold u24 in H.
  rewrite Rabs_pos_eq; lra.
Qed.
Lemma terms_exist a b : exists r, sums (factors (exactly a) (exactly b)) r.
Proof. destruct (summed_exists (terms a b)) as [r H]; [discriminate|]. exists (Num r). rewrite factors_lift. now apply num_sums. Qed.
Lemma any_sums l : l <> [] -> exists r, sums l r.
Proof.
  assert (T : forall a b, exists r, times a b r).
  { intros [a|] [b|]; cbn [times]; eauto. exists (Num (rnd (a * b))), (rnd (a * b)). split; [now right|now left]. }
  induction l as [|[a b] l IH]; intros N; [contradiction|]. destruct (T a b) as [t Ht]. destruct l as [|x l]; [exists t; now constructor|].
  destruct IH as [y Hy]; [discriminate|]. assert (A : exists r, added t y r).
  { destruct t as [t|], y as [y|]; cbn [added]; eauto. exists (Num (rnd (t + y))), (rnd (t + y)). split; [now right|now left]. }
  destruct A as [r Hr]. exists r. apply (sums_parts [(a, b)] (x :: l) t y); [now constructor|exact Hy|exact Hr].
Qed.
Lemma bad_sums a l : times (fst a) (snd a) NonFinite -> sums (a :: l) NonFinite.
Proof.
  destruct a as [a b]. cbn [fst snd]. intros H. destruct l as [|x l]; [now constructor|]. destruct (any_sums (x :: l)) as [y Hy]; [discriminate|].
  apply (sums_parts [(a, b)] (x :: l) NonFinite y); [now constructor|exact Hy|reflexivity].
Qed.
Lemma row_any a B : exists c, row_computed a B c.
Proof.
  destruct (any_sums (factors a (exactly (row0 (transpose B))))) as [x X]; [discriminate|]. destruct (any_sums (factors a (exactly (row1 (transpose B))))) as [y Y]; [discriminate|].
  destruct (any_sums (factors a (exactly (row2 (transpose B))))) as [z Z]; [discriminate|]. destruct (any_sums (factors a (exactly (row3 (transpose B))))) as [w W]; [discriminate|].
  exists (NV x y z w). repeat split; assumption.
Qed.
Lemma overflow_happens p : exists y z, places (scaled 1) (scaled (2 ^ 70)) (scaled (2 ^ 70)) p NonFinite y z.
Proof.
  assert (R0 : exists c, row_computed (exactly (row0 (scaled (2 ^ 70)))) (scaled (2 ^ 70)) c /\ n0 c = NonFinite).
  { destruct (row_any (exactly (row0 (scaled (2 ^ 70)))) (scaled (2 ^ 70))) as (c & _ & Y & Z & W). exists (NV NonFinite (n1 c) (n2 c) (n3 c)). split; [|reflexivity].
    split; [|repeat split; assumption]. apply bad_sums. exact too_large. }
  destruct R0 as (c0 & C0 & N0). destruct (row_any (exactly (row1 (scaled (2 ^ 70)))) (scaled (2 ^ 70))) as (c1 & C1).
  destruct (row_any (exactly (row2 (scaled (2 ^ 70)))) (scaled (2 ^ 70))) as (c2 & C2). destruct (row_any (exactly (row3 (scaled (2 ^ 70)))) (scaled (2 ^ 70))) as (c3 & C3).
  assert (B : forall d, times (n0 c0) d NonFinite) by (intros d; rewrite N0; reflexivity).
  assert (D0 : exists d, row_computed c0 (scaled 1) d /\ n0 d = NonFinite).
  { exists (NV NonFinite NonFinite NonFinite NonFinite). split; [|reflexivity]. repeat split; apply bad_sums; apply B. }
  destruct D0 as (d0 & D0 & M0). destruct (row_any c1 (scaled 1)) as (d1 & D1). destruct (row_any c2 (scaled 1)) as (d2 & D2). destruct (row_any c3 (scaled 1)) as (d3 & D3).
  set (T := NM d0 d1 d2 d3). assert (HX : sums (factors (r0 T) (exactly (point p))) NonFinite) by (apply bad_sums; cbn [T r0 fst snd factors]; rewrite M0; reflexivity).
  destruct (any_sums (factors (r1 T) (exactly (point p)))) as [y HY]; [discriminate|]. destruct (any_sums (factors (r2 T) (exactly (point p)))) as [z HZ]; [discriminate|].
  destruct (any_sums (factors (r3 T) (exactly (point p)))) as [w HW]; [discriminate|].
  assert (Q : forall a, exists r, quotient_of a w r).
  { intros [a|]; destruct w as [w|]; cbn [quotient_of]; eauto. destruct (Req_EM_T w 0) as [E|E]; [eauto|]. exists (Num (rnd (a / w))). right. split; [exact E|]. exists (rnd (a / w)). split; [now right|now left]. }
  destruct (Q y) as [y' QY], (Q z) as [z' QZ]. exists y', z', T, (NV NonFinite y z w). split; [|split; [repeat split; assumption|]].
  - exists (NM c0 c1 c2 c3). split; [exact (conj C0 (conj C1 (conj C2 C3)))|exact (conj D0 (conj D1 (conj D2 D3)))].
  - cbn [n0 n1 n2 n3]. split; [reflexivity|]. split; [exact QY|exact QZ].
Qed.
