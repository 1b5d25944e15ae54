(** Pictures of things with several corners, in floating point. *)
From Coq Require Import Reals Lra Psatz List Permutation ZArith Lia.
From Verif Require Import Base Slice Glm GlmSpec Trackball TrackballSpec Drift DriftSpec DriftRound DriftFacts Slice Viewport Vec VecSpec Render RenderSpec RenderFacts Picture PictureSpec PictureFacts
  Outline OutlineSpec OutlineFacts Single SingleSpec SingleFacts Rendered RenderedSpec RenderedFacts Joined JoinedSpec.
Import ListNotations.
Local Open Scope R_scope.

(** ** Sums of any number of terms *)
Definition P (n : nat) : R := (1 + u24) ^ n.
Lemma P_mono n m : (n <= m)%nat -> P n <= P m.
Proof. intros H. unfold P. apply Rle_pow; [unfold u24; lra|exact H]. Qed.
Lemma P_one n : 1 <= P n.
Proof. exact (P_mono 0 n ltac:(lia)). Qed.
Lemma merge_any n m S1 S2 x y t1 t2 r : (1 <= n)%nat -> (1 <= m)%nat -> 0 <= S1 -> 0 <= S2 -> Rabs t1 <= S1 -> Rabs t2 <= S2 ->
  Rabs (x - t1) <= g n * S1 + P n * (2 * INR n - 1) * eta -> Rabs (y - t2) <= g m * S2 + P m * (2 * INR m - 1) * eta ->
  Rabs (r - (x + y)) <= u24 * Rabs (x + y) + eta ->
  Rabs (r - (t1 + t2)) <= g (n + m) * (S1 + S2) + P (n + m) * (2 * INR (n + m) - 1) * eta.
Proof.
  intros N M P1 P2 T1 T2 A B C.
  set (E1 := g n * S1 + P n * (2 * INR n - 1) * eta) in *. set (E2 := g m * S2 + P m * (2 * INR m - 1) * eta) in *.
  assert (F : Rabs (x + y) <= S1 + S2 + E1 + E2).
  { replace (x + y) with ((x - t1) + (y - t2) + (t1 + t2)) by ring.
    pose proof (Rabs_triang (x - t1 + (y - t2)) (t1 + t2)). pose proof (Rabs_triang (x - t1) (y - t2)). pose proof (Rabs_triang t1 t2). lra. }
  assert (G : Rabs (r - (t1 + t2)) <= (1 + u24) * (E1 + E2) + u24 * (S1 + S2) + eta).
  { replace (r - (t1 + t2)) with ((r - (x + y)) + ((x - t1) + (y - t2))) by ring.
    pose proof (Rabs_triang (r - (x + y)) (x - t1 + (y - t2))). pose proof (Rabs_triang (x - t1) (y - t2)).
    assert (u24 * Rabs (x + y) <= u24 * (S1 + S2 + E1 + E2)) by (apply Rmult_le_compat_l; [unfold u24; lra|exact F]). lra. }
  eapply Rle_trans; [exact G|]. unfold E1, E2.
  assert (K1 : g n <= g (n + m - 1)) by (apply g_mono; lia). assert (K2 : g m <= g (n + m - 1)) by (apply g_mono; lia).
  replace (n + m)%nat with (S (n + m - 1)) at 1 by lia. rewrite g_S. set (k := g (n + m - 1)) in *.
  pose proof (g_pos n). pose proof (g_pos m). pose proof eta_pos as EP.
  assert (N1 : 1 <= INR n) by (change 1 with (INR 1); now apply le_INR). assert (M1 : 1 <= INR m) by (change 1 with (INR 1); now apply le_INR).
  assert (Q1 : (1 + u24) * P n <= P (n + m)) by (change ((1 + u24) * P n) with (P (S n)); apply P_mono; lia).
  assert (Q2 : (1 + u24) * P m <= P (n + m)) by (change ((1 + u24) * P m) with (P (S m)); apply P_mono; lia).
  pose proof (P_one (n + m)) as Q3. rewrite plus_INR. set (X := P (n + m)) in *.
  assert (Z1 : g n * S1 <= k * S1) by (apply Rmult_le_compat_r; lra). assert (Z2 : g m * S2 <= k * S2) by (apply Rmult_le_compat_r; lra).
  assert (Z5 : (1 + u24) * (g n * S1 + g m * S2) <= (1 + u24) * (k * S1 + k * S2)) by (apply Rmult_le_compat_l; [unfold u24|]; lra).
  assert (Z6 : (1 + u24) * P n * (2 * INR n - 1) <= X * (2 * INR n - 1)) by (apply Rmult_le_compat_r; lra).
  assert (Z7 : (1 + u24) * P m * (2 * INR m - 1) <= X * (2 * INR m - 1)) by (apply Rmult_le_compat_r; lra).
  assert (Z8 : ((1 + u24) * P n * (2 * INR n - 1) + (1 + u24) * P m * (2 * INR m - 1) + 1) * eta <= (X * (2 * (INR n + INR m) - 1)) * eta) by (apply Rmult_le_compat_r; lra).
  lra.
Qed.
Lemma summed_any l r : summed l r -> Rabs (r - total l) <= g (length l) * weight l + P (length l) * (2 * INR (length l) - 1) * eta.
Proof.
  induction 1 as [a b r H|a b l x r H IH K|l m x y r H IH H' IH' K|l m r H IH Q].
  - apply result_err in H. cbn [total weight length INR]. rewrite !Rplus_0_r. pose proof eta_pos. unfold g, P, u24 in *. cbn [pow]. lra.
  - apply result_err in K. pose proof (summed_len _ _ H) as N. cbn [total weight length].
    replace (S (length l)) with (1 + length l)%nat by lia.
    eapply (merge_any 1 (length l) (Rabs (a * b)) (weight l) (a * b) x); try lia; try exact IH.
    + apply Rabs_pos. + apply weight_pos. + lra. + apply total_weight.
    + rewrite Rminus_eq_0, Rabs_R0. pose proof (g_pos 1). pose proof (Rabs_pos (a * b)). pose proof eta_pos. pose proof (P_one 1). cbn [INR]. nra.
    + now rewrite (Rplus_comm (a * b) x).
  - apply result_err in K. pose proof (summed_len _ _ H). pose proof (summed_len _ _ H').
    rewrite total_app, weight_app, app_length.
    eapply (merge_any (length l) (length m) (weight l) (weight m)); eauto using weight_pos, total_weight.
  - now rewrite <- (total_perm _ _ Q), <- (weight_perm _ _ Q), <- (Permutation_length Q).
Qed.
Lemma P_small n : INR n * u24 <= / 2 -> P n <= 1 + 2 * INR n * u24.
Proof.
  induction n as [|n IH]; intros H; [unfold P; cbn; lra|]. rewrite S_INR in *. assert (0 < u24) by (unfold u24; lra). pose proof (pos_INR n).
  specialize (IH ltac:(lra)). change (P (S n)) with ((1 + u24) * P n). assert (u24 * (INR n * u24) <= u24 * / 2) by (apply Rmult_le_compat_l; lra).
  assert ((1 + u24) * P n <= (1 + u24) * (1 + 2 * INR n * u24)) by (apply Rmult_le_compat_l; lra). lra.
Qed.

(** ** Means *)
Definition exact_mean (g : list vec3) : R := total (map (fun q => (z3 q, 1)) g) / INR (length g).
Lemma mean_err h k m : h <> [] -> (forall q, In q h -> Rabs (z3 q) <= 105 / 100) -> INR (length h) <= 400000 ->
  mean_key h k -> k = Num (- m) -> Rabs (m - exact_mean h) <= 2 / 10 ^ 7 * INR (length h) + / 10 ^ 6.
Proof.
  intros NE B SM K ->. destruct h as [|q0 h0] eqn:Eh; [contradiction|]. rewrite <- Eh in *. assert (K' : exists t m', summed (map (fun q => (z3 q, 1)) h) t /\ result (t / INR (length h)) m' /\ Num (- m) = Num (- m')) by (rewrite Eh in K |- *; exact K).
  clear K. destruct K' as (t & m' & S & Rm & E). assert (m' = m) by (injection E; lra). subst m'. clear E.
  pose proof (length_pos h NE) as N0. assert (N1 : 1 <= INR (length h)) by (change 1 with (INR 1); apply le_INR; rewrite Eh; cbn; lia).
  unfold exact_mean. set (l := map (fun q => (z3 q, 1)) h) in *. assert (LL : length l = length h) by (unfold l; apply map_length).
  assert (W : weight l <= 105 / 100 * INR (length h)).
  { unfold l. clear - B. induction h as [|q h IH]; [cbn; lra|]. cbn [map weight length]. rewrite S_INR, Rmult_1_r.
    pose proof (B q (or_introl eq_refl)). specialize (IH (fun x H => B x (or_intror H))). lra. }
  apply summed_any in S. apply result_err in Rm. pose proof (total_weight l) as TW. pose proof (weight_pos l) as WP. rewrite LL in S. set (n := INR (length h)) in *.
  assert (US : n * u24 <= / 2) by (unfold u24; lra). pose proof (P_small (length h) US) as PS. fold n in PS.
  assert (G : 0 <= g (length h) <= 2 * n * u24) by (split; [apply g_pos|unfold g; unfold P in PS; lra]).
  assert (E2 : eta <= / 10 ^ 20) by (unfold eta; apply Rinv_le_contravar; [apply pow_lt; lra|]; apply Rle_pow; [lra|lia]).
  pose proof eta_pos as EP. pose proof (P_one (length h)) as P1.
  assert (D : Rabs (t / n - total l / n) <= 2 * n * u24 * (105 / 100) + 4 * eta).
  { replace (t / n - total l / n) with ((t - total l) * / n) by (field; lra). rewrite Rabs_mult, (Rabs_right (/ n)) by (apply Rle_ge, Rlt_le, Rinv_0_lt_compat; lra).
    apply Rmult_le_reg_r with n; [lra|]. rewrite Rmult_assoc, Rinv_l by lra. rewrite Rmult_1_r. eapply Rle_trans; [exact S|].
    assert (A1 : g (length h) * weight l <= 2 * n * u24 * (105 / 100 * n)) by (apply Rmult_le_compat; lra).
    assert (A2 : P (length h) * (2 * n - 1) <= 2 * (2 * n)) by (apply Rmult_le_compat; lra).
    assert (A3 : P (length h) * (2 * n - 1) * eta <= 2 * (2 * n) * eta) by (apply Rmult_le_compat_r; lra). lra. }
  assert (T : Rabs (t / n) <= 2).
  { replace (t / n) with ((t / n - total l / n) + total l / n) by ring. eapply Rle_trans; [apply Rabs_triang|].
    assert (Rabs (total l / n) <= 105 / 100).
    { unfold Rdiv. rewrite Rabs_mult, (Rabs_right (/ n)) by (apply Rle_ge, Rlt_le, Rinv_0_lt_compat; lra). apply Rmult_le_reg_r with n; [lra|]. rewrite Rmult_assoc, Rinv_l by lra. lra. }
    unfold u24 in D. cbn [pow] in E2. lra. }
  replace (m - total l / n) with ((m - t / n) + (t / n - total l / n)) by ring. eapply Rle_trans; [apply Rabs_triang|].
  assert (u24 * Rabs (t / n) <= u24 * 2) by (apply Rmult_le_compat_l; [unfold u24; lra|exact T]).
  unfold u24 in *. cbn [pow] in *. lra.
Qed.
Lemma total_ones h : total (map (fun q => (z3 q, 1)) h) = total_of (map z3 h).
Proof. induction h as [|q h IH]; [reflexivity|]. cbn [map total]. rewrite IH. unfold total_of. cbn [fold_right]. ring. Qed.
Lemma total_ge l m : (forall x, In x l -> m <= x) -> m * INR (length l) <= total_of l.
Proof.
  induction l as [|x l IH]; intros B; [cbn; lra|]. cbn [total_of fold_right length]. fold (total_of l). rewrite S_INR.
  pose proof (B x (or_introl eq_refl)). specialize (IH (fun y H => B y (or_intror H))). nra.
Qed.
Lemma exact_mean_sep d h h' : h <> [] -> h' <> [] -> (forall q q', In q h -> In q' h' -> z3 q + d <= z3 q') -> exact_mean h + d <= exact_mean h'.
Proof.
  intros N N' B. unfold exact_mean. rewrite !total_ones.
  assert (NZ : map z3 h <> []) by (destruct h; [contradiction|discriminate]). destruct (largest (map z3 h) NZ) as (m & I & L).
  apply in_map_iff in I as (q & <- & Iq).
  pose proof (total_le (map z3 h) (z3 q) L) as T1. pose proof (total_ge (map z3 h') (z3 q + d)) as T2.
  rewrite map_length in T1, T2. pose proof (length_pos h N). pose proof (length_pos h' N').
  assert (T3 : (z3 q + d) * INR (length h') <= total_of (map z3 h')) by (apply T2; intros x Ix; apply in_map_iff in Ix as (q' & <- & Iq'); auto).
  apply Rle_trans with (z3 q + d).
  - apply Rplus_le_compat_r. apply Rmult_le_reg_r with (INR (length h)); [lra|]. unfold Rdiv. rewrite Rmult_assoc, Rinv_l by lra. lra.
  - apply Rmult_le_reg_r with (INR (length h')); [lra|]. unfold Rdiv. rewrite Rmult_assoc, Rinv_l by lra. lra.
Qed.

(** ** Vertices one by one *)
Lemma zipped {A B} (Q : A -> B -> Prop) l m : Forall2 Q l m -> exists z, l = map fst z /\ m = map snd z /\ Forall (fun ab => Q (fst ab) (snd ab)) z.
Proof.
  induction 1 as [|a b l m H _ (z & -> & -> & F)]; [exists []; auto|]. exists ((a, b) :: z). cbn. auto.
Qed.
Lemma unzipped {A B} (Q : A -> B -> Prop) z : Forall (fun ab : A * B => Q (fst ab) (snd ab)) z -> Forall2 Q (map fst z) (map snd z).
Proof. induction 1; cbn; constructor; auto. Qed.
Lemma in_range {A} (l : list A) a b x : In x (range l a b) -> In x l.
Proof.
  unfold range. intros H. assert (F : forall n (m : list A), In x (firstn n m) -> In x m) by (induction n; intros [|y m] K; cbn in *; try tauto; destruct K; auto).
  assert (G : forall n (m : list A), In x (skipn n m) -> In x m) by (induction n; intros [|y m] K; cbn in *; auto). eauto.
Qed.
Lemma in_group {A} (l : list A) i gs : group l i = Ok gs -> forall g x, In g gs -> In x g -> In x l.
Proof.
  destruct i as [k|w s|ll]; cbn [group].
  - unfold group_uniform. destruct (k =? 0)%Z; [discriminate|]. intros E. injection E as <-. intros g x Hg Hx. apply in_map_iff in Hg as (i & <- & _). exact (in_range _ _ _ _ Hx).
  - intros E. injection E as <-. generalize 0%Z. induction s as [|n s IH]; intros z g x Hg Hx; cbn in Hg; [tauto|]. destruct Hg as [<-|Hg]; [exact (in_range _ _ _ _ Hx)|exact (IH _ g x Hg Hx)].
  - revert gs. induction ll as [|idx ll IH]; intros gs E g x Hg Hx; cbn in E.
    + injection E as <-. destruct Hg.
    + destruct (at_indices l idx) as [g'|] eqn:E1; [|discriminate]. cbn in E. destruct (group_indices l ll) as [gs'|] eqn:E2; [|discriminate]. cbn in E. injection E as <-.
      destruct Hg as [<-|Hg]; [|exact (IH gs' eq_refl g x Hg Hx)]. clear - E1 Hx. revert g' E1 Hx. induction idx as [|i r IH]; intros g' E Hx; cbn in E; [injection E as <-; destruct Hx|].
      destruct (norm_index _ i) as [j|]; [|discriminate]. destruct (nth_error l (Z.to_nat j)) as [p|] eqn:Ep; [|discriminate].
      destruct (at_indices l r) as [l'|]; [|discriminate]. cbn in E. injection E as <-. destruct Hx as [<-|Hx]; [exact (nth_error_In _ _ Ep)|exact (IH l' eq_refl Hx)].
Qed.
Lemma pairs_concat {A} (l : list A) gs : pairs l = Ok gs -> concat gs = l /\ Forall (fun g => length g = 2%nat) gs.
Proof.
  assert (G : forall n (l : list A) gs, (length l <= n)%nat -> pairs l = Ok gs -> concat gs = l /\ Forall (fun g => length g = 2%nat) gs).
  { clear. induction n as [|n IH]; intros [|a [|b l]] gs L E; cbn in L; try lia; cbn in E; try discriminate; try (injection E as <-; split; [reflexivity|constructor]).
    destruct (pairs l) as [t|] eqn:Et; [|discriminate]. cbn in E. injection E as <-. destruct (IH l t ltac:(lia) Et) as [C F]. cbn. rewrite C. auto. }
  exact (G (length l) l gs (le_n _)).
Qed.
Lemma in_pairs_of {A} (l : list A) gs : pairs l = Ok gs -> forall g x, In g gs -> In x g -> In x l.
Proof. intros E g x Hg Hx. destruct (pairs_concat l gs E) as [<- _]. apply in_concat. eauto. Qed.
Lemma split_groups {A B} (Q : A -> B -> Prop) (f : forall C, list C -> res (list (list C))) l m hs :
  (forall C D (h : C -> D) x, f D (map h x) = match f C x with Ok gs => Ok (map (map h) gs) | Err e => Err e end) ->
  (forall C x gs, f C x = Ok gs -> forall g y, In g gs -> In y g -> In y x) ->
  Forall2 Q l m -> f B m = Ok hs -> exists gs, f A l = Ok gs /\ Forall2 (Forall2 Q) gs hs.
Proof.
  intros N I H E. destruct (zipped Q l m H) as (z & -> & -> & F). rewrite N in *. destruct (f _ z) as [zs|] eqn:Ez; [|discriminate]. injection E as <-.
  eexists. split; [reflexivity|]. specialize (I _ _ _ Ez).
  assert (K : forall zs', (forall g y, In g zs' -> In y g -> In y z) -> Forall2 (Forall2 Q) (map (map fst) zs') (map (map snd) zs')).
  { induction zs' as [|g zs' IH]; intros J; cbn; constructor; [|apply IH; intros g' y Hg; apply J; now right].
    apply unzipped. apply Forall_forall. intros y Hy. exact (proj1 (Forall_forall _ _) F y (J g y (or_introl eq_refl) Hy)). }
  exact (K zs I).
Qed.
Lemma split_back {A B} (Q : A -> B -> Prop) (f : forall C, list C -> res (list (list C))) l m gs :
  (forall C D (h : C -> D) x, f D (map h x) = match f C x with Ok gs => Ok (map (map h) gs) | Err e => Err e end) ->
  Forall2 Q l m -> f A l = Ok gs -> exists hs, f B m = Ok hs.
Proof.
  intros N H E. destruct (zipped Q l m H) as (z & -> & -> & F). rewrite N in *. destruct (f _ z) as [zs|] eqn:Ez; [|discriminate]. eexists. reflexivity.
Qed.
Lemma Forall2_In_r {A B} (Q : A -> B -> Prop) l m b : Forall2 Q l m -> In b m -> exists a, In a l /\ Q a b.
Proof. induction 1 as [|x y l m H _ IH]; intros I; [destruct I|]. destruct I as [<-|I]; [exists x; split; [now left|exact H]|]. destruct (IH I) as (a & Ia & Qa). exists a. split; [now right|exact Qa]. Qed.

Section Whole.
Variables (f s : R) (M N viewh projh : mat) (ps : list vec3).
Hypotheses (F : 0 < f <= 328 / 100) (S : / 1000 <= s <= 1000) (I : Forall (in_cube s) ps) (BM : only_block M) (BN : only_block N)
  (NE : near (/ 10 ^ 7) M N) (NN : forall q, dot (block N q) (block N q) = dot q q)
  (SV : stored (camera_view s) viewh) (SP : stored (lens f) projh).
Variable v : Viewport.viewport.
Hypotheses (U : usable v) (UX : Rabs (unit_x v) <= 1000) (UY : Rabs (unit_y v) <= 1000).
Variable argsort : list num -> list nat.
Hypothesis SORT : sorts_numbers argsort.

Definition seen_as (p q : vec3) : Prop := in_cube s p /\ placed_computed M viewh projh p q.
Lemma vertices_seen T qs : transform_computed M viewh projh T -> Forall2 (vertex_computed T) ps qs -> Forall2 seen_as ps qs.
Proof.
  intros HT H. revert I. induction H as [|p q l m Hq _ IH]; intros J; constructor; inversion J; subst; auto.
  split; [assumption|]. exact (vertex_placed M viewh projh T p q HT Hq).
Qed.
Lemma seen_beside p q : seen_as p q -> beside (/ 100) (on_canvas v (Num (x3 q)) (Num (y3 q))) (spot v (clip N (camera_view s) (lens f) p)).
Proof.
  intros (Ip & Hp). destruct (pixel_close f M N v s viewh projh p q) as (x & y & x' & y' & E1 & E2 & E3 & E4); auto. exists x, y, x', y'. auto.
Qed.
Definition dep (w : R) : R := (101 / 99 * w - 200 / 99) / w.
Lemma seen_depth p q : seen_as p q -> 3267 / 1000 <= away s N p <= 6733 / 1000 /\ Rabs (z3 q - dep (away s N p)) <= 65 / 10 ^ 7 /\ Rabs (z3 q) <= 105 / 100.
Proof.
  intros (Ip & Hp). destruct (close f s M N viewh projh p F S Ip BM BN NE NN SV SP q Hp) as (_ & _ & C).
  rewrite lens_clip in C by assumption. unfold away. rewrite lens_eye by assumption. unfold exact_place in C. cbn [z3 z4 w4] in C.
  destruct (depth_range s N p S Ip NN) as (_ & _ & W). unfold block in *. cbn [z3] in *.
  set (w := 5 - s * (x4 (row2 N) * x3 p + y4 (row2 N) * y3 p + z4 (row2 N) * z3 p)) in *. fold (dep w) in C.
  split; [exact W|]. split; [exact C|].
  assert (Q : 0 <= dep w <= 103 / 100) by (unfold dep; split; (apply Rmult_le_reg_r with w; [lra|]); unfold Rdiv at 2; unfold Rdiv; rewrite ?Rmult_assoc, ?Rinv_l by lra; lra).
  apply Rabs_le_iff in C. cbn [pow] in C. apply Rabs_le. lra.
Qed.
Lemma dep_sep w w' D : 3267 / 1000 <= w -> w' <= 6733 / 1000 -> 0 <= D -> w + D <= w' -> dep w + 44 / 1000 * D <= dep w'.
Proof.
  intros A B HD C. assert (K : dep w' - dep w = 200 / 99 * (w' - w) * / (w * w')) by (unfold dep; field; lra).
  assert (44 / 1000 * D <= dep w' - dep w); [|lra]. rewrite K.
  apply Rmult_le_reg_r with (w * w'); [nra|]. replace (200 / 99 * (w' - w) * / (w * w') * (w * w')) with (200 / 99 * (w' - w)) by (field; split; lra).
  assert (W : w * w' <= 6733 / 1000 * (6733 / 1000)) by (apply Rmult_le_compat; lra).
  assert (44 / 1000 * D * (w * w') <= 44 / 1000 * D * (6733 / 1000 * (6733 / 1000))) by (apply Rmult_le_compat_l; lra). lra.
Qed.
Lemma means_apart g g' h h' x y : Forall2 seen_as g h -> Forall2 seen_as g' h' -> farther (away s N) g g' ->
  mean_key h (Num x) -> mean_key h' (Num y) -> y < x.
Proof.
  intros G G' (N1 & N2 & D) K K'.
  assert (H1 : h <> []) by (intros ->; inversion G; subst; auto). assert (H2 : h' <> []) by (intros ->; inversion G'; subst; auto).
  assert (L1 : length g = length h) by exact (Forall2_len _ _ _ G). assert (L2 : length g' = length h') by exact (Forall2_len _ _ _ G').
  unfold margin in D. rewrite L1, L2, plus_INR in D. set (n := INR (length h)) in *. set (n' := INR (length h')) in *.
  pose proof (length_pos h H1) as P1. pose proof (length_pos h' H2) as P2. fold n in P1. fold n' in P2.
  set (d := / 1000 + (n + n') / 10 ^ 5) in *. assert (D0 : 0 <= d) by (unfold d; cbn [pow]; lra).
  assert (DS : forall q q', In q h -> In q' h' -> z3 q + (44 / 1000 * d - 13 / 10 ^ 6) <= z3 q' /\ d <= 3466 / 1000).
  { intros q q' Hq Hq'. destruct (Forall2_In_r _ _ _ _ G Hq) as (p & Hp & Sp). destruct (Forall2_In_r _ _ _ _ G' Hq') as (p' & Hp' & Sp').
    destruct (seen_depth p q Sp) as (W & C & _). destruct (seen_depth p' q' Sp') as (W' & C' & _). pose proof (D p p' Hp Hp') as E.
    pose proof (dep_sep (away s N p) (away s N p') d ltac:(lra) ltac:(lra) D0 E). apply Rabs_le_iff in C, C'. cbn [pow] in *. split; lra. }
  assert (SM : d <= 3466 / 1000).
  { destruct h as [|q h0]; [contradiction|]. destruct h' as [|q' h0']; [contradiction|]. exact (proj2 (DS q q' (or_introl eq_refl) (or_introl eq_refl))). }
  assert (B1 : forall q, In q h -> Rabs (z3 q) <= 105 / 100) by (intros q Hq; destruct (Forall2_In_r _ _ _ _ G Hq) as (p & _ & Sp); apply (seen_depth p q Sp)).
  assert (B2 : forall q, In q h' -> Rabs (z3 q) <= 105 / 100) by (intros q Hq; destruct (Forall2_In_r _ _ _ _ G' Hq) as (p & _ & Sp); apply (seen_depth p q Sp)).
  pose proof (exact_mean_sep _ h h' H1 H2 (fun q q' A B => proj1 (DS q q' A B))) as ES.
  assert (X : Rabs (- x - exact_mean h) <= 2 / 10 ^ 7 * n + / 10 ^ 6) by (apply (mean_err h (Num x) (- x) H1 B1); [unfold d in SM; cbn [pow] in SM; unfold n in *; lra|exact K|f_equal; ring]).
  assert (Y : Rabs (- y - exact_mean h') <= 2 / 10 ^ 7 * n' + / 10 ^ 6) by (apply (mean_err h' (Num y) (- y) H2 B2); [unfold d in SM; cbn [pow] in SM; unfold n' in *; lra|exact K'|f_equal; ring]).
  apply Rabs_le_iff in X, Y. unfold d in ES. cbn [pow] in *. lra.
Qed.
Lemma joined_order gs hs ks : Forall2 (Forall2 seen_as) gs hs -> Forall2 mean_key hs ks ->
  visits (length gs) (argsort ks) /\ joined_covers (away s N) gs (argsort ks).
Proof.
  intros G K. pose proof (Forall2_len _ _ _ G) as L1. pose proof (Forall2_len _ _ _ K) as L2.
  split; [unfold visits; rewrite L1, L2; apply (proj1 (SORT ks))|].
  intros i j a b g g' Hij Hi Hj Ea Eb FA.
  destruct (Forall2_nth _ _ _ G a g Ea) as (h & Eh & Hh). destruct (Forall2_nth _ _ _ G b g' Eb) as (h' & Eh' & Hh').
  destruct (Forall2_nth _ _ _ K a h Eh) as (k & Ek & Kk). destruct (Forall2_nth _ _ _ K b h' Eh') as (k' & Ek' & Kk').
  assert (X : exists x, k = Num x). { destruct h; [destruct FA as (N1 & _); inversion Hh; subst; contradiction|]. destruct Kk as (t & m & _ & _ & ->). eauto. }
  assert (Y : exists y, k' = Num y). { destruct h'; [destruct FA as (_ & N2 & _); inversion Hh'; subst; contradiction|]. destruct Kk' as (t & m & _ & _ & ->). eauto. }
  destruct X as [x ->], Y as [y ->]. pose proof (means_apart g g' h h' x y Hh Hh' FA Kk Kk') as LT.
  pose proof (proj2 (SORT ks) i j a b x y Hij Hi Hj Ek Ek'). lra.
Qed.
Lemma options_joined {X} (out : list X) idx (item : nat -> option X) (Q : nat -> X -> Prop) :
  map Some out = map item idx -> (forall j x, In j idx -> item j = Some x -> Q j x) -> Forall2 Q idx out.
Proof.
  revert out. induction idx as [|j idx IH]; intros [|x out] E H; try discriminate; constructor.
  - injection E as E1 _. apply H; [now left|auto].
  - apply IH; [now injection E|]. intros j' x' J. apply H. now right.
Qed.
Lemma joined_items gs hs idx own_ out : Forall2 (Forall2 seen_as) gs hs ->
  map Some out = map (fun j => option_map (fun x => (x, own_ j)) (nth_error (map (corners_at v) hs) j)) idx -> visits (length gs) idx ->
  joined_beside (/ 100) (fun p => spot v (clip N (camera_view s) (lens f) p)) own_ gs idx out.
Proof.
  intros G E V. eapply options_joined; [exact E|]. intros j x Ij Ex. cbv beta in Ex.
  assert (J : (j < length gs)%nat) by (apply (Permutation_in _ V) in Ij; apply in_seq in Ij; lia).
  destruct (nth_error gs j) as [g|] eqn:Eg; [|apply nth_error_None in Eg; lia].
  destruct (Forall2_nth _ _ _ G j g Eg) as (h & Eh & Hh). rewrite nth_error_map, Eh in Ex. cbn [option_map] in Ex. injection Ex as <-.
  exists g. split; [reflexivity|]. cbn [fst snd]. split; [|reflexivity].
  unfold corners_at. clear - Hh F S BM BN NE NN SV SP U UX UY. induction Hh as [|p q g h Hq _ IH]; cbn; constructor; auto. now apply seen_beside.
Qed.
Lemma segments_whole gs color width out : in_pairs gs ps -> let n := length gs in
  fits n color -> clear n color -> fits n width -> clear n width ->
  segments_computed argsort v ps M viewh projh color width out ->
  exists order, visits n order /\ joined_covers (away s N) gs order /\
    joined_beside (/ 100) (fun p => spot v (clip N (camera_view s) (lens f) p)) (fun j => [own color j; own width j]) gs order out.
Proof.
  intros (G1 & G2) n F1 C1 F2 C2 (T & qs & hs & ks & HT & HV & HG & HK & H). cbv zeta in H.
  pose proof (vertices_seen T qs HT HV) as HS.
  destruct (split_groups seen_as (@pairs) ps qs hs (@pairs_map) (fun C x gs => in_pairs_of x gs) HS HG) as (gs' & Eg & G).
  assert (gs' = gs) by (rewrite <- G1, (pairs_ok gs G2) in Eg; congruence). subst gs'.
  destruct (joined_order gs hs ks G HK) as [V C]. assert (LH : length hs = n) by (symmetry; exact (Forall2_len _ _ _ G)). rewrite LH in H.
  exists (argsort ks). split; [exact V|]. split; [exact C|]. subst out. apply (joined_items gs hs); auto.
  rewrite drawn with (as_ := [color; width]); [reflexivity|now rewrite map_length, LH|].
  intros i j Hi. cbn [map]. now rewrite !(shown_attach n (argsort ks)) with (j := j) by assumption.
Qed.
Lemma outlines_whole i gs attrs out : group ps i = Ok gs -> let n := length gs in
  Forall (fun a => fits n a /\ clear_path n (length ps) a) attrs ->
  outlines_computed argsort v ps M viewh projh i attrs out ->
  exists order, visits n order /\ joined_covers (away s N) gs order /\
    joined_beside (/ 100) (fun p => spot v (clip N (camera_view s) (lens f) p)) (fun j => map (fun a => own a j) attrs) gs order out.
Proof.
  intros GR n FA (T & qs & hs & ks & bs & HT & HV & HG & HK & H). cbv zeta in H. destruct H as [EB H].
  pose proof (vertices_seen T qs HT HV) as HS.
  destruct (split_groups seen_as (fun C l => group l i) ps qs hs (fun C D h x => group_map h x i) (fun C x gs => in_group x i gs) HS HG) as (gs' & Eg & G).
  assert (gs' = gs) by congruence. subst gs'.
  destruct (joined_order gs hs ks G HK) as [V C]. assert (LH : length hs = n) by (symmetry; exact (Forall2_len _ _ _ G)).
  assert (LQ : length qs = length ps) by (symmetry; exact (Forall2_len _ _ _ HV)). rewrite LH, LQ in EB.
  destruct (attach_all_shown n (length ps) (argsort ks) V attrs FA) as (bs' & Eb & Hb). rewrite Eb in EB. injection EB as <-.
  exists (argsort ks). split; [exact V|]. split; [exact C|]. subst out. apply (joined_items gs hs); auto.
  rewrite drawn with (as_ := attrs); [reflexivity|now rewrite map_length, LH|exact Hb].
Qed.
Lemma markers_whole {X} (shapes : list X) face edge width size out : let n := length ps in length shapes = n ->
  fits n face -> clear n face -> fits n edge -> clear n edge -> fits n width -> clear n width -> fits_size n size ->
  markers_computed argsort v ps M viewh projh shapes face edge width size out ->
  exists order, visits n order /\ covers_but (/ 1000) (away s N) ps order /\
    shaped_beside (/ 100) (fun p => spot v (clip N (camera_view s) (lens f) p)) (fun j => [own face j; own edge j; own width j; own size j]) shapes ps order out.
Proof.
  intros n LS F1 C1 F2 C2 F3 C3 F4 (T & qs & ks & sz & HT & HV & HK & H).
  cbv zeta in H. assert (LQ : length qs = n) by (symmetry; exact (Forall2_len _ _ _ HV)). assert (LK : length ks = n) by (rewrite <- LQ; symmetry; exact (Forall2_len _ _ _ HK)).
  rewrite LQ in H. set (idx := argsort (map Num ks)) in *. destruct H as (ES & ->).
  assert (V : visits n idx) by (unfold visits; rewrite <- LK, <- (map_length Num ks); apply (proj1 (SORT (map Num ks)))).
  destruct (shown_size n idx size V F4) as (b & Eb & Hb). rewrite Eb in ES. injection ES as <-.
  exists idx. split; [exact V|]. split.
  - intros i j a c p q Hij Hi Hj Ep Eq. destruct (Forall2_nth _ _ _ HV a p Ep) as (p' & Ep' & Hp). destruct (Forall2_nth _ _ _ HV c q Eq) as (q' & Eq' & Hq).
    destruct (Forall2_nth _ _ _ HK a p' Ep') as (k & Ek & Kk). destruct (Forall2_nth _ _ _ HK c q' Eq') as (k' & Ek' & Kk').
    assert (K : k <= k') by (apply (proj2 (SORT (map Num ks)) i j a c k k' Hij Hi Hj); rewrite nth_error_map, ?Ek, ?Ek'; reflexivity).
    apply Rnot_le_lt. intros D. unfold away in D.
    destruct (ordered f M N s viewh projh p q p' q' k k' F BM BN NE NN S (cube_nth s ps I a p Ep) (cube_nth s ps I c q Eq) SV SP (vertex_placed M viewh projh T p p' HT Hp) (vertex_placed M viewh projh T q q' HT Hq) Kk Kk' D). lra.
  - assert (E : map Some (collection (combine (Slice.pick shapes idx) (Slice.pick (map (fun q => on_canvas v (Num (x3 q)) (Num (y3 q))) qs) idx)) [attach n idx face; attach n idx edge; attach n idx width; b]) =
       map (fun j => option_map (fun x => (x, map (fun a => own a j) [face; edge; width; size])) (nth_error (combine shapes (map (fun q => on_canvas v (Num (x3 q)) (Num (y3 q))) qs)) j)) idx).
    { rewrite combine_pick; [|now rewrite map_length, LQ|intros j Hj; rewrite LS; now apply (visits_in n idx)].
      apply drawn.
      + rewrite combine_length, map_length, LQ, LS, Nat.min_id. exact V.
      + intros i j Hi. cbn [map]. rewrite !(shown_attach n idx) with (j := j) by assumption. now rewrite (Hb i j Hi). }
    eapply options_joined; [exact E|]. intros j x Ij Ex. cbv beta in Ex.
    assert (J : (j < n)%nat) by (apply (Permutation_in _ V) in Ij; apply in_seq in Ij; lia).
    destruct (nth_error ps j) as [p|] eqn:Ep; [|apply nth_error_None in Ep; unfold n in *; lia].
    destruct (nth_error shapes j) as [sh|] eqn:Esh; [|apply nth_error_None in Esh; unfold n in *; lia].
    destruct (Forall2_nth _ _ _ HV j p Ep) as (q & Eq & Hq).
    assert (CN : forall (x : list X) (y : list (option (R * R))) i, nth_error (combine x y) i = match nth_error x i, nth_error y i with Some a, Some b => Some (a, b) | _, _ => None end).
    { clear. induction x as [|a x IH]; intros [|c y] [|q]; cbn; auto. now destruct (nth_error x q). }
    rewrite CN, nth_error_map, Esh, Eq in Ex. cbn [option_map] in Ex. injection Ex as <-.
    exists p, sh, (on_canvas v (Num (x3 q)) (Num (y3 q))). cbn [fst snd map]. repeat split; auto.
    apply seen_beside. split; [exact (cube_nth s ps I j p Ep)|exact (vertex_placed M viewh projh T p q HT Hq)].
Qed.

(** There are such pictures. *)
Lemma mean_exists hs : exists ks, Forall2 mean_key hs ks.
Proof.
  induction hs as [|h hs (ks & K)]; [exists []; auto|]. destruct h as [|q h]; [exists (NonFinite :: ks); constructor; auto; reflexivity|].
  destruct (summed_exists (map (fun q => (z3 q, 1)) (q :: h))) as [t T]; [discriminate|].
  exists (Num (- rnd (t / INR (length (q :: h)))) :: ks). constructor; auto. exists t, (rnd (t / INR (length (q :: h)))). split; [exact T|]. split; [now right|reflexivity].
Qed.
Lemma joined_exist {X} gs i gs' (shapes : list X) color width attrs face edge size : in_pairs gs ps -> group ps i = Ok gs' ->
  Forall (fun a => fits (length gs') a /\ clear_path (length gs') (length ps) a) attrs -> fits_size (length ps) size ->
  (exists out, segments_computed argsort v ps M viewh projh color width out) /\
  (exists out, outlines_computed argsort v ps M viewh projh i attrs out) /\
  exists out, markers_computed argsort v ps M viewh projh shapes face edge width size out.
Proof.
  intros (G1 & G2) GR FA FS. destruct (product_exists projh viewh) as [PV E1], (product_exists PV M) as [T E2].
  assert (HT : transform_computed M viewh projh T) by (exists PV; auto).
  destruct (vertices_exist f s M N viewh projh ps F S I BM NE NN SV SP T HT) as (qs & ks & A & B).
  assert (LQ : length qs = length ps) by (symmetry; exact (Forall2_len _ _ _ A)). assert (LK : length ks = length ps) by (rewrite <- LQ; symmetry; exact (Forall2_len _ _ _ B)).
  split; [|split].
  - destruct (split_back (vertex_computed T) (@pairs) ps qs gs (@pairs_map) A) as [hs Eh]; [rewrite <- G1; now apply pairs_ok|].
    destruct (mean_exists hs) as [ms K]. eexists. exists T, qs, hs, ms. cbv zeta. eauto 8.
  - destruct (split_groups (vertex_computed T) (fun C l => group l i) ps qs) with (hs := match group qs i with Ok h => h | Err _ => [] end) as (g2 & Eg & G).
    + exact (fun C D h x => group_map h x i). + exact (fun C x gs => in_group x i gs). + exact A.
    + destruct (split_back (vertex_computed T) (fun C l => group l i) ps qs gs' (fun C D h x => group_map h x i) A GR) as [hs Eh]. now rewrite Eh.
    + destruct (split_back (vertex_computed T) (fun C l => group l i) ps qs gs' (fun C D h x => group_map h x i) A GR) as [hs Eh]. cbv beta in Eh. rewrite Eh in G.
      assert (g2 = gs') by congruence. subst g2. destruct (mean_exists hs) as [ms K].
      assert (LH : length hs = length gs') by (symmetry; exact (Forall2_len _ _ _ G)).
      assert (V : visits (length gs') (argsort ms)) by (unfold visits; rewrite <- LH, (Forall2_len _ _ _ K); apply (proj1 (SORT ms))).
      destruct (attach_all_shown (length gs') (length ps) (argsort ms) V attrs FA) as (bs & Eb & _).
      eexists. exists T, qs, hs, ms, bs. cbv zeta. rewrite LH, LQ. eauto 10.
  - assert (V : visits (length ps) (argsort (map Num ks))) by (unfold visits; rewrite <- LK, <- (map_length Num ks); apply (proj1 (SORT (map Num ks)))).
    destruct (shown_size _ _ size V FS) as (sz & Ez & _). eexists. exists T, qs, ks, sz. cbv zeta. rewrite LQ. eauto 8.
Qed.
End Whole.

Lemma whole_segments L theta phi l : good_library L -> Forall on_screen l ->
  exists b b' m proj, fnew L theta phi = Ok b /\ facts L b l = Ok b' /\ rotation m /\ near (/ 10 ^ 7) (t_model b') m /\
    perspective 35 1 1 100 false = Ok proj /\
    forall argsort v s view' proj' ps gs color width out, sorts_numbers argsort ->
      usable v -> Rabs (unit_x v) <= 1000 -> Rabs (unit_y v) <= 1000 -> / 1000 <= s <= 1000 -> Forall (in_cube s) ps ->
      stored (camera_view s) view' -> stored proj proj' ->
      in_pairs gs ps -> let n := length gs in fits n color -> clear n color -> fits n width -> clear n width ->
      segments_computed argsort v ps (transpose (t_model b')) view' proj' color width out ->
      exists order, visits n order /\ joined_covers (fun p => - z4 (eye (transpose m) (camera_view s) p)) gs order /\
        joined_beside (/ 100) (fun p => spot v (clip (transpose m) (camera_view s) proj p)) (fun j => [own color j; own width j]) gs order out.
Proof.
  intros GL O. destruct (turned L theta phi l GL O) as (b & b' & m & E1 & E2 & R & NE & OB). destruct lens_ok as (f & F & _ & EF).
  exists b, b', m, (lens f). do 5 (split; [assumption|]).
  intros argsort v s v' p' ps gs color width out SO U UX UY S I SV SP GP n F1 C1 F2 C2 H.
  exact (segments_whole f s (transpose (t_model b')) (transpose m) v' p' ps F S I (block_transpose _ OB) (block_transpose _ (proj1 R)) (near_transpose _ _ _ NE) (fun q => block_norm m q R) SV SP v U UX UY argsort SO gs color width out GP F1 C1 F2 C2 H).
Qed.
Lemma whole_outlines L theta phi l : good_library L -> Forall on_screen l ->
  exists b b' m proj, fnew L theta phi = Ok b /\ facts L b l = Ok b' /\ rotation m /\ near (/ 10 ^ 7) (t_model b') m /\
    perspective 35 1 1 100 false = Ok proj /\
    forall argsort v s view' proj' ps i gs attrs out, sorts_numbers argsort ->
      usable v -> Rabs (unit_x v) <= 1000 -> Rabs (unit_y v) <= 1000 -> / 1000 <= s <= 1000 -> Forall (in_cube s) ps ->
      stored (camera_view s) view' -> stored proj proj' ->
      group ps i = Ok gs -> let n := length gs in Forall (fun a => fits n a /\ clear_path n (length ps) a) attrs ->
      outlines_computed argsort v ps (transpose (t_model b')) view' proj' i attrs out ->
      exists order, visits n order /\ joined_covers (fun p => - z4 (eye (transpose m) (camera_view s) p)) gs order /\
        joined_beside (/ 100) (fun p => spot v (clip (transpose m) (camera_view s) proj p)) (fun j => map (fun a => own a j) attrs) gs order out.
Proof.
  intros GL O. destruct (turned L theta phi l GL O) as (b & b' & m & E1 & E2 & R & NE & OB). destruct lens_ok as (f & F & _ & EF).
  exists b, b', m, (lens f). do 5 (split; [assumption|]).
  intros argsort v s v' p' ps i gs attrs out SO U UX UY S I SV SP GP n FA H.
  exact (outlines_whole f s (transpose (t_model b')) (transpose m) v' p' ps F S I (block_transpose _ OB) (block_transpose _ (proj1 R)) (near_transpose _ _ _ NE) (fun q => block_norm m q R) SV SP v U UX UY argsort SO i gs attrs out GP FA H).
Qed.
Lemma whole_markers {X} L theta phi l : good_library L -> Forall on_screen l ->
  exists b b' m proj, fnew L theta phi = Ok b /\ facts L b l = Ok b' /\ rotation m /\ near (/ 10 ^ 7) (t_model b') m /\
    perspective 35 1 1 100 false = Ok proj /\
    forall argsort v s view' proj' ps (shapes : list X) face edge width size out, sorts_numbers argsort ->
      usable v -> Rabs (unit_x v) <= 1000 -> Rabs (unit_y v) <= 1000 -> / 1000 <= s <= 1000 -> Forall (in_cube s) ps ->
      stored (camera_view s) view' -> stored proj proj' ->
      let n := length ps in length shapes = n ->
      fits n face -> clear n face -> fits n edge -> clear n edge -> fits n width -> clear n width -> fits_size n size ->
      markers_computed argsort v ps (transpose (t_model b')) view' proj' shapes face edge width size out ->
      exists order, visits n order /\ covers_but (/ 1000) (fun p => - z4 (eye (transpose m) (camera_view s) p)) ps order /\
        shaped_beside (/ 100) (fun p => spot v (clip (transpose m) (camera_view s) proj p)) (fun j => [own face j; own edge j; own width j; own size j]) shapes ps order out.
Proof.
  intros GL O. destruct (turned L theta phi l GL O) as (b & b' & m & E1 & E2 & R & NE & OB). destruct lens_ok as (f & F & _ & EF).
  exists b, b', m, (lens f). do 5 (split; [assumption|]).
  intros argsort v s v' p' ps shapes face edge width size out SO U UX UY S I SV SP n LS F1 C1 F2 C2 F3 C3 F4 H.
  exact (markers_whole f s (transpose (t_model b')) (transpose m) v' p' ps F S I (block_transpose _ OB) (block_transpose _ (proj1 R)) (near_transpose _ _ _ NE) (fun q => block_norm m q R) SV SP v U UX UY argsort SO shapes face edge width size out LS F1 C1 F2 C2 F3 C3 F4 H).
Qed.
Lemma whole_joined_exist {X} L theta phi l : good_library L -> Forall on_screen l ->
  exists b b' proj, fnew L theta phi = Ok b /\ facts L b l = Ok b' /\ perspective 35 1 1 100 false = Ok proj /\
    forall argsort v s ps gs i gs' (shapes : list X) color width attrs face edge size, sorts_numbers argsort -> / 1000 <= s <= 1000 -> Forall (in_cube s) ps ->
      in_pairs gs ps -> group ps i = Ok gs' -> Forall (fun a => fits (length gs') a /\ clear_path (length gs') (length ps) a) attrs -> fits_size (length ps) size ->
      let M := transpose (t_model b') in let V := single (camera_view s) in let Q := single proj in
      stored (camera_view s) V /\ stored proj Q /\
      (exists out, segments_computed argsort v ps M V Q color width out) /\
      (exists out, outlines_computed argsort v ps M V Q i attrs out) /\
      exists out, markers_computed argsort v ps M V Q shapes face edge width size out.
Proof.
  intros GL O. destruct (turned L theta phi l GL O) as (b & b' & m & E1 & E2 & R & NE & OB). destruct lens_ok as (f & F & _ & EF).
  exists b, b', (lens f). do 3 (split; [assumption|]). intros argsort v s ps gs i gs' shapes color width attrs face edge size SO S I GP GR FA FS. cbv zeta.
  destruct (single_stored s (proj1 S)) as [SV SP]. specialize (SP _ EF). do 2 (split; [assumption|]).
  exact (joined_exist f s (transpose (t_model b')) (transpose m) _ _ ps F S I (block_transpose _ OB) (near_transpose _ _ _ NE) (fun q => block_norm m q R) SV SP v argsort SO gs i gs' shapes color width attrs face edge size GP GR FA FS).
Qed.
