(** Proofs about where things with several corners appear. *)
From Coq Require Import Reals Lra Psatz Permutation.
From Verif Require Import Base Slice Measure Viewport ViewportSpec Glm GlmSpec GlmFacts Vec VecSpec VecFacts Render RenderSpec RenderFacts Picture PictureSpec PictureFacts
  Outline OutlineSpec.
Local Open Scope R_scope.

(** ** Means *)
Definition total_of (l : list R) : R := fold_right Rplus 0 l.
Definition mean_of (l : list R) : R := total_of l / INR (length l).
Lemma plus_nums l : fold_right plus (Num 0) (map Num l) = Num (total_of l).
Proof. induction l as [|x l IH]; cbn [map fold_right]; [reflexivity|]. now rewrite IH. Qed.
Lemma length_pos {A} (l : list A) : l <> [] -> 0 < INR (length l).
Proof. intros N. apply lt_0_INR. destruct l; [contradiction|cbn; lia]. Qed.
Lemma minus_mean_nums l : l <> [] -> minus_mean (map Num l) = Num (- mean_of l).
Proof.
  intros N. destruct l as [|x l]; [contradiction|]. unfold minus_mean. cbn [map].
  change (Num x :: map Num l) with (map Num (x :: l)). rewrite plus_nums, map_length. unfold quot.
  destruct (Req_EM_T _ 0) as [Z|_]; [|reflexivity]. exfalso. pose proof (length_pos (x :: l) N). lra.
Qed.
Lemma total_le l m : (forall x, In x l -> x <= m) -> total_of l <= m * INR (length l).
Proof.
  induction l as [|x l IH]; intros B; [cbn; lra|]. cbn [total_of fold_right length]. fold (total_of l). rewrite S_INR.
  pose proof (B x (or_introl eq_refl)). specialize (IH (fun y H => B y (or_intror H))). nra.
Qed.
Lemma total_lt l m : l <> [] -> (forall x, In x l -> m < x) -> m * INR (length l) < total_of l.
Proof.
  induction l as [|x l IH]; intros N B; [contradiction|]. cbn [total_of fold_right length]. fold (total_of l). rewrite S_INR.
  pose proof (B x (or_introl eq_refl)) as X. destruct l as [|y l]; [cbn; lra|].
  specialize (IH ltac:(discriminate) (fun z H => B z (or_intror H))). nra.
Qed.
Lemma largest l : l <> [] -> exists m, In m l /\ forall x, In x l -> x <= m.
Proof.
  induction l as [|x l IH]; intros N; [contradiction|]. destruct l as [|y l].
  - exists x. split; [now left|]. intros z [<-|[]]. lra.
  - destruct (IH ltac:(discriminate)) as (m & I & B). destruct (Rle_dec x m) as [L|L].
    + exists m. split; [now right|]. intros z [<-|Z]; auto.
    + exists x. split; [now left|]. intros z [<-|Z]; [lra|]. specialize (B z Z). lra.
Qed.
Lemma mean_lt l k : l <> [] -> k <> [] -> (forall x y, In x l -> In y k -> x < y) -> mean_of l < mean_of k.
Proof.
  intros N M B. destruct (largest l N) as (m & I & L). pose proof (total_le l m L) as T1.
  pose proof (total_lt k m M (fun y H => B m y I H)) as T2. pose proof (length_pos l N) as P1. pose proof (length_pos k M) as P2.
  unfold mean_of. apply Rle_lt_trans with m.
  - apply (Rmult_le_reg_r (INR (length l))); [exact P1|]. unfold Rdiv. rewrite Rmult_assoc, Rinv_l by lra. lra.
  - apply (Rmult_lt_reg_r (INR (length k))); [exact P2|]. unfold Rdiv. rewrite Rmult_assoc, Rinv_l by lra. lra.
Qed.

(** ** Groups *)
Lemma range_map {A B} (f : A -> B) l a b : range (map f l) a b = map f (range l a b).
Proof. unfold range. rewrite map_length, skipn_map, firstn_map. reflexivity. Qed.
Lemma at_indices_map {A B} (f : A -> B) l idx : at_indices (map f l) idx = match at_indices l idx with Ok g => Ok (map f g) | Err e => Err e end.
Proof.
  induction idx as [|i r IH]; cbn [at_indices]; [reflexivity|]. rewrite map_length. destruct (norm_index _ i) as [j|]; [|reflexivity].
  rewrite nth_error_map. destruct (nth_error l (Z.to_nat j)); cbn [option_map]; [|reflexivity]. rewrite IH. destruct (at_indices l r); reflexivity.
Qed.
Lemma group_map {A B} (f : A -> B) l i : group (map f l) i = match group l i with Ok gs => Ok (map (map f) gs) | Err e => Err e end.
Proof.
  destruct i as [k|w s|ll]; cbn [group].
  - unfold group_uniform. rewrite map_length. destruct (k =? 0)%Z; [reflexivity|]. rewrite map_map. f_equal. apply map_ext. intros i. apply range_map.
  - f_equal. generalize 0%Z. induction s as [|x s IH]; intros z; cbn [group_sizes map]; [reflexivity|]. now rewrite IH, range_map.
  - induction ll as [|x ll IH]; cbn [group_indices]; [reflexivity|]. rewrite at_indices_map. destruct (at_indices l x); [|reflexivity]. cbn [bind].
    rewrite IH. destruct (group_indices l ll); reflexivity.
Qed.
Lemma pairs_map {A B} (f : A -> B) l : pairs (map f l) = match pairs l with Ok gs => Ok (map (map f) gs) | Err e => Err e end.
Proof.
  assert (G : forall n (l : list A), (length l <= n)%nat -> pairs (map f l) = match pairs l with Ok gs => Ok (map (map f) gs) | Err e => Err e end).
  { clear. induction n as [|n IH]; intros [|a [|b l]] L; cbn [map pairs]; try reflexivity; cbn in L; try lia.
    rewrite IH by lia. destruct (pairs l); reflexivity. }
  now apply (G (length l)).
Qed.
Lemma pairs_ok {A} (gs : list (list A)) : Forall (fun g => length g = 2%nat) gs -> pairs (concat gs) = Ok gs.
Proof.
  induction 1 as [|g gs L _ IH]; [reflexivity|]. destruct g as [|a [|b [|c g]]]; cbn in L; try lia. cbn [concat app pairs]. now rewrite IH.
Qed.
Lemma pairs_odd {A} n (l : list A) : length l = S (2 * n) -> pairs l = Err ValueError.
Proof.
  revert l. induction n as [|n IH]; intros [|a [|b l]] L; cbn in L; try lia; [reflexivity|].
  cbn [pairs]. rewrite IH by (cbn; lia). reflexivity.
Qed.

(** ** Where, and what covers what *)
Lemma depths_in z g : (forall p, In p g -> z p <> None) -> exists l, depths z g = Some l /\ length l = length g /\
  forall x, In x l -> exists p, In p g /\ z p = Some x.
Proof.
  induction g as [|p g IH]; intros A; cbn [depths].
  - exists []. split; [reflexivity|]. split; [reflexivity|]. intros x [].
  - destruct (z p) as [x|] eqn:X; [|now apply A in X; [|left]]. destruct (IH (fun q H => A q (or_intror H))) as (l & -> & L & I).
    exists (x :: l). split; [reflexivity|]. split; [cbn; now rewrite L|]. intros y [<-|Y]; [exists p; split; [now left|exact X]|].
    destruct (I y Y) as (q & Q & E). exists q. split; [now right|exact E].
Qed.
(** Going by the mean, nothing wholly nearer is drawn first. *)
Lemma mean_whole z gs order : covers (mean_in z gs) order -> covers_whole z gs order.
Proof.
  intros C i j a b g h L Hi Hj Ha Hb (N & M & D).
  destruct (depths_in z g) as (zs & Ez & Lz & Iz).
  { intros p I. destruct h as [|q h]; [contradiction|]. destruct (D p q I (or_introl eq_refl)) as (x & y & E & _). congruence. }
  destruct (depths_in z h) as (ws & Ew & Lw & Iw).
  { intros q I. destruct g as [|p g]; [contradiction|]. destruct (D p q (or_introl eq_refl) I) as (x & y & _ & E & _). congruence. }
  assert (NZ : zs <> []) by (intros ->; destruct g; [contradiction|discriminate]).
  assert (NW : ws <> []) by (intros ->; destruct h; [contradiction|discriminate]).
  assert (mean_of ws <= mean_of zs).
  { apply (C i j a b _ _ L Hi Hj); unfold mean_in, mean_depth; rewrite ?Ha, ?Hb, ?Ez, ?Ew; [destruct zs|destruct ws]; try contradiction; reflexivity. }
  assert (mean_of zs < mean_of ws); [|lra]. apply mean_lt; [exact NZ|exact NW|]. intros x y Hx Hy.
  destruct (Iz x Hx) as (p & Ip & Ep), (Iw y Hy) as (q & Iq & Eq). destruct (D p q Ip Iq) as (x' & y' & A & B & X). congruence.
Qed.

Section Order.
Variable argsort : list num -> list nat.
Hypothesis SORT : sorts_numbers argsort.
Variables (model view proj : mat).
Let T := transform_of model view proj.
Let row (p : vec3) : list num := projected (apply4 T (point p)).
Let key (gs : list (list vec3)) : list num := map (fun g => minus_mean (map (fun r => col r 2) g)) (map (map row) gs).

Lemma depths_rows g l : depths (fun p => depth (clip model view proj p)) g = Some l -> map (fun r => col r 2) (map row g) = map Num l.
Proof.
  revert l. induction g as [|p g IH]; intros l; cbn [depths map].
  - intros E. apply some_inj in E. now subst.
  - destruct (depth _) as [x|] eqn:X; [|discriminate]. destruct (depths _ g) as [k|]; [|discriminate]. intros E. apply some_inj in E. subst l.
    cbn [map]. rewrite (IH k eq_refl). f_equal. apply depth_some in X. unfold row, T. rewrite transform_clip. now apply projected_depth.
Qed.
Lemma key_mean gs : covers (mean_in (fun p => depth (clip model view proj p)) gs) (argsort (key gs)).
Proof.
  intros i j a b x y L Hi Hj Ha Hb. unfold mean_in, mean_depth in Ha, Hb.
  destruct (nth_error gs a) as [g|] eqn:Ga; [|discriminate]. destruct (nth_error gs b) as [h|] eqn:Gb; [|discriminate].
  destruct (depths _ g) as [zs|] eqn:Dg; [|discriminate]. destruct (depths _ h) as [ws|] eqn:Dh; [|discriminate].
  assert (NZ : zs <> []) by (intros ->; discriminate). assert (NW : ws <> []) by (intros ->; discriminate).
  assert (X : x = mean_of zs) by (destruct zs; [contradiction|]; apply some_inj in Ha; now subst).
  assert (Y : y = mean_of ws) by (destruct ws; [contradiction|]; apply some_inj in Hb; now subst). subst x y. clear Ha Hb.
  assert (C : - mean_of zs <= - mean_of ws).
  { apply (proj2 (SORT (key gs)) i j a b _ _ L Hi Hj); unfold key; rewrite map_map, nth_error_map, ?Ga, ?Gb; cbn [option_map].
    - now rewrite (depths_rows g zs Dg), minus_mean_nums.
    - now rewrite (depths_rows h ws Dh), minus_mean_nums. }
  lra.
Qed.
Lemma key_visits gs : visits (length gs) (argsort (key gs)).
Proof. unfold visits. replace (length gs) with (length (key gs)) by (unfold key; now rewrite !map_length). apply (proj1 (SORT (key gs))). Qed.
Lemma corners_spots v g : usable v -> corners v (map row g) = map (fun p => spot v (clip model view proj p)) g.
Proof.
  intros U. unfold corners. rewrite map_map. apply map_ext. intros p. unfold row, T. now rewrite transform_clip, projected_spot.
Qed.

Lemma outlines_where v V ps i gs attrs : usable v -> holds V ps -> group ps i = Ok gs ->
  let n := length gs in
  Forall (fun a => fits n a /\ clear_path n (length ps) a) attrs ->
  exists order out, outlines argsort v V model view proj i attrs = Ok out /\ visits n order /\
    covers (mean_in (fun p => depth (clip model view proj p)) gs) order /\
    map Some out = map (fun j => option_map (fun g => (map (fun p => spot v (clip model view proj p)) g, map (fun a => own a j) attrs))
                                            (nth_error gs j)) order.
Proof.
  intros U Hh G n F. unfold outlines.
  destruct (placed_points_rows V T ps Hh) as (A & E & D). fold T. rewrite E. cbn [bind].
  unfold rows_of. rewrite D. cbn [bind]. change (map (fun p => projected (apply4 T (point p))) ps) with (map row ps).
  rewrite group_map, G. cbn [bind]. fold (key gs). rewrite !map_length. fold n.
  pose proof (key_visits gs) as Vi. fold n in Vi. set (idx := argsort (key gs)) in *.
  destruct (attach_all_shown n (length ps) idx Vi attrs F) as (bs & Eb & Hb). rewrite Eb. cbn [bind].
  exists idx. eexists. split; [reflexivity|]. split; [exact Vi|]. split; [apply key_mean|].
  rewrite drawn with (as_ := attrs).
  - apply map_ext. intros j. rewrite map_map, nth_error_map. destruct (nth_error gs j); [|reflexivity]. cbn [option_map]. now rewrite corners_spots.
  - now rewrite !map_length.
  - exact Hb.
Qed.
Lemma segments_where v V ps gs color width : usable v -> holds V ps -> in_pairs gs ps ->
  let n := length gs in
  fits n color -> clear n color -> fits n width -> clear n width ->
  exists order out, segments argsort v V model view proj color width = Ok out /\ visits n order /\
    covers (mean_in (fun p => depth (clip model view proj p)) gs) order /\
    map Some out = map (fun j => option_map (fun g => (map (fun p => spot v (clip model view proj p)) g, [own color j; own width j]))
                                            (nth_error gs j)) order.
Proof.
  intros U Hh (G & G2) n F1 C1 F2 C2. unfold segments.
  destruct (placed_points_rows V T ps Hh) as (A & E & D). fold T. rewrite E. cbn [bind].
  unfold rows_of. rewrite D. cbn [bind]. change (map (fun p => projected (apply4 T (point p))) ps) with (map row ps).
  rewrite pairs_map. rewrite <- G, (pairs_ok gs G2). cbn [bind]. fold (key gs). rewrite !map_length. fold n.
  pose proof (key_visits gs) as Vi. fold n in Vi. set (idx := argsort (key gs)) in *.
  exists idx. eexists. split; [reflexivity|]. split; [exact Vi|]. split; [apply key_mean|].
  rewrite drawn with (as_ := [color; width]).
  - apply map_ext. intros j. rewrite map_map, nth_error_map. destruct (nth_error gs j); [|reflexivity]. cbn [option_map]. now rewrite corners_spots.
  - now rewrite !map_length.
  - intros i j Hi. cbn [map]. now rewrite !(shown_attach n idx) with (j := j) by assumption.
Qed.
Lemma segments_odd v V ps n color width : holds V ps -> length ps = S (2 * n) -> segments argsort v V model view proj color width = Err ValueError.
Proof.
  intros Hh L. unfold segments. destruct (placed_points_rows V T ps Hh) as (A & E & D). fold T. rewrite E. cbn [bind].
  unfold rows_of. rewrite D. cbn [bind]. rewrite (pairs_odd n); [reflexivity|now rewrite map_length].
Qed.
Lemma markers_where {S} v V (shapes : list S) ps face edge width size : usable v -> holds V ps ->
  let n := length ps in length shapes = n ->
  fits n face -> clear n face -> fits n edge -> clear n edge -> fits n width -> clear n width -> fits_size n size ->
  exists order out, markers argsort v V model view proj shapes face edge width size = Ok out /\ visits n order /\
    covers (depth_in (fun p => depth (clip model view proj p)) ps) order /\
    map Some out = map (fun j => match nth_error shapes j, nth_error ps j with
                                 | Some s, Some p => Some ((s, spot v (clip model view proj p)), [own face j; own edge j; own width j; own size j])
                                 | _, _ => None end) order.
Proof.
  intros U Hh n LS F1 C1 F2 C2 F3 C3 F4. unfold markers.
  destruct (placed_points_rows V T ps Hh) as (A & E & D). fold T. rewrite E. cbn [bind].
  unfold rows_of. rewrite D. cbn [bind]. rewrite map_length. fold n. rewrite !map_map.
  set (k := map _ ps). assert (L : length k = n) by (unfold k; now rewrite map_length).
  assert (Vi : visits n (argsort k)) by (unfold visits; rewrite <- L; apply (proj1 (SORT k))).
  set (idx := argsort k) in *.
  destruct (shown_size n idx size Vi F4) as (b & Eb & Hb). rewrite Eb. cbn [bind].
  exists idx. eexists. split; [reflexivity|]. split; [exact Vi|]. split.
  - intros i j a c x y Hij Hi Hj Hx Hy. unfold depth_in in Hx, Hy.
    destruct (nth_error ps a) as [pa|] eqn:Ea; [|discriminate]. destruct (nth_error ps c) as [pc|] eqn:Ec; [|discriminate].
    apply depth_some in Hx, Hy. destruct Hx as [Wx Zx], Hy as [Wy Zy].
    assert (K : 1 - x <= 1 - y).
    { apply (proj2 (SORT k) i j a c _ _ Hij Hi Hj); unfold k; rewrite nth_error_map, ?Ea, ?Ec; cbn [option_map]; unfold T;
      rewrite transform_clip; [now rewrite (projected_depth _ x)|now rewrite (projected_depth _ y)]. }
    lra.
  - rewrite combine_pick; [|now rewrite map_length|intros j Hj; rewrite LS; now apply (visits_in n idx)].
    rewrite drawn with (as_ := [face; edge; width; size]).
    + apply map_ext. intros j.
      assert (N : forall (x : list S) (y : list (option (R * R))) i, nth_error (combine x y) i =
        match nth_error x i, nth_error y i with Some a, Some b => Some (a, b) | _, _ => None end).
      { induction x as [|a x IH]; intros [|c y] [|q]; cbn; auto. now destruct (nth_error x q). }
      rewrite N, nth_error_map. destruct (nth_error shapes j); [|reflexivity]. destruct (nth_error ps j); [|reflexivity]. cbn [option_map].
      unfold T. now rewrite projected_spot, transform_clip.
    + rewrite combine_length, map_length. replace (Nat.min (length shapes) (length ps)) with n by (unfold n in *; lia). exact Vi.
    + intros i j Hi. cbn [map]. rewrite !(shown_attach n idx) with (j := j) by assumption. now rewrite (Hb i j Hi).
Qed.
End Order.

(** ** In terms of the eye *)
Lemma whole_mono (z z' : vec3 -> option R) gs order :
  (forall p q x y, z' p = Some x -> z' q = Some y -> x < y -> exists x' y', z p = Some x' /\ z q = Some y' /\ x' < y') ->
  covers_whole z gs order -> covers_whole z' gs order.
Proof.
  intros M C i j a b g h L Hi Hj Ha Hb (N & N' & D). apply (C i j a b g h L Hi Hj Ha Hb). split; [exact N|]. split; [exact N'|].
  intros p q Ip Iq. destruct (D p q Ip Iq) as (x & y & X & Y & LT). exact (M p q x y X Y LT).
Qed.
Lemma perspective_whole model view proj gs order fovy aspect n f : affine model -> affine view -> 0 < fovy < 180 -> 0 < aspect -> 0 < n < f ->
  perspective fovy aspect n f false = Ok proj ->
  covers_whole (fun p => depth (clip model view proj p)) gs order -> covers_whole (fun p => ahead (eye model view p)) gs order.
Proof.
  intros AM AV V A N E. apply whole_mono. intros p q x y X Y L. apply ahead_some in X, Y. destruct X as [Z1 ->], Y as [Z2 ->]. unfold clip.
  rewrite !(perspective_depth _ _ _ _ _ _ V A N E) by (try apply affine_eye; auto; lra). eexists _, _. split; [reflexivity|]. split; [reflexivity|].
  set (z1 := z4 (eye model view p)) in *. set (z2 := z4 (eye model view q)) in *. clearbody z1 z2.
  assert (K : 0 < 2 * n * f / (f - n)) by (apply Rdiv_lt_0_compat; nra). set (k := 2 * n * f / (f - n)) in *. clearbody k.
  assert (/ z1 < / z2).
  { apply Rinv_lt_contravar; [nra|lra]. }
  nra.
Qed.
Lemma ortho_whole model view proj gs order l r b t n f : affine model -> affine view -> volume l r b t n f -> n < f ->
  ortho l r b t n f false = Ok proj ->
  covers_whole (fun p => depth (clip model view proj p)) gs order -> covers_whole (fun p => Some (- z4 (eye model view p))) gs order.
Proof.
  intros AM AV V N E. apply whole_mono. intros p q x y X Y L. apply some_inj in X, Y. subst x y. unfold clip.
  assert (D : forall c, w4 c = 1 -> depth (apply4 proj c) = Some ((- 2 * z4 c - (f + n)) / (f - n))).
  { intros c W. rewrite ortho_ok in E by exact V. injection E as <-. destruct V as (V1 & V2 & V3). destruct c as [cx cy cz cw]. cbn [w4] in W. subst cw.
    unfold depth. mats. destruct (Req_EM_T _ 0); [exfalso; lra|]. f_equal. field. lra. }
  rewrite !D by now apply affine_eye. eexists _, _. split; [reflexivity|]. split; [reflexivity|].
  apply Rmult_lt_compat_r; [apply Rinv_0_lt_compat; lra|lra].
Qed.

Lemma outlines_perspective argsort v V model view proj ps i gs attrs fovy aspect near far : sorts_numbers argsort -> usable v -> holds V ps ->
  affine model -> affine view -> 0 < fovy < 180 -> 0 < aspect -> 0 < near < far ->
  perspective fovy aspect near far false = Ok proj -> group ps i = Ok gs ->
  let n := length gs in
  Forall (fun a => fits n a /\ clear_path n (length ps) a) attrs ->
  exists order out, outlines argsort v V model view proj i attrs = Ok out /\ visits n order /\
    covers_whole (fun p => ahead (eye model view p)) gs order /\
    map Some out = map (fun j => option_map (fun g => (map (fun p => spot v (clip model view proj p)) g, map (fun a => own a j) attrs))
                                            (nth_error gs j)) order.
Proof.
  intros SO U Hh AM AV F A N E G n Hf. destruct (outlines_where argsort SO model view proj v V ps i gs attrs U Hh G Hf) as (o & out & O & Vi & C & W).
  exists o, out. split; [exact O|]. split; [exact Vi|]. split; [|exact W].
  now apply (perspective_whole model view proj gs o fovy aspect near far), mean_whole.
Qed.
Lemma outlines_ortho argsort v V model view proj ps i gs attrs l r b t near far : sorts_numbers argsort -> usable v -> holds V ps ->
  affine model -> affine view -> volume l r b t near far -> near < far -> ortho l r b t near far false = Ok proj -> group ps i = Ok gs ->
  let n := length gs in
  Forall (fun a => fits n a /\ clear_path n (length ps) a) attrs ->
  exists order out, outlines argsort v V model view proj i attrs = Ok out /\ visits n order /\
    covers_whole (fun p => Some (- z4 (eye model view p))) gs order /\
    map Some out = map (fun j => option_map (fun g => (map (fun p => spot v (clip model view proj p)) g, map (fun a => own a j) attrs))
                                            (nth_error gs j)) order.
Proof.
  intros SO U Hh AM AV Vo N E G n Hf. destruct (outlines_where argsort SO model view proj v V ps i gs attrs U Hh G Hf) as (o & out & O & Vi & C & W).
  exists o, out. split; [exact O|]. split; [exact Vi|]. split; [|exact W].
  now apply (ortho_whole model view proj gs o l r b t near far), mean_whole.
Qed.
Lemma segments_perspective argsort v V model view proj ps gs color width fovy aspect near far : sorts_numbers argsort -> usable v -> holds V ps ->
  affine model -> affine view -> 0 < fovy < 180 -> 0 < aspect -> 0 < near < far ->
  perspective fovy aspect near far false = Ok proj -> in_pairs gs ps ->
  let n := length gs in fits n color -> clear n color -> fits n width -> clear n width ->
  exists order out, segments argsort v V model view proj color width = Ok out /\ visits n order /\
    covers_whole (fun p => ahead (eye model view p)) gs order /\
    map Some out = map (fun j => option_map (fun g => (map (fun p => spot v (clip model view proj p)) g, [own color j; own width j]))
                                            (nth_error gs j)) order.
Proof.
  intros SO U Hh AM AV F A N E G n F1 C1 F2 C2.
  destruct (segments_where argsort SO model view proj v V ps gs color width U Hh G F1 C1 F2 C2) as (o & out & O & Vi & C & W).
  exists o, out. split; [exact O|]. split; [exact Vi|]. split; [|exact W].
  now apply (perspective_whole model view proj gs o fovy aspect near far), mean_whole.
Qed.
Lemma segments_ortho argsort v V model view proj ps gs color width l r b t near far : sorts_numbers argsort -> usable v -> holds V ps ->
  affine model -> affine view -> volume l r b t near far -> near < far -> ortho l r b t near far false = Ok proj -> in_pairs gs ps ->
  let n := length gs in fits n color -> clear n color -> fits n width -> clear n width ->
  exists order out, segments argsort v V model view proj color width = Ok out /\ visits n order /\
    covers_whole (fun p => Some (- z4 (eye model view p))) gs order /\
    map Some out = map (fun j => option_map (fun g => (map (fun p => spot v (clip model view proj p)) g, [own color j; own width j]))
                                            (nth_error gs j)) order.
Proof.
  intros SO U Hh AM AV Vo N E G n F1 C1 F2 C2.
  destruct (segments_where argsort SO model view proj v V ps gs color width U Hh G F1 C1 F2 C2) as (o & out & O & Vi & C & W).
  exists o, out. split; [exact O|]. split; [exact Vi|]. split; [|exact W].
  now apply (ortho_whole model view proj gs o l r b t near far), mean_whole.
Qed.
Lemma markers_perspective {S} argsort v V (shapes : list S) model view proj ps face edge width size fovy aspect near far :
  sorts_numbers argsort -> usable v -> holds V ps ->
  affine model -> affine view -> 0 < fovy < 180 -> 0 < aspect -> 0 < near < far ->
  perspective fovy aspect near far false = Ok proj ->
  let n := length ps in length shapes = n ->
  fits n face -> clear n face -> fits n edge -> clear n edge -> fits n width -> clear n width -> fits_size n size ->
  exists order out, markers argsort v V model view proj shapes face edge width size = Ok out /\ visits n order /\
    covers (depth_in (fun p => ahead (eye model view p)) ps) order /\
    map Some out = map (fun j => match nth_error shapes j, nth_error ps j with
                                 | Some s, Some p => Some ((s, spot v (clip model view proj p)), [own face j; own edge j; own width j; own size j])
                                 | _, _ => None end) order.
Proof.
  intros SO U Hh AM AV F A N E n L F1 C1 F2 C2 F3 C3 F4.
  destruct (markers_where argsort SO model view proj v V shapes ps face edge width size U Hh L F1 C1 F2 C2 F3 C3 F4) as (o & out & O & Vi & C & W).
  exists o, out. split; [exact O|]. split; [exact Vi|]. split; [|exact W].
  exact (perspective_covers _ _ _ _ _ AM AV C _ _ _ _ F A N E).
Qed.

(** ** Crossing segments *)
Definition crossing : list vec3 := [V3 (-1) 0 (-10); V3 1 0 (-10); V3 0 0 (-2); V3 0 1 (-30)].
Lemma crossing_order argsort v V color width : sorts_numbers argsort -> usable v -> holds V crossing ->
  fits 2 color -> clear 2 color -> fits 2 width -> clear 2 width ->
  exists model view proj out f g h k,
    flat_mats = Ok (model, view, proj) /\ segments argsort v V model view proj color width = Ok out /\
    map Some out = map (fun j => option_map (fun s => (map (fun p => spot v (clip model view proj p)) s, [own color j; own width j]))
                                            (nth_error [[f; g]; [h; k]] j)) [1%nat; 0%nat] /\
    crossing = [f; g; h; k] /\
    exists s t, 0 <= s <= 1 /\ 0 <= t <= 1 /\
      spot v (clip model view proj (between s f g)) = spot v (clip model view proj (between t h k)) /\
      - z4 (eye model view (between t h k)) < - z4 (eye model view (between s f g)).
Proof.
  intros SO U Hh F1 C1 F2 C2. destruct (flat_suits v) as (model & view & proj & E & AM & AV & O & Vo & Sp).
  set (gs := [[V3 (-1) 0 (-10); V3 1 0 (-10)]; [V3 0 0 (-2); V3 0 1 (-30)]]).
  assert (G : in_pairs gs crossing) by (split; [reflexivity|repeat constructor]).
  destruct (segments_where argsort SO model view proj v V crossing gs color width U Hh G F1 C1 F2 C2) as (o & out & X & Vi & C & W).
  exists model, view, proj, out, (V3 (-1) 0 (-10)), (V3 1 0 (-10)), (V3 0 0 (-2)), (V3 0 1 (-30)).
  split; [exact E|]. split; [exact X|].
  assert (Q : forall p, depth (clip model view proj p) = Some ((- 2 * z3 p - 101) / 99)).
  { intros p. unfold clip. rewrite (proj1 (Sp p)). rewrite ortho_ok in O by exact Vo. injection O as <-. destruct p as [px py pz]. unfold depth, point. mats.
    destruct (Req_EM_T _ 0); [exfalso; lra|]. f_equal. field. }
  assert (o = [1%nat; 0%nat]) as ->.
  { unfold visits in Vi. cbn [length gs seq] in Vi. destruct (Permutation_length_2_inv (Permutation_sym Vi)) as [->| ->]; [|reflexivity]. exfalso.
    specialize (C 0%nat 1%nat 0%nat 1%nat ((-2 * -10 - 101) / 99) ((-2 * -16 - 101) / 99) ltac:(lia) eq_refl eq_refl).
    unfold mean_in, mean_depth in C. cbn [nth_error gs depths] in C. rewrite !Q in C. cbn [z3 fold_right length INR] in C.
    specialize (C ltac:(f_equal; field) ltac:(f_equal; field)). lra. }
  split; [exact W|]. split; [reflexivity|]. exists (1 / 2), 0. split; [lra|]. split; [lra|].
  rewrite !(proj2 (Sp _)), !(proj1 (Sp _)). unfold between, point. cbn [x3 y3 z3 z4]. split; [|lra]. do 2 f_equal; f_equal; f_equal; lra.
Qed.
Lemma outline_case : sorts_numbers sort_nums /\
  holds (table KFloat 3 [[-1; 0; -10]; [1; 0; -10]; [0; 0; -2]; [0; 1; -30]]) crossing /\
  in_pairs [[V3 (-1) 0 (-10); V3 1 0 (-10)]; [V3 0 0 (-2); V3 0 1 (-30)]] crossing /\
  group crossing (Uniform 2) = Ok [[V3 (-1) 0 (-10); V3 1 0 (-10)]; [V3 0 0 (-2); V3 0 1 (-30)]] /\
  group crossing (Indices [[3; 0]; [-1; 1; 2]]%Z) = Ok [[V3 0 1 (-30); V3 (-1) 0 (-10)]; [V3 0 1 (-30); V3 1 0 (-10); V3 0 0 (-2)]] /\
  fits 2 (Render.Rows [[1]; [2]]%Z) /\ clear 2 (Render.Rows [[1]; [2]]%Z) /\ clear_path 2 4 (Render.Rows [[1]; [2]]%Z) /\
  nearer (fun p => ahead (point p)) [V3 0 0 (-2); V3 1 0 (-3)] [V3 1 0 (-10); V3 0 1 (-30)].
Proof.
  split; [exact sort_nums_sorts|]. split.
  { exists [[-1; 0; -10]; [1; 0; -10]; [0; 0; -2]; [0; 1; -30]]. split; [reflexivity|]. split; [repeat constructor|discriminate]. }
  split; [split; [reflexivity|repeat constructor]|]. split; [reflexivity|]. split; [reflexivity|]. split; [now left|]. split; [exact Logic.I|].
  split; [now left|]. split; [discriminate|]. split; [discriminate|].
  intros p q [<-|[<-|[]]] [<-|[<-|[]]]; unfold ahead, point; cbn [z3 z4]; repeat (destruct (Rlt_dec _ 0); [|exfalso; lra]);
    eexists _, _; (split; [reflexivity|]); (split; [reflexivity|]); lra.
Qed.
