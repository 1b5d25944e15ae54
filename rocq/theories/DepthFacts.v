(** Proofs about points coloured by their depth. *)
From Coq Require Import Reals Lra Psatz.
From Verif Require Import Base Slice Measure Viewport ViewportSpec Camera CameraSpec Glm GlmSpec GlmFacts Vec VecSpec Render RenderSpec RenderFacts Trackball TrackballSpec Picture PictureSpec PictureFacts
  Outline OutlineSpec Drag DragSpec DragFacts Live LiveSpec LiveFacts Depth DepthSpec.
Local Open Scope R_scope.

Lemma finite_nums l : finite (map Num l) = Some l.
Proof. induction l as [|x l IH]; [reflexivity|]. cbn. now rewrite IH. Qed.
Lemma fold_min l : forall x, (fold_left Rmin l x <= x /\ forall y, In y l -> fold_left Rmin l x <= y) /\ In (fold_left Rmin l x) (x :: l).
Proof.
  induction l as [|a l IH]; intros x; cbn [fold_left].
  - split; [split; [lra|intros y []]|now left].
  - destruct (IH (Rmin x a)) as [[A B] C]. pose proof (Rmin_l x a). pose proof (Rmin_r x a). split.
    + split; [lra|]. intros y [<-|I]; [lra|auto].
    + destruct C as [E|I]; [|right; now right]. rewrite <- E. unfold Rmin. destruct (Rle_dec x a); [now left|right; now left].
Qed.
Lemma fold_max l : forall x, (x <= fold_left Rmax l x /\ forall y, In y l -> y <= fold_left Rmax l x) /\ In (fold_left Rmax l x) (x :: l).
Proof.
  induction l as [|a l IH]; intros x; cbn [fold_left].
  - split; [split; [lra|intros y []]|now left].
  - destruct (IH (Rmax x a)) as [[A B] C]. pose proof (Rmax_l x a). pose proof (Rmax_r x a). split.
    + split; [lra|]. intros y [<-|I]; [lra|auto].
    + destruct C as [E|I]; [|right; now right]. rewrite <- E. unfold Rmax. destruct (Rle_dec x a); [right; now left|now left].
Qed.
Lemma lowest_is l m : In m l -> (forall x, In x l -> m <= x) -> lowest l = Ok m.
Proof.
  intros I B. destruct l as [|x l]; [destruct I|]. cbn. f_equal. destruct (fold_min l x) as [[A C] D].
  apply Rle_antisym; [|exact (B _ D)]. destruct I as [<-|I]; auto.
Qed.
Lemma highest_is l m : In m l -> (forall x, In x l -> x <= m) -> highest l = Ok m.
Proof.
  intros I B. destruct l as [|x l]; [destruct I|]. cbn. f_equal. destruct (fold_max l x) as [[A C] D].
  apply Rle_antisym; [exact (B _ D)|]. destruct I as [<-|I]; auto.
Qed.
Lemma extremes l : l <> [] -> exists a b, nearest l a /\ farthest l b.
Proof.
  destruct l as [|x l]; [congruence|]. intros _. exists (fold_left Rmin l x), (fold_left Rmax l x).
  destruct (fold_min l x) as [[A C] D], (fold_max l x) as [[A' C'] D']. split; (split; [assumption|]); intros e [<-|I]; auto.
Qed.
Lemma own_rows {I} (f : I -> list Z) ps j p : nth_error ps j = Some p -> own (Render.Rows (map f ps)) j = Some (f p).
Proof.
  intros N. destruct ps as [|a [|b r]]; [destruct j; discriminate| |].
  - destruct j as [|j]; [|destruct j; discriminate]. injection N as <-. reflexivity.
  - change (own (Render.Rows (map f (a :: b :: r))) j) with (nth_error (map f (a :: b :: r)) j). now rewrite nth_error_map, N.
Qed.

Section Shaded.
Variable argsort : list num -> list nat.
Hypothesis SORT : sorts_numbers argsort.

Lemma shaded_points v V ps model view proj k cmap bad vmin vmax edge width size cs : holds V ps ->
  shades cmap bad vmin vmax (map (screen k) (map (fun p => projected (clip model view proj p)) ps)) = Ok cs ->
  shaded_vis argsort V k cmap bad vmin vmax edge width size v model view proj = points_vis argsort V (Render.Rows cs) edge width size v model view proj.
Proof.
  intros Ho S. destruct (placed_points_rows V (transform_of model view proj) ps Ho) as (A & P & Rr). unfold shaded_vis, points_vis. rewrite P. cbn [bind]. unfold rows_of. rewrite Rr. cbn [bind].
  replace (map (fun p => projected (apply4 (transform_of model view proj) (point p))) ps) with (map (fun p => projected (clip model view proj p)) ps)
    by (apply map_ext; intros p; now rewrite transform_clip).
  rewrite S. reflexivity.
Qed.
Lemma screens model view proj ps dep : (forall p, In p ps -> depth (clip model view proj p) = Some (dep p)) ->
  map (screen 2) (map (fun p => projected (clip model view proj p)) ps) = map Num (map (fun p => 1 - dep p) ps).
Proof.
  intros D. rewrite !map_map. apply map_ext_in. intros p I. specialize (D p I). apply depth_some in D. destruct D as [W Z]. unfold screen. cbn [Nat.eqb].
  rewrite (projected_depth _ _ W Z). reflexivity.
Qed.
(** Every value known, the colours are those of the levels between [a] and [b]. *)
Lemma shaded_by v V model view proj ps k val cmap bad vmin vmax a b edge width size : usable v -> holds V ps -> ps <> [] ->
  map (screen k) (map (fun p => projected (clip model view proj p)) ps) = map Num (map val ps) ->
  given vmin (lowest (map val ps)) = Ok a -> given vmax (highest (map val ps)) = Ok b -> a <= b ->
  let n := length ps in fits n edge -> clear n edge -> fits n width -> clear n width -> fits_size n size ->
  exists order out, shaded_vis argsort V k cmap bad vmin vmax edge width size v model view proj = Ok out /\ visits n order /\
    covers (depth_in (fun p => depth (clip model view proj p)) ps) order /\
    map Some (picture v out) = map (fun j => option_map (fun p => ([spot v (clip model view proj p)],
      [Some (cmap (scaled a b (val p))); own edge j; own width j; own size j])) (nth_error ps j)) order.
Proof.
  intros U Ho NE D GA GB AB n F2 C2 F3 C3 F4.
  set (cs := map (fun p => cmap (scaled a b (val p))) ps).
  assert (S : shades cmap bad vmin vmax (map (screen k) (map (fun p => projected (clip model view proj p)) ps)) = Ok cs).
  { rewrite D. unfold shades. destruct ps as [|p ps]; [congruence|]. cbn [map]. change (Num (val p) :: map Num (map val ps)) with (map Num (map val (p :: ps))).
    rewrite finite_nums. rewrite GA. cbn [bind]. rewrite GB. cbn [bind]. destruct (Rle_dec a b); [|contradiction]. unfold cs. now rewrite map_map. }
  rewrite (shaded_points v V ps model view proj k cmap bad vmin vmax edge width size cs Ho S).
  assert (FL : length cs = n) by (unfold cs; now rewrite map_length).
  destruct (points_where argsort SORT v V model view proj ps (Render.Rows cs) edge width size U Ho (or_introl FL) Logic.I F2 C2 F3 C3 F4) as (order & out & PO & VI & CO & MO).
  pose proof (points_picture argsort v V (Render.Rows cs) edge width size model view proj) as PP. rewrite PO in PP. cbn [bind] in PP.
  destruct (points_vis argsort V (Render.Rows cs) edge width size v model view proj) as [items|]; [|discriminate]. cbn [bind] in PP. injection PP as PP.
  exists order, items. split; [reflexivity|]. split; [exact VI|]. split; [exact CO|]. rewrite PP.
  transitivity (map (option_map (fun '(x, a) => ([x], a))) (map Some out)); [rewrite !map_map; reflexivity|].
  rewrite MO, map_map. apply map_ext. intros j. destruct (nth_error ps j) as [p|] eqn:N; [|reflexivity]. cbn [option_map]. unfold cs. now rewrite (own_rows _ _ _ _ N).
Qed.
(** Every depth known. *)
Lemma shaded_between v V model view proj ps dep cmap bad vmin vmax a b edge width size : usable v -> holds V ps -> ps <> [] ->
  (forall p, In p ps -> depth (clip model view proj p) = Some (dep p)) ->
  given vmin (lowest (map (fun p => 1 - dep p) ps)) = Ok a -> given vmax (highest (map (fun p => 1 - dep p) ps)) = Ok b -> a <= b ->
  let n := length ps in fits n edge -> clear n edge -> fits n width -> clear n width -> fits_size n size ->
  exists order out, shaded_vis argsort V 2 cmap bad vmin vmax edge width size v model view proj = Ok out /\ visits n order /\
    covers (depth_in (fun p => depth (clip model view proj p)) ps) order /\
    map Some (picture v out) = map (fun j => option_map (fun p => ([spot v (clip model view proj p)],
      [Some (cmap (scaled a b (1 - dep p))); own edge j; own width j; own size j])) (nth_error ps j)) order.
Proof. intros U Ho NE D. exact (shaded_by v V model view proj ps 2 (fun p => 1 - dep p) cmap bad vmin vmax a b edge width size U Ho NE (screens _ _ _ _ dep D)). Qed.
(** Coloured by the place on the screen. *)
Lemma shaded_across v V model view proj ps k cmap bad a b edge width size : usable v -> holds V ps -> (k < 2)%nat -> 0 < unit_x v -> 0 < unit_y v ->
  (forall p, In p ps -> w4 (clip model view proj p) <> 0) ->
  nearest (map (fun p => across k (spot v (clip model view proj p))) ps) a -> farthest (map (fun p => across k (spot v (clip model view proj p))) ps) b -> a < b ->
  let n := length ps in fits n edge -> clear n edge -> fits n width -> clear n width -> fits_size n size ->
  exists order out, shaded_vis argsort V k cmap bad None None edge width size v model view proj = Ok out /\ visits n order /\
    covers (depth_in (fun p => depth (clip model view proj p)) ps) order /\
    map Some (picture v out) = map (fun j => option_map (fun p => ([spot v (clip model view proj p)],
      [Some (cmap ((across k (spot v (clip model view proj p)) - a) / (b - a))); own edge j; own width j; own size j])) (nth_error ps j)) order.
Proof.
  intros U Ho K UX UY W NA FB AB n F2 C2 F3 C3 F4.
  set (val := fun p => let c := clip model view proj p in (if Nat.eqb k 0 then x4 c else y4 c) / w4 c).
  assert (SH : exists m u, 0 < u /\ forall p, In p ps -> across k (spot v (clip model view proj p)) = m + u * val p).
  { destruct k as [|[|k]]; [| |exfalso; lia].
    - exists (fst (middle v)), (unit_x v). split; [exact UX|]. intros p I. specialize (W p I). unfold spot, across, val. cbn [Nat.eqb]. destruct (Req_EM_T _ 0); [contradiction|reflexivity].
    - exists (snd (middle v)), (unit_y v). split; [exact UY|]. intros p I. specialize (W p I). unfold spot, across, val. cbn [Nat.eqb]. destruct (Req_EM_T _ 0); [contradiction|reflexivity]. }
  destruct SH as (m & u & UP & SH).
  assert (SC : map (screen k) (map (fun p => projected (clip model view proj p)) ps) = map Num (map val ps)).
  { rewrite !map_map. apply map_ext_in. intros p I. specialize (W p I). unfold screen, projected, val. destruct k as [|[|k]]; [| |exfalso; lia]; cbn [Nat.eqb col map nth]; unfold quot; cbn; destruct (Req_EM_T _ 0); try contradiction; reflexivity. }
  destruct NA as [IA BA], FB as [IB BB]. apply in_map_iff in IA, IB. destruct IA as (pa & EA & IA), IB as (pb & EB & IB). rewrite (SH pa IA) in EA. rewrite (SH pb IB) in EB.
  assert (BA' : forall p, In p ps -> val pa <= val p). { intros p I. pose proof (BA _ (in_map _ _ _ I)) as B. cbv beta in B. rewrite (SH p I), <- EA in B. nra. }
  assert (BB' : forall p, In p ps -> val p <= val pb). { intros p I. pose proof (BB _ (in_map _ _ _ I)) as B. cbv beta in B. rewrite (SH p I), <- EB in B. nra. }
  assert (NE : ps <> []) by (intros ->; destruct IA).
  assert (GA : given None (lowest (map val ps)) = Ok (val pa)). { cbn [given]. apply lowest_is; [now apply in_map|]. intros x J. apply in_map_iff in J. destruct J as (p & <- & J). auto. }
  assert (GB : given None (highest (map val ps)) = Ok (val pb)). { cbn [given]. apply highest_is; [now apply in_map|]. intros x J. apply in_map_iff in J. destruct J as (p & <- & J). auto. }
  assert (LT : val pa < val pb) by nra.
  destruct (shaded_by v V model view proj ps k val cmap bad None None _ _ edge width size U Ho NE SC GA GB (Rlt_le _ _ LT) F2 C2 F3 C3 F4) as (order & out & O & VI & CO & MO).
  exists order, out. split; [exact O|]. split; [exact VI|]. split; [exact CO|]. rewrite MO. apply map_ext. intros j. destruct (nth_error ps j) as [p|] eqn:N; [|reflexivity]. cbn [option_map].
  rewrite (SH p (nth_error_In _ _ N)). do 5 f_equal. unfold scaled. destruct (Req_EM_T _ _); [lra|]. rewrite <- EA, <- EB. set (vp := val p). set (va := val pa) in *. set (vb := val pb) in *. clearbody vp va vb. field. split; [nra|lra].
Qed.
End Shaded.

Lemma covers_all ps model view order : in_front model view ps -> covers (depth_in (fun p => ahead (eye model view p)) ps) order ->
  covers (depth_in (fun p => Some (- z4 (eye model view p))) ps) order.
Proof.
  intros F C i j a b x y L Hi Hj Hx Hy. apply (C i j a b x y L Hi Hj).
  - unfold depth_in in *. destruct (nth_error ps a) as [p|] eqn:E; [|discriminate]. apply nth_error_In in E. unfold in_front in F. rewrite Forall_forall in F. specialize (F p E). unfold ahead. destruct (Rlt_dec _ 0); [exact Hx|contradiction].
  - unfold depth_in in *. destruct (nth_error ps b) as [p|] eqn:E; [|discriminate]. apply nth_error_In in E. unfold in_front in F. rewrite Forall_forall in F. specialize (F p E). unfold ahead. destruct (Rlt_dec _ 0); [exact Hy|contradiction].
Qed.
Lemma inv_lt a b : 0 < a -> a < b -> / b < / a.
Proof. intros A B. apply Rinv_lt_contravar; [nra|exact B]. Qed.
Lemma inv_le a b : 0 < a -> a <= b -> / b <= / a.
Proof. intros A [B|B]; [left; now apply inv_lt|subst; lra]. Qed.

Section Perspective.
Variable argsort : list num -> list nat.
Hypothesis SORT : sorts_numbers argsort.
Variables (v : Viewport.viewport) (V : arr) (model view proj : mat) (ps : list vec3) (edge width size : attr) (fovy aspect n f : R).
Hypotheses (U : usable v) (Ho : holds V ps) (NE : ps <> []) (AM : affine model) (AV : affine view).
Hypotheses (VF : 0 < fovy < 180) (VA : 0 < aspect) (VN : 0 < n < f) (E : perspective fovy aspect n f false = Ok proj).
Hypothesis F : in_front model view ps.
Hypotheses (F2 : fits (length ps) edge) (C2 : clear (length ps) edge) (F3 : fits (length ps) width) (C3 : clear (length ps) width) (F4 : fits_size (length ps) size).
Let dist p := - z4 (eye model view p).
Let value d := 1 - ((f + n) / (f - n) - 2 * n * f / (f - n) * / d).

Lemma k_positive : 0 < 2 * n * f / (f - n).
Proof. apply Rdiv_lt_0_compat; nra. Qed.
Lemma front p : In p ps -> 0 < dist p.
Proof. intros I. unfold in_front in F. rewrite Forall_forall in F. specialize (F p I). unfold dist. lra. Qed.
Lemma depths p : In p ps -> depth (clip model view proj p) = Some (1 - value (dist p)).
Proof.
  intros I. pose proof (front p I) as P. unfold dist in P. unfold clip. rewrite (perspective_depth _ _ _ _ _ _ VF VA VN E) by (try (apply affine_eye; assumption); lra).
  f_equal. unfold value, dist. rewrite Rinv_opp. ring.
Qed.
Lemma values : map (fun p => 1 - (1 - value (dist p))) ps = map value (distances model view ps).
Proof. unfold distances. rewrite map_map. apply map_ext. intros p. fold (dist p). ring. Qed.
Lemma value_le d e : 0 < d -> d <= e -> value e <= value d.
Proof. intros P L. pose proof k_positive as K. pose proof (inv_le d e P L) as I. unfold value. apply Rplus_le_compat_l, Ropp_le_contravar. apply Rplus_le_compat_l, Ropp_le_contravar. apply Rmult_le_compat_l; lra. Qed.
Lemma distance_positive d : In d (distances model view ps) -> 0 < d.
Proof. unfold distances. intros I. apply in_map_iff in I. destruct I as (p & <- & I). exact (front p I). Qed.
Lemma lowest_value far : farthest (distances model view ps) far -> lowest (map (fun p => 1 - (1 - value (dist p))) ps) = Ok (value far).
Proof.
  intros [I B]. rewrite values. apply lowest_is; [apply in_map; exact I|]. intros x J. apply in_map_iff in J. destruct J as (d & <- & J).
  apply value_le; [exact (distance_positive d J)|exact (B d J)].
Qed.
Lemma highest_value near : nearest (distances model view ps) near -> highest (map (fun p => 1 - (1 - value (dist p))) ps) = Ok (value near).
Proof.
  intros [I B]. rewrite values. apply highest_is; [apply in_map; exact I|]. intros x J. apply in_map_iff in J. destruct J as (d & <- & J).
  apply value_le; [exact (distance_positive near I)|exact (B d J)].
Qed.
Lemma shown_by cmap bad vmin vmax a b shade : (forall p, In p ps -> cmap (scaled a b (value (dist p))) = shade (dist p)) ->
  given vmin (lowest (map (fun p => 1 - (1 - value (dist p))) ps)) = Ok a -> given vmax (highest (map (fun p => 1 - (1 - value (dist p))) ps)) = Ok b -> a <= b ->
  exists out, shaded_vis argsort V 2 cmap bad vmin vmax edge width size v model view proj = Ok out /\
    shown_shaded v model view proj ps shade edge width size out.
Proof.
  intros S GA GB AB. destruct (shaded_between argsort SORT v V model view proj ps (fun p => 1 - value (dist p)) cmap bad vmin vmax a b edge width size U Ho NE depths GA GB AB F2 C2 F3 C3 F4) as (order & out & A & B & C & D).
  exists out. split; [exact A|]. exists order. split; [exact B|]. split; [apply covers_all; [exact F|]; exact (perspective_covers _ _ _ _ _ AM AV C _ _ _ _ VF VA VN E)|].
  rewrite D. apply map_ext. intros j. destruct (nth_error ps j) as [p|] eqn:Np; [|reflexivity]. cbn [option_map]. apply nth_error_In in Np. fold (dist p). rewrite <- (S p Np).
  replace (1 - (1 - value (dist p))) with (value (dist p)) by ring. reflexivity.
Qed.
Lemma shaded_levels cmap bad near far : nearest (distances model view ps) near -> farthest (distances model view ps) far -> near < far ->
  exists out, shaded_vis argsort V 2 cmap bad None None edge width size v model view proj = Ok out /\
    shown_shaded v model view proj ps (fun d => cmap (level near far d)) edge width size out.
Proof.
  intros NN FF L. pose proof (distance_positive near (proj1 NN)) as P.
  apply (shown_by cmap bad None None (value far) (value near)); [|exact (lowest_value far FF)|exact (highest_value near NN)|apply value_le; lra].
  intros p I. f_equal. unfold scaled. pose proof k_positive as K. pose proof (inv_lt near far P L) as IL. 
  assert (D : value near - value far = 2 * n * f / (f - n) * (/ near - / far)) by (unfold value; ring).
  destruct (Req_EM_T (value far) (value near)) as [Q|Q]; [nra|]. rewrite D. unfold level.
  replace (value (dist p) - value far) with (2 * n * f / (f - n) * (/ dist p - / far)) by (unfold value; ring).
  set (k := 2 * n * f / (f - n)) in *. clearbody k. set (i := / dist p - / far). set (j := / near - / far) in *. assert (0 < j) by (unfold j; lra). clearbody i j. field. split; lra.
Qed.
Lemma shaded_alike cmap bad : all_alike (distances model view ps) ->
  exists out, shaded_vis argsort V 2 cmap bad None None edge width size v model view proj = Ok out /\
    shown_shaded v model view proj ps (fun _ => cmap 0) edge width size out.
Proof.
  intros A. destruct (extremes (distances model view ps)) as (near & far & NN & FF). { unfold distances. destruct ps; [congruence|discriminate]. }
  assert (Q : near = far) by (apply A; [apply NN|apply FF]). subst far.
  apply (shown_by cmap bad None None (value near) (value near)); [|exact (lowest_value near FF)|exact (highest_value near NN)|lra].
  intros p _. unfold scaled. destruct (Req_EM_T _ _); [reflexivity|congruence].
Qed.
Lemma shaded_fixed cmap bad a b : a <> 0 -> b <> 0 -> a < b ->
  exists out, shaded_vis argsort V 2 cmap bad (Some a) (Some b) edge width size v model view proj = Ok out /\
    shown_shaded v model view proj ps (fun d => cmap ((1 - ((f + n) / (f - n) - 2 * n * f / (f - n) * / d) - a) / (b - a))) edge width size out.
Proof.
  intros A B L. apply (shown_by cmap bad (Some a) (Some b) a b); [| | |lra].
  - intros p _. unfold scaled. destruct (Req_EM_T a b); [lra|]. reflexivity.
  - unfold given. destruct (Req_EM_T a 0); [contradiction|reflexivity].
  - unfold given. destruct (Req_EM_T b 0); [contradiction|reflexivity].
Qed.
End Perspective.
Lemma level_facts near far : 0 < near < far ->
  level near far near = 1 /\ level near far far = 0 /\ (forall d, near <= d <= far -> 0 <= level near far d <= 1) /\
  (forall d e, 0 < d < e -> level near far e < level near far d).
Proof.
  intros [P L]. pose proof (inv_lt near far P L) as I. assert (J : 0 < / (/ near - / far)) by (apply Rinv_0_lt_compat; lra).
  assert (MONO : forall d e, 0 < d < e -> level near far e < level near far d).
  { intros d e [D1 D2]. unfold level, Rdiv. apply Rmult_lt_compat_r; [exact J|]. pose proof (inv_lt d e D1 D2). lra. }
  assert (LN : level near far near = 1) by (unfold level; field; lra). assert (LF : level near far far = 0) by (unfold level; field; lra).
  split; [exact LN|]. split; [exact LF|]. split; [|exact MONO]. intros d [D1 D2]. split.
  - destruct D2 as [D2|<-]; [|lra]. pose proof (MONO d far ltac:(lra)). lra.
  - destruct D1 as [D1|<-]; [|lra]. pose proof (MONO near d ltac:(lra)). lra.
Qed.

(** Without perspective. *)
Lemma flat_depth l r b t n f proj c : volume l r b t n f -> n < f -> ortho l r b t n f false = Ok proj -> w4 c = 1 ->
  depth (apply4 proj c) = Some ((- 2 * z4 c - (f + n)) / (f - n)).
Proof.
  intros V N E W. destruct (ortho_yz l r b t n f proj (V3 (x4 c) (y4 c) (z4 c)) V E) as (_ & Z & Q).
  unfold point in Z, Q. cbn [x3 y3 z3] in Z, Q. rewrite <- W in Z, Q.
  replace (V4 (x4 c) (y4 c) (z4 c) (w4 c)) with c in Z, Q by now destruct c. rewrite W in Q.
  unfold depth. rewrite Z, Q. destruct (Req_EM_T 1 0); [lra|]. f_equal. field. lra.
Qed.
Lemma shaded_flat argsort v V model view proj ps cmap bad near far edge width size l r b t n f : sorts_numbers argsort ->
  usable v -> holds V ps -> affine model -> affine view -> volume l r b t n f -> n < f -> ortho l r b t n f false = Ok proj ->
  nearest (distances model view ps) near -> farthest (distances model view ps) far -> near < far ->
  let m := length ps in fits m edge -> clear m edge -> fits m width -> clear m width -> fits_size m size ->
  exists out, shaded_vis argsort V 2 cmap bad None None edge width size v model view proj = Ok out /\
    shown_shaded v model view proj ps (fun d => cmap (flat_level near far d)) edge width size out.
Proof.
  intros SORT U Ho AM AV VV N E [I1 B1] [I2 B2] L m F2 C2 F3 C3 F4.
  set (dist := fun p => - z4 (eye model view p)). set (dep := fun p => (2 * dist p - (f + n)) / (f - n)).
  assert (D : forall p, In p ps -> depth (clip model view proj p) = Some (dep p)).
  { intros p _. unfold clip. rewrite (flat_depth _ _ _ _ _ _ _ _ VV N E) by now apply affine_eye. f_equal. unfold dep, dist. field. lra. }
  set (value := fun d => 1 - (2 * d - (f + n)) / (f - n)).
  assert (VL : map (fun p => 1 - dep p) ps = map value (distances model view ps)) by (unfold distances; rewrite map_map; reflexivity).
  assert (MONO : forall d e, d <= e -> value e <= value d).
  { intros d e Q. unfold value. apply Rplus_le_compat_l, Ropp_le_contravar. apply Rmult_le_compat_r; [apply Rlt_le, Rinv_0_lt_compat; lra|lra]. }
  assert (LO : lowest (map (fun p => 1 - dep p) ps) = Ok (value far)).
  { rewrite VL. apply lowest_is; [now apply in_map|]. intros x J. apply in_map_iff in J. destruct J as (d & <- & J). apply MONO. auto. }
  assert (HI : highest (map (fun p => 1 - dep p) ps) = Ok (value near)).
  { rewrite VL. apply highest_is; [now apply in_map|]. intros x J. apply in_map_iff in J. destruct J as (d & <- & J). apply MONO. auto. }
  assert (NE : ps <> []) by (intros ->; destruct I1).
  destruct (shaded_between argsort SORT v V model view proj ps dep cmap bad None None (value far) (value near) edge width size U Ho NE D LO HI (MONO near far (Rlt_le _ _ L)) F2 C2 F3 C3 F4) as (order & out & A & B & C & G).
  exists out. split; [exact A|]. exists order. split; [exact B|]. split; [exact (ortho_covers _ _ _ _ _ AM AV C _ _ _ _ _ _ VV N E)|].
  rewrite G. apply map_ext. intros j. destruct (nth_error ps j) as [p|]; [|reflexivity]. cbn [option_map]. do 5 f_equal.
  assert (VN : value near - value far = 2 * (far - near) / (f - n)) by (unfold value; field; lra).
  unfold scaled. assert (0 < 2 * (far - near) / (f - n)) by (apply Rdiv_lt_0_compat; lra). destruct (Req_EM_T (value far) (value near)) as [Q|Q]; [lra|].
  rewrite VN. unfold flat_level. fold (dist p). change (1 - dep p) with (value (dist p)).
  replace (value (dist p) - value far) with (2 * (far - dist p) / (f - n)) by (unfold value; field; lra). field. lra.
Qed.

(** No points, or zero as a limit. *)
Lemma shaded_none argsort v V k cmap bad vmin vmax edge width size model view proj : holds V [] ->
  shaded_vis argsort V k cmap bad vmin vmax edge width size v model view proj = Err ValueError.
Proof.
  intros Ho. destruct (placed_points_rows V (transform_of model view proj) [] Ho) as (A & P & Rr). unfold shaded_vis. rewrite P. cbn [bind]. unfold rows_of. rewrite Rr. reflexivity.
Qed.
Lemma zero_limit cmap bad l x : shades cmap bad (Some 0) x l = shades cmap bad None x l /\ shades cmap bad x (Some 0) l = shades cmap bad x None l.
Proof. unfold shades, given. destruct (Req_EM_T 0 0); [auto|contradiction]. Qed.
Lemma shaded_zero argsort v V k cmap bad x edge width size model view proj :
  shaded_vis argsort V k cmap bad (Some 0) x edge width size v model view proj = shaded_vis argsort V k cmap bad None x edge width size v model view proj /\
  shaded_vis argsort V k cmap bad x (Some 0) edge width size v model view proj = shaded_vis argsort V k cmap bad x None edge width size v model view proj.
Proof.
  unfold shaded_vis. destruct (placed_points _ _) as [A|]; cbn [bind]; [|auto]. destruct (rows_of A) as [l|]; cbn [bind]; [|auto].
  destruct (zero_limit cmap bad (map (screen k) l) x) as [E1 E2]. now rewrite E1, E2.
Qed.
Lemma lowest_highest l a b : lowest l = Ok a -> highest l = Ok b -> a <= b.
Proof.
  destruct l as [|x l]; [discriminate|]. cbn. intros A B. injection A as <-. injection B as <-. destruct (fold_min l x) as [[A _] _], (fold_max l x) as [[B _] _]. lra.
Qed.
Lemma shaded_never_fails {D} (sound : D -> Prop) argsort V ps k cmap bad edge width size : holds V ps -> ps <> [] -> fits_size (length ps) size -> never_fail sound [fun _ : D => shaded_vis argsort V k cmap bad None None edge width size].
Proof.
  intros Ho NE FS. constructor; [|constructor]. intros d vp m w p _ _.
  assert (S : exists cs, shades cmap bad None None (map (screen k) (map (fun x => projected (clip m w p x)) ps)) = Ok cs).
  { destruct ps as [|x ps]; [congruence|]. cbn [map]. unfold shades. generalize (map (screen k) (map (fun x => projected (clip m w p x)) ps)). intros l. generalize (screen k (projected (clip m w p x))). intros y.
    destruct (finite (y :: l)) as [rl|] eqn:Q; [|eauto]. unfold given.
    destruct rl as [|r rl]; [cbn in Q; destruct y; [destruct (finite l); discriminate|discriminate]|].
    destruct (lowest (r :: rl)) as [a|] eqn:LA; [|discriminate]. destruct (highest (r :: rl)) as [b|] eqn:LB; [|discriminate]. cbn [bind].
    destruct (Rle_dec a b) as [|NL]; [eauto|]. exfalso. apply NL. exact (lowest_highest _ _ _ LA LB). }
  destruct S as (cs & S). rewrite (shaded_points argsort vp V ps m w p k cmap bad None None edge width size cs Ho S).
  exact (points_never_fail argsort V ps _ _ _ _ Ho FS vp m w p).
Qed.

Section Running.
Context {D : Type}.
Variables (visuals : list (D -> vis)) (on_render : Qc -> mat -> mat -> mat -> D -> res D) (port : nat) (figure : nat -> nat).
Notation lives := (lives visuals on_render port figure). Notation launched := (launched visuals on_render port figure).
Lemma ball_in_front theta phi zdist sc (c : @Camera.camera nat mat trackball) h ps : ball_camera theta phi zdist sc = Ok c -> Forall (fun p => Rabs sc * norm p < zdist) ps ->
  let now := camera_steps figure c h in in_front (c_model now) (c_view now) ps.
Proof.
  intros B Q now. destruct (ball_history figure theta phi zdist sc c h B) as (dl & _ & CM). fold now in CM.
  destruct (camera_suits theta phi (drags dl) zdist sc) as (m' & w' & p' & CM' & _ & _ & _ & EY). rewrite CM in CM'. injection CM' as <- <- <-.
  unfold in_front. apply Forall_forall. intros p I. rewrite Forall_forall in Q. specialize (Q p I). destruct (EY p) as (r & DR & ->). cbn [z4].
  assert (N : Rabs (z3 r) <= norm p).
  { unfold norm. rewrite <- DR. rewrite <- sqrt_Rsqr_abs. apply sqrt_le_1_alt. unfold Rsqr, dot. nra. }
  assert (S : sc * z3 r <= Rabs sc * norm p).
  { apply Rle_trans with (Rabs (sc * z3 r)); [apply Rle_abs|]. rewrite Rabs_mult. apply Rmult_le_compat_l; [apply Rabs_pos|exact N]. }
  lra.
Qed.
Lemma shaded_end argsort theta phi zdist sc c f x y w h v z d0 s0 hist s k g V ps cmap bad edge width size near far :
  sorts_numbers argsort -> ball_camera theta phi zdist sc = Ok c -> new_viewport f x y w h = Ok v ->
  nth_error visuals k = Some g -> g (l_data s) = shaded_vis argsort V 2 cmap bad None None edge width size -> holds V ps ->
  Forall (fun p => Rabs sc * norm p < zdist) ps ->
  let n := length ps in fits n edge -> clear n edge -> fits n width -> clear n width -> fits_size n size ->
  launched c v z d0 = Ok s0 -> lives s0 hist = Ok s -> settled port figure hist ->
  let now := camera_steps figure c (start_of port ++ mouse_of hist) in
  nearest (distances (c_model now) (c_view now) ps) near -> farthest (distances (c_model now) (c_view now) ps) far -> near < far ->
  exists l items, l_screen s = Some (s_view (l_view s), l) /\ nth_error l k = Some items /\
    shown_shaded (s_view (l_view s)) (c_model now) (c_view now) (c_proj now) ps (fun d => cmap (level near far d)) edge width size items.
Proof.
  intros SO B N K GK Ho Q n F2 C2 F3 C3 F4 L E S now NN FF LT. pose proof (ball_made _ _ _ _ _ B) as M. destruct (each visuals on_render port figure _ _ _ _ _ _ _ _ _ M L E S K) as (l & items & SC & NE & I). fold now in I. rewrite GK in I.
  destruct (parts visuals on_render port figure _ _ _ _ _ _ _ M L E) as (_ & R). pose proof (always_usable _ _ _ _ _ _ _ _ _ N R) as U.
  destruct (ball_history figure theta phi zdist sc c (start_of port ++ mouse_of hist) B) as (dl & _ & CM). fold now in CM.
  destruct (camera_suits theta phi (drags dl) zdist sc) as (m' & w' & p' & CM' & A1 & A2 & P & _). rewrite CM in CM'. injection CM' as <- <- <-.
  pose proof (ball_in_front theta phi zdist sc c (start_of port ++ mouse_of hist) ps B Q) as FR. cbv zeta in FR. fold now in FR.
  assert (PN : ps <> []) by (intros ->; destruct NN as [[] _]).
  destruct (shaded_levels argsort SO (s_view (l_view s)) V _ _ _ ps edge width size 35 1 1 100 U Ho PN A1 A2 ltac:(lra) ltac:(lra) ltac:(lra) P FR F2 C2 F3 C3 F4 cmap bad near far NN FF LT) as (out & PO & SH).
  rewrite I in PO. injection PO as <-. exists l, items. auto.
Qed.
End Running.

(** The origin and a point on each axis are never all as far, however the camera was turned. *)
Definition axes : list vec3 := [V3 0 0 0; V3 1 0 0; V3 0 1 0; V3 0 0 1].
Lemma axes_case figure theta phi (c : @Camera.camera nat mat trackball) h : ball_camera theta phi 5 1 = Ok c ->
  let now := camera_steps figure c h in
  Forall (fun p => Rabs 1 * norm p < 5) axes /\
  exists near far, nearest (distances (c_model now) (c_view now) axes) near /\ farthest (distances (c_model now) (c_view now) axes) far /\ near < far.
Proof.
  intros B now. split.
  - rewrite Rabs_R1, Forall_forall. intros p I. enough (K : norm p < 2) by lra. unfold norm. rewrite <- (sqrt_Rsqr 2) by lra. apply sqrt_lt_1_alt. unfold Rsqr.
    destruct I as [<-|[<-|[<-|[<-|[]]]]]; unfold dot; cbn [x3 y3 z3]; lra.
  - destruct (extremes (distances (c_model now) (c_view now) axes)) as (near & far & NN & FF); [discriminate|]. exists near, far. split; [exact NN|]. split; [exact FF|].
    destruct (Rlt_le_dec near far) as [|LE]; [assumption|exfalso].
    destruct (ball_history figure theta phi 5 1 c h B) as (dl & _ & CM). fold now in CM.
    pose proof (fun p => proj1 (camera_eye _ _ _ _ _ _ _ _ CM p)) as EY. cbv zeta in EY. destruct (camera_reach _ _ _ _ _ _ _ _ CM (V3 0 0 1)) as (p & BP & _).
    assert (AL : forall d e, In d (distances (c_model now) (c_view now) axes) -> In e (distances (c_model now) (c_view now) axes) -> d = e).
    { intros d e I J. pose proof (proj2 NN d I). pose proof (proj2 FF d I). pose proof (proj2 NN e J). pose proof (proj2 FF e J). lra. }
    unfold distances, axes in AL. cbn [map] in AL. rewrite !EY in AL. cbn [z4] in AL. unfold block in AL, BP. cbn [x3 y3 z3] in AL.
    injection BP as _ _ BZ. set (a := x4 (row2 (c_model now))) in *. set (b := y4 (row2 (c_model now))) in *. set (e := z4 (row2 (c_model now))) in *. clearbody a b e.
    pose proof (AL _ _ (or_introl eq_refl) (or_intror (or_introl eq_refl))) as H1.
    pose proof (AL _ _ (or_introl eq_refl) (or_intror (or_intror (or_introl eq_refl)))) as H2.
    pose proof (AL _ _ (or_introl eq_refl) (or_intror (or_intror (or_intror (or_introl eq_refl))))) as H3.
    assert (a = 0) by lra. assert (b = 0) by lra. assert (e = 0) by lra. subst. lra.
Qed.
(** Distances 3 and 4 with a fixed eye. *)
Definition aside : mat := Mat (V4 1 0 0 0) (V4 0 1 0 0) (V4 0 0 1 (-5)) (V4 0 0 0 1).
Lemma aside_case : affine identity /\ affine aside /\ in_front identity aside [V3 0 0 1; V3 0 0 2] /\
  nearest (distances identity aside [V3 0 0 1; V3 0 0 2]) 3 /\ farthest (distances identity aside [V3 0 0 1; V3 0 0 2]) 4 /\
  all_alike (distances identity aside [V3 0 0 1; V3 1 2 1]) /\ level 3 4 (7 / 2) = 3 / 7.
Proof.
  assert (D : forall x y z, - z4 (eye identity aside (V3 x y z)) = 5 - z) by (intros x y z; unfold eye, aside, identity; mats; ring).
  assert (L : distances identity aside [V3 0 0 1; V3 0 0 2] = [4; 3]) by (unfold distances; cbn [map]; rewrite !D; repeat (f_equal; try ring)).
  rewrite L. split; [reflexivity|]. split; [reflexivity|]. split; [repeat constructor; [specialize (D 0 0 1)|specialize (D 0 0 2)]; lra|].
  split; [split; [right; now left|intros e [<-|[<-|[]]]; lra]|]. split; [split; [now left|intros e [<-|[<-|[]]]; lra]|]. split; [|unfold level; field].
  unfold distances. cbn [map]. rewrite !D. intros d e [<-|[<-|[]]] [<-|[<-|[]]]; lra.
Qed.
Lemma across_case v : 0 < unit_x v ->
  (forall p, In p [V3 0 0 1; V3 1 0 2] -> w4 (clip identity identity identity p) <> 0) /\
  let places := map (fun p => across 0 (spot v (clip identity identity identity p))) [V3 0 0 1; V3 1 0 2] in
  exists a b, nearest places a /\ farthest places b /\ a < b.
Proof.
  intros U. assert (C : forall p, clip identity identity identity p = point p) by (intros [a b c]; unfold clip, eye, identity, point, apply4, dot4; cbn [x3 y3 z3 row0 row1 row2 row3 x4 y4 z4 w4]; apply vec4_ext; cbn [x4 y4 z4 w4]; ring).
  split; [intros p _; rewrite C; unfold point; cbn [w4]; lra|]. cbv zeta. cbn [map]. rewrite !C. unfold spot, point. cbn [w4 x4 y4 x3 y3 z3]. destruct (Req_EM_T 1 0); [lra|]. unfold across. cbn [Nat.eqb].
  exists (fst (middle v) + unit_x v * (0 / 1)), (fst (middle v) + unit_x v * (1 / 1)). split; [|split; [|lra]].
  - split; [now left|]. intros e [<-|[<-|[]]]; lra.
  - split; [right; now left|]. intros e [<-|[<-|[]]]; lra.
Qed.
