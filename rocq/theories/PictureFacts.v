(** Proofs about where vertices appear. *)
From Coq Require Import Reals Lra Psatz Permutation Qreals.
From Verif Require Import Base Slice Measure Viewport ViewportSpec ViewportFacts Glm GlmSpec GlmFacts Vec VecSpec VecFacts
  Render RenderSpec RenderFacts Trackball TrackballFacts Picture PictureSpec.
Local Open Scope R_scope.

(** ** Numbers *)
Lemma inR_mult a b : inR (a * b)%Qc = inR a * inR b.
Proof. unfold inR. rewrite <- Q2R_mult. apply Qeq_eqR. apply Qred_correct. Qed.
Lemma inR_plus a b : inR (a + b)%Qc = inR a + inR b.
Proof. unfold inR. rewrite <- Q2R_plus. apply Qeq_eqR. apply Qred_correct. Qed.
Lemma inR_opp a : inR (- a)%Qc = - inR a.
Proof. unfold inR. rewrite <- Q2R_opp. apply Qeq_eqR. apply Qred_correct. Qed.
Lemma inR_minus a b : inR (a - b)%Qc = inR a - inR b.
Proof. unfold Qcminus. rewrite inR_plus, inR_opp. ring. Qed.
Lemma inR_0 : inR 0%Qc = 0.
Proof. unfold inR. cbn. unfold Q2R. cbn. lra. Qed.
Lemma inR_lt a b : (a < b)%Qc -> inR a < inR b.
Proof. intros H. apply Qlt_Rlt. exact H. Qed.
Lemma inR_le a b : (a <= b)%Qc -> inR a <= inR b.
Proof. intros H. apply Qle_Rle. exact H. Qed.
Lemma inR_inj a b : inR a = inR b -> a = b.
Proof. intros H. apply Qc_is_canon. apply eqR_Qeq. exact H. Qed.
Lemma inR_nz a : a <> Q2Qc 0 -> inR a <> 0.
Proof. intros N E. apply N, inR_inj. rewrite E. now rewrite inR_0. Qed.
Lemma inR_zq n : inR (zq n) = IZR n.
Proof.
  unfold inR, zq, q. transitivity (Q2R (inject_Z n)); [|unfold Q2R; cbn; field].
  apply Qeq_eqR. apply Qred_correct.
Qed.

(** ** Axes *)
Lemma along_middle s w l x : fst l = (- snd l)%Qc -> (snd l - fst l)%Qc <> Q2Qc 0 ->
  along s w l x = s + w / 2 + w / inR (snd l - fst l) * x.
Proof.
  intros C N. unfold along. apply inR_nz in N. rewrite inR_minus in *. rewrite C, inR_opp in *.
  set (a := inR (snd l)) in *. clearbody a. field. lra.
Qed.
Lemma on_canvas_spot v x y : usable v ->
  on_canvas v (Num x) (Num y) = Some (fst (middle v) + unit_x v * x, snd (middle v) + unit_y v * y).
Proof.
  intros ((C1 & C2) & N1 & N2). unfold on_canvas, middle, unit_x, unit_y, side_x, side_y, left, bottom, wide, high, canvas_w, canvas_h, span_x, span_y in *.
  destruct (p_pos v) as [[[l b] w] h]. destruct (Viewport.size (p_fig v)) as [cw ch]. cbn [fst snd].
  rewrite !along_middle by assumption. reflexivity.
Qed.
Lemma on_canvas_none v x y : x = NonFinite \/ y = NonFinite -> on_canvas v x y = None.
Proof.
  intros H. unfold on_canvas. destruct (p_pos v) as [[[l b] w] h]. destruct (Viewport.size (p_fig v)) as [cw ch].
  destruct H as [-> | ->]; [reflexivity|]. now destruct x.
Qed.

(** ** Rows *)
Definition projected (c : vec4) : list num :=
  map (fun x => quot x (Num (w4 c))) [Num (x4 c); Num (y4 c); Num (z4 c)].
Lemma placed_rows k l m ps : Forall2 triple l ps -> suits k l ->
  exists A, placed (table k 3 l) m = Ok A /\ a_data A = Vec.Rows 3 (map (fun p => projected (apply4 m (point p))) ps).
Proof.
  intros T S.
  assert (R : rectangular 3 l).
  { unfold rectangular. clear S. induction T as [|r p l ps H T IH]; constructor; auto. now rewrite H. }
  unfold placed. rewrite to_vec4_table by auto. cbn [bind]. rewrite (keep_rows k) by (apply suits_f4; auto).
  rewrite matmul_table by (apply rect_f4; auto). cbn [bind].
  assert (G : forall l ps, Forall2 triple l ps -> map (image m) (map (f4 3) l) =
              map (fun p => let q := apply4 m (point p) in [x4 q; y4 q; z4 q; w4 q]) ps).
  { clear. intros l ps T. induction T as [|r p l ps H T IH]; cbn [map]; [reflexivity|]. rewrite IH. f_equal.
    rewrite H. destruct p as [a b c]. reflexivity. }
  rewrite (G l ps T). clear G. unfold to_vec3, table. cbn [a_data Nat.eqb chosen a_kind].
  eexists. split; [reflexivity|]. cbn [a_data]. f_equal. unfold stored. rewrite !map_map. apply map_ext. intros p.
  unfold projected, col. cbn [map firstn nth]. reflexivity.
Qed.
Lemma placed_points_rows V m ps : holds V ps ->
  exists A, placed_points V m = Ok A /\ a_data A = Vec.Rows 3 (map (fun p => projected (apply4 m (point p))) ps).
Proof.
  destruct V as [k d]. intros (l & El & T & S). cbn [a_data a_kind] in *.
  assert (R : Forall (fun r => length r = 3%nat) l).
  { clear - T. induction T as [|r p l ps H T IH]; constructor; auto. now rewrite H. }
  assert (L : (length (concat l) = length l * 3)%nat).
  { clear - R. induction R as [|r l H R IH]; [reflexivity|]. cbn [concat length]. rewrite app_length, IH, H. lia. }
  destruct (as_vec_ok 3 k None d (length l) (concat l)) as (l' & q & E1 & E2 & E3 & E4 & E5); [lia|assumption|assumption|].
  subst q. unfold placed_points. rewrite E1. cbn [bind]. rewrite (triples_concat l l' R E3 E4).
  exact (placed_rows k l m ps T S).
Qed.
Lemma projected_spot v c : usable v -> on_canvas v (col (projected c) 0) (col (projected c) 1) = spot v c.
Proof.
  intros U. unfold projected, spot, col, quot. cbn [map nth]. destruct (Req_EM_T (w4 c) 0); [now apply on_canvas_none; left|].
  now apply on_canvas_spot.
Qed.
Lemma projected_depth c z : w4 c <> 0 -> z4 c / w4 c = z -> col (projected c) 2 = Num z.
Proof. intros N <-. unfold projected, col, quot. cbn [map nth]. now destruct (Req_EM_T (w4 c) 0). Qed.
Lemma transform_clip model view proj p : apply4 (transform_of model view proj) (point p) = clip model view proj p.
Proof. unfold transform_of, clip, eye. now rewrite !matmul_apply. Qed.

Lemma depth_some c z : depth c = Some z -> w4 c <> 0 /\ z4 c / w4 c = z.
Proof. unfold depth. destruct (Req_EM_T (w4 c) 0); [discriminate|]. intros E. injection E as <-. auto. Qed.

Section Order.
Variable argsort : list num -> list nat.
Hypothesis SORT : sorts_numbers argsort.

Lemma points_where v V model view proj ps face edge width size : usable v -> holds V ps ->
  let n := length ps in
  fits n face -> clear n face -> fits n edge -> clear n edge -> fits n width -> clear n width -> fits_size n size ->
  exists order out, points argsort v V model view proj face edge width size = Ok out /\ visits n order /\
    covers (depth_in (fun p => depth (clip model view proj p)) ps) order /\
    map Some out = map (fun j => option_map (fun p => (spot v (clip model view proj p), [own face j; own edge j; own width j; own size j]))
                                            (nth_error ps j)) order.
Proof.
  intros U Hh n F1 C1 F2 C2 F3 C3 F4. unfold points.
  destruct (placed_points_rows V (transform_of model view proj) ps Hh) as (A & E & D). rewrite E. cbn [bind].
  unfold rows_of. rewrite D. cbn [bind]. rewrite map_length. fold n. rewrite !map_map.
  set (key := map _ ps). assert (L : length key = n) by (unfold key; now rewrite map_length).
  assert (Vi : visits n (argsort key)) by (unfold visits; rewrite <- L; apply (proj1 (SORT key))).
  set (idx := argsort key) in *.
  destruct (shown_size n idx size Vi F4) as (b & Eb & Hb). rewrite Eb. cbn [bind].
  exists idx. eexists. split; [reflexivity|]. split; [exact Vi|]. split.
  - intros i j a c x y Hij Hi Hj Hx Hy. unfold depth_in in Hx, Hy.
    destruct (nth_error ps a) as [pa|] eqn:Ea; [|discriminate]. destruct (nth_error ps c) as [pc|] eqn:Ec; [|discriminate].
    apply depth_some in Hx, Hy. destruct Hx as [Wx Zx], Hy as [Wy Zy].
    assert (K : 1 - x <= 1 - y).
    { apply (proj2 (SORT key) i j a c _ _ Hij Hi Hj); unfold key; rewrite nth_error_map, ?Ea, ?Ec; cbn [option_map];
      rewrite transform_clip; [now rewrite (projected_depth _ x)|now rewrite (projected_depth _ y)]. }
    lra.
  - rewrite drawn with (as_ := [face; edge; width; size]).
    + apply map_ext. intros j. rewrite nth_error_map. destruct (nth_error ps j); [|reflexivity]. cbn [option_map map].
      now rewrite projected_spot, transform_clip.
    + now rewrite map_length.
    + intros i j Hi. cbn [map]. rewrite !(shown_attach n idx) with (j := j) by assumption. now rewrite (Hb i j Hi).
Qed.
Lemma pixels_where v V model view proj ps color : usable v -> lists V ps ->
  let n := length ps in fits n color -> clear n color ->
  exists order out, pixels argsort v V model view proj color = Ok out /\ visits n order /\
    covers (depth_in (fun p => option_map Ropp (depth (clip model view proj p))) ps) order /\
    map Some out = map (fun j => option_map (fun p => (spot v (clip model view proj p), [own color j])) (nth_error ps j)) order.
Proof.
  intros U (k & l & -> & T & S) n F1 C1. unfold pixels.
  destruct (placed_rows k l (transform_of model view proj) ps T S) as (A & E & D). rewrite E. cbn [bind].
  unfold rows_of. rewrite D. cbn [bind]. rewrite map_length. fold n. rewrite !map_map.
  set (key := map (fun p => col (projected (apply4 (transform_of model view proj) (point p))) 2) ps). assert (L : length key = n) by (unfold key; now rewrite map_length).
  assert (Vi : visits n (argsort key)) by (unfold visits; rewrite <- L; apply (proj1 (SORT key))).
  set (idx := argsort key) in *.
  exists idx. eexists. split; [reflexivity|]. split; [exact Vi|]. split.
  - intros i j a c x y Hij Hi Hj Hx Hy. unfold depth_in in Hx, Hy.
    destruct (nth_error ps a) as [pa|] eqn:Ea; [|discriminate]. destruct (nth_error ps c) as [pc|] eqn:Ec; [|discriminate].
    destruct (depth (clip model view proj pa)) as [x'|] eqn:Dx; [|discriminate]. destruct (depth (clip model view proj pc)) as [y'|] eqn:Dy; [|discriminate].
    injection Hx as <-. injection Hy as <-. apply depth_some in Dx, Dy. destruct Dx as [Wx Zx], Dy as [Wy Zy].
    assert (K : x' <= y').
    { apply (proj2 (SORT key) i j a c _ _ Hij Hi Hj); unfold key; rewrite nth_error_map, ?Ea, ?Ec; cbn [option_map];
      rewrite transform_clip; [now rewrite (projected_depth _ x')|now rewrite (projected_depth _ y')]. }
    lra.
  - rewrite drawn with (as_ := [color]).
    + apply map_ext. intros j. rewrite nth_error_map. destruct (nth_error ps j); [|reflexivity]. cbn [option_map map].
      now rewrite projected_spot, transform_clip.
    + now rewrite map_length.
    + intros i j Hi. cbn [map]. now rewrite !(shown_attach n idx) with (j := j) by assumption.
Qed.
End Order.

(** ** What projections do to depth *)
Lemma some_inj {A} (x y : A) : Some x = Some y -> x = y.
Proof. now intros [=]. Qed.
Lemma affine_eye model view p : affine model -> affine view -> w4 (eye model view p) = 1.
Proof.
  unfold affine, eye. intros A B. unfold apply4 at 1. cbn [w4]. rewrite B. unfold dot4. cbn [x4 y4 z4 w4].
  rewrite affine_w by exact A. ring.
Qed.
Lemma covers_mono (z z' : nat -> option R) order :
  (forall a b x y x' y', z a = Some x -> z b = Some y -> z' a = Some x' -> z' b = Some y' -> y <= x -> y' <= x') ->
  (forall a x', z' a = Some x' -> exists x, z a = Some x) -> covers z order -> covers z' order.
Proof.
  intros M D C i j a b x' y' L Hi Hj Ha Hb. destruct (D a x' Ha) as [x Ex], (D b y' Hb) as [y Ey].
  exact (M a b x y x' y' Ex Ey Ha Hb (C i j a b x y L Hi Hj Ex Ey)).
Qed.
Lemma perspective_matrix fovy aspect n f proj : 0 < fovy < 180 -> 0 < aspect -> 0 < n < f ->
  perspective fovy aspect n f false = Ok proj ->
  let k := tan (radians fovy / 2) in 0 < k /\
  forall c, w4 c = 1 -> apply4 proj c = V4 (x4 c / (k * aspect)) (y4 c / k) ((- (f + n) * z4 c - 2 * n * f) / (f - n)) (- z4 c).
Proof.
  intros V A N E k.
  assert (T : 0 < k).
  { apply tan_gt_0; unfold radians; pose proof PI_RGT_0; nra. }
  split; [exact T|]. intros c W. rewrite perspective_ok in E. cbv zeta in E.
  replace (/ 2 * radians fovy) with (radians fovy / 2) in E by field. fold k in E. clearbody k.
  assert (KN : 0 < k * n) by nra. assert (KA : 0 < k * aspect) by nra. assert (KAN : 0 < k * n * aspect) by nra.
  rewrite frustum_ok in E by (repeat split; lra). injection E as <-. destruct c as [x y z w]. cbn [x4 y4 z4 w4] in *. subst w.
  mats. entries; field; repeat split; lra.
Qed.
Lemma perspective_depth fovy aspect n f proj c : 0 < fovy < 180 -> 0 < aspect -> 0 < n < f ->
  perspective fovy aspect n f false = Ok proj -> w4 c = 1 -> z4 c <> 0 ->
  depth (apply4 proj c) = Some ((f + n) / (f - n) + 2 * n * f / (f - n) * / z4 c).
Proof.
  intros V A N E W Z. destruct (perspective_matrix _ _ _ _ _ V A N E) as [K P]. rewrite (P c W). unfold depth. cbn [w4 z4].
  destruct (Req_EM_T (- z4 c) 0); [lra|]. f_equal. field. lra.
Qed.
Lemma ahead_some c x : ahead c = Some x -> z4 c < 0 /\ x = - z4 c.
Proof. unfold ahead. destruct (Rlt_dec (z4 c) 0); [|discriminate]. intros E. injection E as <-. auto. Qed.

Section Projections.
Variables (model view proj : mat) (ps : list vec3) (order : list nat).
Hypotheses (AM : affine model) (AV : affine view).
Hypothesis C : covers (depth_in (fun p => depth (clip model view proj p)) ps) order.

Lemma perspective_covers fovy aspect n f : 0 < fovy < 180 -> 0 < aspect -> 0 < n < f ->
  perspective fovy aspect n f false = Ok proj ->
  covers (depth_in (fun p => ahead (eye model view p)) ps) order.
Proof.
  intros V A N E. refine (covers_mono _ _ order _ _ C).
  - intros a b x y x' y'. unfold depth_in. destruct (nth_error ps a) as [p|], (nth_error ps b) as [q|]; try discriminate.
    intros Hx Hy Hx' Hy'. apply ahead_some in Hx', Hy'. destruct Hx' as [Z1 ->], Hy' as [Z2 ->]. unfold clip in *.
    rewrite (perspective_depth _ _ _ _ _ _ V A N E) in Hx by (try apply affine_eye; auto; lra).
    rewrite (perspective_depth _ _ _ _ _ _ V A N E) in Hy by (try apply affine_eye; auto; lra).
    apply some_inj in Hx, Hy. subst x y. intros L.
    set (z1 := z4 (eye model view p)) in *. set (z2 := z4 (eye model view q)) in *. clearbody z1 z2.
    assert (K : 0 < 2 * n * f / (f - n)) by (apply Rdiv_lt_0_compat; nra).
    set (k := 2 * n * f / (f - n)) in *. set (g := (f + n) / (f - n)) in *. clearbody k g.
    assert (B : / z2 <= / z1) by (apply (Rmult_le_reg_l _ _ _ K); lra).
    assert (J1 : / z1 * z1 = 1) by (field; lra). assert (J2 : / z2 * z2 = 1) by (field; lra).
    set (i1 := / z1) in *. set (i2 := / z2) in *. clearbody i1 i2.
    assert (0 <= (i1 - i2) * (z1 * z2)) by (apply Rmult_le_pos; nra).
    replace ((i1 - i2) * (z1 * z2)) with (i1 * z1 * z2 - i2 * z2 * z1) in * by ring. rewrite J1, J2 in *. lra.
  - intros a x'. unfold depth_in. destruct (nth_error ps a) as [p|]; [|discriminate]. intros H. apply ahead_some in H.
    unfold clip. rewrite (perspective_depth _ _ _ _ _ _ V A N E) by (try apply affine_eye; auto; lra). eauto.
Qed.
(** What is behind the eye is drawn below what is in front of it. *)
Lemma behind_below fovy aspect n f : 0 < fovy < 180 -> 0 < aspect -> 0 < n < f ->
  perspective fovy aspect n f false = Ok proj ->
  forall i j a b p q, (i < j)%nat -> nth_error order i = Some a -> nth_error order j = Some b ->
    nth_error ps a = Some p -> nth_error ps b = Some q ->
    z4 (eye model view p) < 0 -> ~ 0 < z4 (eye model view q).
Proof.
  intros V A N E i j a b p q L Hi Hj Ha Hb Z1 Z2.
  assert (K : 0 < 2 * n * f / (f - n)) by (apply Rdiv_lt_0_compat; nra).
  pose proof (fun x y => C i j a b x y L Hi Hj) as H. unfold depth_in in H. rewrite Ha, Hb in H. unfold clip in H.
  specialize (H _ _ (perspective_depth _ _ _ _ _ _ V A N E (affine_eye _ _ p AM AV) ltac:(lra))
                    (perspective_depth _ _ _ _ _ _ V A N E (affine_eye _ _ q AM AV) ltac:(lra))).
  set (k := 2 * n * f / (f - n)) in *. set (g := (f + n) / (f - n)) in *. clearbody k g.
  pose proof (Rinv_lt_0_compat _ Z1). pose proof (Rinv_0_lt_compat _ Z2). nra.
Qed.
Lemma ortho_covers l r b t n f : volume l r b t n f -> n < f -> ortho l r b t n f false = Ok proj ->
  covers (depth_in (fun p => Some (- z4 (eye model view p))) ps) order.
Proof.
  intros V N E.
  assert (D : forall c, w4 c = 1 -> depth (apply4 proj c) = Some ((- 2 * z4 c - (f + n)) / (f - n))).
  { intros c W. destruct (ortho_yz l r b t n f proj (V3 (x4 c) (y4 c) (z4 c)) V E) as (_ & Z & Q).
    unfold point in Z, Q. cbn [x3 y3 z3] in Z, Q. rewrite <- W in Z, Q.
    replace (V4 (x4 c) (y4 c) (z4 c) (w4 c)) with c in Z, Q by now destruct c. rewrite W in Q.
    unfold depth. rewrite Z, Q. destruct (Req_EM_T 1 0); [lra|]. f_equal. field. lra. }
  refine (covers_mono _ _ order _ _ C).
  - intros a b0 x y x' y'. unfold depth_in. destruct (nth_error ps a) as [p|], (nth_error ps b0) as [q|]; try discriminate.
    unfold clip. rewrite !D by now apply affine_eye. intros H1 H2 H3 H4. apply some_inj in H1, H2, H3, H4. subst.
    intros L. apply Rmult_le_reg_r in L; [lra|]. apply Rinv_0_lt_compat. lra.
  - intros a x'. unfold depth_in. destruct (nth_error ps a) as [p|]; [|discriminate]. unfold clip. rewrite D by now apply affine_eye. eauto.
Qed.
End Projections.

Lemma mirror_spot v fovy aspect n f proj c d : 0 < fovy < 180 -> 0 < aspect -> 0 < n < f ->
  perspective fovy aspect n f false = Ok proj -> mirrored c d -> spot v (apply4 proj c) = spot v (apply4 proj d).
Proof.
  intros V A N E (X & Y & Z & W1 & W2). destruct (perspective_matrix _ _ _ _ _ V A N E) as [K P].
  rewrite (P c W1), (P d W2). unfold spot. cbn [x4 y4 w4]. rewrite X, Y, Z.
  destruct (Req_EM_T (- z4 c) 0), (Req_EM_T (- - z4 c) 0); try lra; [reflexivity|]. f_equal. f_equal; f_equal; f_equal; field; repeat split; lra || nra.
Qed.

(** ** Viewports *)
Lemma lim_span a : (snd (lim a) - fst (lim a))%Qc <> Q2Qc 0.
Proof.
  unfold lim. destruct (Qc_eq_bool a 0) eqn:E; cbn [fst snd].
  - vm_compute. intros H. discriminate.
  - assert (N : a <> Q2Qc 0) by (intros ->; vm_compute in E; discriminate). intros H. apply N.
    apply inR_inj. apply (f_equal inR) in H. rewrite inR_minus, inR_opp, inR_0 in H. rewrite inR_0. lra.
Qed.
Lemma always_usable f x y w h v z l s : new_viewport f x y w h = Ok v -> run (new_scene v z) l = Ok s -> usable (s_view s).
Proof.
  intros N R. split; [exact (always_centred f x y w h v z l s N R)|].
  destruct (run_lims _ _ _ R (new_lims _ _ _ _ _ _ N)) as (a & b & A & B).
  unfold span_x, span_y. rewrite A, B. split; apply lim_span.
Qed.
Lemma resized_units v i v' : resize v i = Ok v' -> (0 < p_zoom v)%Qc -> positive v' ->
  unit_x v' = Rmin (side_x v') (side_y v') / (2 * inR (p_zoom v)) /\
  unit_y v' = Rmin (side_x v') (side_y v') / (2 * inR (p_zoom v)).
Proof.
  intros U Z P. pose proof P as [PW PH]. pose proof (shorter_side v i v' U Z P) as [S1 S2].
  assert (Z' : (0 < p_zoom (mkV (mkFig (f_width (p_fig v)) (f_height (p_fig v)) (f_dpi (p_fig v)) i) (p_extent v) (p_pos v) (p_zoom v) (p_xlim v) (p_ylim v)))%Qc) by exact Z.
  unfold resize in U. pose proof (update_square _ _ U Z' P) as SQ.
  pose proof (inR_lt _ _ PW) as RW. pose proof (inR_lt _ _ PH) as RH. rewrite inR_0 in *. fold (side_x v') in RW. fold (side_y v') in RH.
  pose proof (inR_lt _ _ Z) as RZ. rewrite inR_0 in RZ.
  unfold square_units in SQ. apply (f_equal inR) in SQ. rewrite (inR_mult (span_x v')), (inR_mult (span_y v')) in SQ.
  fold (side_x v') (side_y v') in SQ. unfold unit_x, unit_y.
  assert (D : landscape v' \/ ~ landscape v') by (unfold landscape; destruct (Qclt_le_dec (high v' * canvas_h v') (wide v' * canvas_w v')) as [H|H]; [now left|right; now apply Qcle_not_lt]).
  destruct D as [D|D].
  - specialize (S1 D). assert (Sy : inR (span_y v') = 2 * inR (p_zoom v)) by (unfold span_y; rewrite S1; cbn [fst snd]; rewrite inR_minus, inR_opp; ring).
    rewrite Sy in *. unfold landscape in D. apply inR_lt in D. fold (side_x v') (side_y v') in D. rewrite Rmin_right by lra.
    split; [|reflexivity]. assert (X : inR (span_x v') = 2 * inR (p_zoom v) * side_x v' / side_y v') by (rewrite <- SQ; field; lra).
    rewrite X. field. lra.
  - specialize (S2 D). assert (Sx : inR (span_x v') = 2 * inR (p_zoom v)) by (unfold span_x; rewrite S2; cbn [fst snd]; rewrite inR_minus, inR_opp; ring).
    rewrite Sx in *. unfold landscape in D. apply Qcnot_lt_le, inR_le in D. fold (side_x v') (side_y v') in D. rewrite Rmin_left by lra.
    split; [reflexivity|]. assert (Y : inR (span_y v') = 2 * inR (p_zoom v) * side_y v' / side_x v') by (rewrite SQ; field; lra).
    rewrite Y. field. lra.
Qed.

(** ** The camera *)
Lemma Rabs_def2' x a : Rabs x <= a -> - a <= x <= a.
Proof. unfold Rabs. destruct (Rcase_abs x); lra. Qed.
Lemma rotmatrix_conj q : transpose (q_rotmatrix q) = q_rotmatrix (V4 (- x4 q) (- y4 q) (- z4 q) (w4 q)).
Proof. destruct q as [a b c d]. unfold q_rotmatrix. cbn [x4 y4 z4 w4]. mats. entries; ring. Qed.
Lemma acts_conj theta phi l : let M := t_model (acts (new_trackball theta phi) l) in rotation M /\ rotation (transpose M).
Proof.
  cbv zeta. destruct (acts_ok l _ (new_ok theta phi)) as [H E]. rewrite E. split; [now apply rotmatrix_rotation|].
  rewrite rotmatrix_conj. apply rotmatrix_rotation. unfold q_dot in *. cbn [x4 y4 z4 w4]. rewrite <- H. ring.
Qed.
Definition block (m : mat) (p : vec3) : vec3 :=
  V3 (x4 (row0 m) * x3 p + y4 (row0 m) * y3 p + z4 (row0 m) * z3 p)
     (x4 (row1 m) * x3 p + y4 (row1 m) * y3 p + z4 (row1 m) * z3 p)
     (x4 (row2 m) * x3 p + y4 (row2 m) * y3 p + z4 (row2 m) * z3 p).
Lemma block_sends m p : only_block m -> apply4 m (point p) = point (block m p).
Proof. intros (A & B & C & D). unfold apply4, point, block, dot4. rewrite A, B, C, D. cbn [x3 y3 z3 x4 y4 z4 w4]. f_equal; ring. Qed.
Lemma block_norm m p : rotation m -> dot (block (transpose m) p) (block (transpose m) p) = dot p p.
Proof.
  destruct m as [[a0 a1 a2 a3] [b0 b1 b2 b3] [c0 c1 c2 c3] r3]. destruct p as [x y z].
  unfold rotation, only_block, dot4, dot, block, transpose. cbn [x3 y3 z3 x4 y4 z4 w4 row0 row1 row2 row3].
  intros ((E1 & E2 & E3 & _) & A & B & C & AB & AC & BC & _). subst a3 b3 c3.
  transitivity (x * x * (a0 * a0 + a1 * a1 + a2 * a2 + 0 * 0) + y * y * (b0 * b0 + b1 * b1 + b2 * b2 + 0 * 0) + z * z * (c0 * c0 + c1 * c1 + c2 * c2 + 0 * 0)
    + 2 * x * y * (a0 * b0 + a1 * b1 + a2 * b2 + 0 * 0) + 2 * x * z * (a0 * c0 + a1 * c1 + a2 * c2 + 0 * 0) + 2 * y * z * (b0 * c0 + b1 * c1 + b2 * c2 + 0 * 0)); [ring|].
  rewrite A, B, C, AB, AC, BC. ring.
Qed.
Lemma block_back m r : rotation (transpose m) -> block (transpose m) (block m r) = r.
Proof.
  destruct m as [[a0 a1 a2 a3] [b0 b1 b2 b3] [c0 c1 c2 c3] [d0 d1 d2 d3]]. destruct r as [x y z].
  unfold rotation, only_block, dot4, block, transpose. cbn [x3 y3 z3 x4 y4 z4 w4 row0 row1 row2 row3].
  intros ((E1 & E2 & E3 & _) & A & B & C & AB & AC & BC & _). subst d0 d1 d2. f_equal.
  - transitivity (x * (a0 * a0 + b0 * b0 + c0 * c0 + 0 * 0) + y * (a0 * a1 + b0 * b1 + c0 * c1 + 0 * 0) + z * (a0 * a2 + b0 * b2 + c0 * c2 + 0 * 0)); [ring|].
    rewrite A, AB, AC. ring.
  - transitivity (x * (a0 * a1 + b0 * b1 + c0 * c1 + 0 * 0) + y * (a1 * a1 + b1 * b1 + c1 * c1 + 0 * 0) + z * (a1 * a2 + b1 * b2 + c1 * c2 + 0 * 0)); [ring|].
    rewrite B, AB, BC. ring.
  - transitivity (x * (a0 * a2 + b0 * b2 + c0 * c2 + 0 * 0) + y * (a1 * a2 + b1 * b2 + c1 * c2 + 0 * 0) + z * (a2 * a2 + b2 * b2 + c2 * c2 + 0 * 0)); [ring|].
    rewrite C, AC, BC. ring.
Qed.
Section Camera.
Variables (theta phi : R) (h : list action) (zdist s : R) (model view proj : mat).
Let b := acts (new_trackball theta phi) h.
Hypothesis E : camera_mats b zdist s = Ok (model, view, proj).

Lemma camera_parts : perspective 35 1 1 100 false = Ok proj /\ model = transpose (t_model b) /\
  view = matmul (translate (V3 0 0 (- zdist)) false) (scale (V3 s s s) false).
Proof.
  unfold camera_mats in E. destruct (perspective 35 1 1 100 false) as [m|]; cbn [bind] in E; [|discriminate].
  injection E as <- <- <-. auto.
Qed.
Lemma camera_eye p : let r := block model p in
  eye model view p = V4 (s * x3 r) (s * y3 r) (s * z3 r - zdist) 1 /\ dot r r = dot p p.
Proof.
  cbv zeta. destruct camera_parts as (_ & -> & ->). destruct (acts_conj theta phi h) as [R1 R2]. fold b in R1, R2. split; [|now apply block_norm].
  unfold eye. rewrite block_sends by apply R2. rewrite matmul_apply. unfold scale, translate. mats. entries; ring.
Qed.
Lemma camera_reach r : exists p, block model p = r /\ dot p p = dot r r.
Proof.
  destruct camera_parts as (_ & -> & _). destruct (acts_conj theta phi h) as [R1 R2]. fold b in R1, R2.
  exists (block (t_model b) r). pose proof (block_back (t_model b) r R2) as K. split; [exact K|].
  rewrite <- (block_norm (t_model b)) by exact R1. now rewrite K.
Qed.
Lemma camera_affine : affine model /\ affine view.
Proof.
  destruct camera_parts as (_ & -> & ->). destruct (acts_conj theta phi h) as [R1 R2]. fold b in R1, R2.
  split; [apply R2|]. unfold affine, scale, translate. mats. entries; ring.
Qed.

Lemma alpha_small : 0 < half_angle < PI / 4.
Proof. unfold half_angle, radians. pose proof PI_RGT_0. lra. Qed.
Lemma alpha_signs : 0 < sin half_angle /\ 0 < cos half_angle /\ sin half_angle * sin half_angle + cos half_angle * cos half_angle = 1 /\
  sin half_angle * sin half_angle < cos half_angle * cos half_angle.
Proof.
  pose proof alpha_small as [A B]. pose proof PI_RGT_0.
  split; [apply sin_gt_0; lra|]. split; [apply cos_gt_0; lra|]. split; [apply sin2_cos2|].
  assert (K : 0 < cos (2 * half_angle)) by (apply cos_gt_0; lra). rewrite cos_2a in K. lra.
Qed.
Lemma camera_spot v p : let r := block model p in let z := zdist - s * z3 r in
  spot v (clip model view proj p) =
  if Req_EM_T z 0 then None
  else Some (fst (middle v) + unit_x v * (s * x3 r * cos half_angle / (sin half_angle * z)), snd (middle v) + unit_y v * (s * y3 r * cos half_angle / (sin half_angle * z))).
Proof.
  cbv zeta. destruct (camera_eye p) as [Ey _]. cbv zeta in Ey. destruct camera_parts as (P & _ & _).
  destruct (perspective_matrix 35 1 1 100 proj ltac:(lra) ltac:(lra) ltac:(lra) P) as [K M]. unfold clip. rewrite M by now rewrite Ey.
  rewrite Ey. cbn [x4 y4 z4 w4]. unfold spot. cbn [x4 y4 z4 w4]. fold half_angle in *. pose proof alpha_signs as (S & C & _ & _).
  replace (- (s * z3 (block model p) - zdist)) with (zdist - s * z3 (block model p)) by ring.
  destruct (Req_EM_T _ 0); [reflexivity|]. unfold tan in *. f_equal. f_equal; f_equal; f_equal; field; repeat split; lra.
Qed.
Lemma abs_div x a c : 0 < a -> Rabs x <= c * a -> Rabs (x / a) <= c.
Proof.
  intros A H. unfold Rdiv. rewrite Rabs_mult, (Rabs_pos_eq (/ a)) by (left; now apply Rinv_0_lt_compat).
  apply (Rmult_le_reg_r a); [exact A|]. rewrite Rmult_assoc, Rinv_l by lra. lra.
Qed.
(** A ball in the cone of a plane. *)
Lemma in_cone x z d rho : 0 < d -> 0 <= rho -> rho <= d * sin half_angle -> x * x + z * z <= rho * rho ->
  0 < d - z /\ Rabs (x * cos half_angle) <= sin half_angle * (d - z).
Proof.
  intros D P Q H. pose proof alpha_signs as (S & C & U & _). set (sn := sin half_angle) in *. set (cs := cos half_angle) in *. clearbody sn cs.
  assert (G : forall y, y * y = x * x -> y * cs + z * sn <= rho).
  { intros y Y. assert ((y * cs + z * sn) * (y * cs + z * sn) <= rho * rho).
    { assert (0 <= (y * sn - z * cs) * (y * sn - z * cs)) by apply Rle_0_sqr.
      assert ((y * cs + z * sn) * (y * cs + z * sn) + (y * sn - z * cs) * (y * sn - z * cs) = (y * y + z * z) * (sn * sn + cs * cs)) by ring.
      rewrite U, Y in *. lra. }
    destruct (Rle_lt_dec (y * cs + z * sn) rho); [assumption|]. nra. }
  assert (Z : z <= rho) by (destruct (Rle_lt_dec z rho); [assumption|nra]).
  assert (SL : sn < 1) by nra.
  split; [nra|]. pose proof (G x eq_refl). pose proof (G (- x) ltac:(ring)).
  unfold Rabs. destruct (Rcase_abs _); lra.
Qed.
Lemma camera_units v p : 0 < zdist -> 0 <= unit_x v -> 0 <= unit_y v ->
  Rabs s * norm p <= zdist * sin half_angle ->
  exists x y, spot v (clip model view proj p) = Some (x, y) /\
    Rabs (x - fst (middle v)) <= unit_x v /\ Rabs (y - snd (middle v)) <= unit_y v.
Proof.
  intros D UX UY H. rewrite camera_spot. cbv zeta. destruct (camera_eye p) as [_ N]. cbv zeta in N. set (r := block model p) in *.
  pose proof alpha_signs as (S & C & _ & _).
  assert (P : 0 <= Rabs s * norm p) by (apply Rmult_le_pos; [apply Rabs_pos|apply sqrt_pos]).
  assert (Q : s * s * dot p p = Rabs s * norm p * (Rabs s * norm p)).
  { unfold norm. transitivity (Rabs s * Rabs s * (sqrt (dot p p) * sqrt (dot p p))); [|ring]. rewrite sqrt_sqrt by (unfold dot; nra).
    rewrite <- Rabs_mult, Rabs_pos_eq by nra. reflexivity. }
  rewrite <- N in Q. destruct r as [x y z]. unfold dot in Q. cbn [x3 y3 z3] in *.
  destruct (in_cone (s * x) (s * z) zdist _ D P H) as [Z X]; [rewrite <- Q; pose proof (Rle_0_sqr (s * x)); pose proof (Rle_0_sqr (s * y)); unfold Rsqr in *; lra|].
  destruct (in_cone (s * y) (s * z) zdist _ D P H) as [_ Y]; [rewrite <- Q; pose proof (Rle_0_sqr (s * x)); pose proof (Rle_0_sqr (s * y)); unfold Rsqr in *; lra|].
  destruct (Req_EM_T _ 0); [lra|]. eexists _, _. split; [reflexivity|].
  assert (K : forall m u a, 0 <= u -> Rabs (a * cos half_angle) <= sin half_angle * (zdist - s * z) ->
    Rabs (m + u * (a * cos half_angle / (sin half_angle * (zdist - s * z))) - m) <= u).
  { intros m u a Hu Ha. replace (m + u * _ - m) with (u * (a * cos half_angle / (sin half_angle * (zdist - s * z)))) by ring.
    rewrite Rabs_mult, (Rabs_pos_eq u) by exact Hu. rewrite <- (Rmult_1_r u) at 2. apply Rmult_le_compat_l; [exact Hu|].
    apply abs_div; [nra|lra]. }
  split; apply K; assumption.
Qed.
Lemma camera_escapes v r : 0 < zdist -> 0 < unit_y v -> 0 <= r -> zdist * sin half_angle < Rabs s * r ->
  exists p, norm p = r /\ ~ exists x y, spot v (clip model view proj p) = Some (x, y) /\ Rabs (y - snd (middle v)) <= unit_y v.
Proof.
  intros D U Pr H. pose proof alpha_signs as (S & C & O & L).
  assert (SS : exists g, g * g = 1 /\ s * g = Rabs s).
  { unfold Rabs. destruct (Rcase_abs s); [exists (-1)|exists 1]; lra. }
  destruct SS as (g & G & SG).
  destruct (camera_reach (V3 0 (r * g * cos half_angle) (r * g * sin half_angle))) as (p & B & N). exists p. split.
  - unfold norm. rewrite N. unfold dot. cbn [x3 y3 z3].
    replace (_ + _) with (r * r * (g * g) * (sin half_angle * sin half_angle + cos half_angle * cos half_angle)) by ring. rewrite G, O, !Rmult_1_r. now apply sqrt_square.
  - intros (x & y & Es & Hy). rewrite camera_spot in Es. cbv zeta in Es. rewrite B in Es. cbn [x3 y3 z3] in Es.
    destruct (Req_EM_T _ 0) as [|Z]; [discriminate|]. apply some_inj, (f_equal snd) in Es. unfold snd at 1 3 in Es. rewrite <- Es in Hy. clear Es.
    replace (s * (r * g * sin half_angle)) with (Rabs s * r * sin half_angle) in * by (rewrite <- SG; ring).
    replace (s * (r * g * cos half_angle)) with (Rabs s * r * cos half_angle) in * by (rewrite <- SG; ring).
    set (rho := Rabs s * r) in *. clearbody rho. set (sn := sin half_angle) in *. set (cs := cos half_angle) in *. clearbody sn cs.
    replace (snd (middle v) + unit_y v * (rho * cs * cs / (sn * (zdist - rho * sn))) - snd (middle v))
      with (unit_y v * (rho * cs * cs / (sn * (zdist - rho * sn)))) in Hy by ring.
    rewrite Rabs_mult, (Rabs_pos_eq (unit_y v)) in Hy by lra.
    assert (K : Rabs (rho * cs * cs / (sn * (zdist - rho * sn))) <= 1).
    { apply (Rmult_le_reg_l (unit_y v)); lra. }
    unfold Rdiv in K. rewrite Rabs_mult in K.
    assert (W : sn * (zdist - rho * sn) <> 0) by (apply Rmult_integral_contrapositive; split; lra).
    rewrite Rabs_inv in K.
    assert (A : 0 < Rabs (sn * (zdist - rho * sn))) by now apply Rabs_pos_lt.
    assert (M : Rabs (rho * cs * cs) <= Rabs (sn * (zdist - rho * sn))).
    { apply (Rmult_le_compat_r (Rabs (sn * (zdist - rho * sn)))) in K; [|lra]. rewrite Rmult_assoc, Rinv_l, Rmult_1_r, Rmult_1_l in K by lra. exact K. }
    assert (RP : 0 < rho) by nra. rewrite Rabs_pos_eq in M by nra.
    unfold Rabs in M. destruct (Rcase_abs _); nra.
Qed.
Lemma camera_origin v : zdist <> 0 -> spot v (clip model view proj zero3) = Some (middle v).
Proof.
  intros D. rewrite camera_spot. cbv zeta. unfold block, zero3. cbn [x3 y3 z3]. rewrite !Rmult_0_r, !Rplus_0_r, !Rmult_0_r, !Rmult_0_l, Rminus_0_r.
  destruct (Req_EM_T zdist 0); [contradiction|]. unfold Rdiv. rewrite !Rmult_0_l, !Rmult_0_r, !Rplus_0_r. now destruct (middle v).
Qed.
End Camera.

(** ** The same for a whole rendering *)
Lemma closer fovy aspect n f proj c d x y : 0 < fovy < 180 -> 0 < aspect -> 0 < n < f ->
  perspective fovy aspect n f false = Ok proj -> w4 c = 1 -> w4 d = 1 -> z4 c < 0 -> z4 d < 0 ->
  depth (apply4 proj c) = Some x -> depth (apply4 proj d) = Some y -> y <= x -> z4 c <= z4 d.
Proof.
  intros V A N E W1 W2 Z1 Z2 Hx Hy.
  rewrite (perspective_depth _ _ _ _ _ _ V A N E) in Hx by (auto; lra).
  rewrite (perspective_depth _ _ _ _ _ _ V A N E) in Hy by (auto; lra).
  apply some_inj in Hx, Hy. subst x y. intros L.
  set (z1 := z4 c) in *. set (z2 := z4 d) in *. clearbody z1 z2.
  assert (K : 0 < 2 * n * f / (f - n)) by (apply Rdiv_lt_0_compat; nra).
  set (k := 2 * n * f / (f - n)) in *. set (g := (f + n) / (f - n)) in *. clearbody k g.
  assert (B : / z2 <= / z1) by (apply (Rmult_le_reg_l _ _ _ K); lra).
  assert (J1 : / z1 * z1 = 1) by (field; lra). assert (J2 : / z2 * z2 = 1) by (field; lra).
  set (i1 := / z1) in *. set (i2 := / z2) in *. clearbody i1 i2.
  assert (0 <= (i1 - i2) * (z1 * z2)) by (apply Rmult_le_pos; nra).
  replace ((i1 - i2) * (z1 * z2)) with (i1 * z1 * z2 - i2 * z2 * z1) in * by ring. rewrite J1, J2 in *. lra.
Qed.
Section Whole.
Variable argsort : list num -> list nat.
Hypothesis SORT : sorts_numbers argsort.
Lemma points_perspective v V model view proj ps face edge width size fovy aspect near far : usable v -> holds V ps ->
  affine model -> affine view -> 0 < fovy < 180 -> 0 < aspect -> 0 < near < far ->
  perspective fovy aspect near far false = Ok proj ->
  let n := length ps in
  fits n face -> clear n face -> fits n edge -> clear n edge -> fits n width -> clear n width -> fits_size n size ->
  exists order out, points argsort v V model view proj face edge width size = Ok out /\ visits n order /\
    covers (depth_in (fun p => ahead (eye model view p)) ps) order /\
    map Some out = map (fun j => option_map (fun p => (spot v (clip model view proj p), [own face j; own edge j; own width j; own size j]))
                                            (nth_error ps j)) order /\
    (forall i j a b p q, (i < j)%nat -> nth_error order i = Some a -> nth_error order j = Some b ->
      nth_error ps a = Some p -> nth_error ps b = Some q -> z4 (eye model view p) < 0 -> ~ 0 < z4 (eye model view q)).
Proof.
  intros U Hh AM AV VF VA VN E n F1 C1 F2 C2 F3 C3 F4.
  destruct (points_where argsort SORT v V model view proj ps face edge width size U Hh F1 C1 F2 C2 F3 C3 F4) as (o & out & A & B & C & D).
  exists o, out. split; [exact A|]. split; [exact B|]. split; [exact (perspective_covers _ _ _ _ _ AM AV C _ _ _ _ VF VA VN E)|].
  split; [exact D|]. exact (behind_below _ _ _ _ _ AM AV C _ _ _ _ VF VA VN E).
Qed.
Lemma points_ortho v V model view proj ps face edge width size l r b t near far : usable v -> holds V ps ->
  affine model -> affine view -> volume l r b t near far -> near < far -> ortho l r b t near far false = Ok proj ->
  let n := length ps in
  fits n face -> clear n face -> fits n edge -> clear n edge -> fits n width -> clear n width -> fits_size n size ->
  exists order out, points argsort v V model view proj face edge width size = Ok out /\ visits n order /\
    covers (depth_in (fun p => Some (- z4 (eye model view p))) ps) order /\
    map Some out = map (fun j => option_map (fun p => (spot v (clip model view proj p), [own face j; own edge j; own width j; own size j]))
                                            (nth_error ps j)) order.
Proof.
  intros U Hh AM AV VV VN E n F1 C1 F2 C2 F3 C3 F4.
  destruct (points_where argsort SORT v V model view proj ps face edge width size U Hh F1 C1 F2 C2 F3 C3 F4) as (o & out & A & B & C & D).
  exists o, out. split; [exact A|]. split; [exact B|]. split; [exact (ortho_covers _ _ _ _ _ AM AV C _ _ _ _ _ _ VV VN E)|exact D].
Qed.
Lemma pixels_perspective v V model view proj ps color fovy aspect near far : usable v -> lists V ps ->
  affine model -> affine view -> 0 < fovy < 180 -> 0 < aspect -> 0 < near < far ->
  perspective fovy aspect near far false = Ok proj ->
  let n := length ps in fits n color -> clear n color ->
  exists order out, pixels argsort v V model view proj color = Ok out /\ visits n order /\
    covers (depth_in (fun p => option_map Ropp (ahead (eye model view p))) ps) order /\
    map Some out = map (fun j => option_map (fun p => (spot v (clip model view proj p), [own color j])) (nth_error ps j)) order.
Proof.
  intros U Hh AM AV VF VA VN E n F1 C1.
  destruct (pixels_where argsort SORT v V model view proj ps color U Hh F1 C1) as (o & out & A & B & C & D).
  exists o, out. split; [exact A|]. split; [exact B|]. split; [|exact D]. refine (covers_mono _ _ o _ _ C).
  - intros a b x y x' y'. unfold depth_in. destruct (nth_error ps a) as [p|], (nth_error ps b) as [q|]; try discriminate.
    destruct (ahead (eye model view p)) eqn:P; [|discriminate]. destruct (ahead (eye model view q)) eqn:Q; [|discriminate].
    destruct (depth (clip model view proj p)) eqn:P'; [|discriminate]. destruct (depth (clip model view proj q)) eqn:Q'; [|discriminate].
    cbn [option_map]. intros H1 H2 H3 H4 L. apply some_inj in H1, H2, H3, H4. subst. apply ahead_some in P, Q.
    pose proof (closer _ _ _ _ _ _ _ _ _ VF VA VN E (affine_eye _ _ q AM AV) (affine_eye _ _ p AM AV) (proj1 Q) (proj1 P) Q' P'). lra.
  - intros a x'. unfold depth_in. destruct (nth_error ps a) as [p|]; [|discriminate].
    destruct (ahead (eye model view p)) eqn:P; [|discriminate]. intros _. apply ahead_some in P.
    unfold clip. rewrite (perspective_depth _ _ _ _ _ _ VF VA VN E) by (try apply affine_eye; auto; lra). cbn [option_map]. eauto.
Qed.
End Whole.
Lemma camera_in_viewport theta phi h zdist s model view proj v i v' p :
  camera_mats (acts (new_trackball theta phi) h) zdist s = Ok (model, view, proj) -> 0 < zdist ->
  Rabs s * norm p <= zdist * sin half_angle -> resize v i = Ok v' -> (1 <= p_zoom v)%Qc -> positive v' ->
  in_viewport v' (spot v' (clip model view proj p)).
Proof.
  intros E D H R Z P.
  assert (Z0 : (0 < p_zoom v)%Qc) by (eapply Qclt_le_trans; [|exact Z]; reflexivity).
  destruct (resized_units v i v' R Z0 P) as [UX UY]. pose proof P as [PW PH].
  apply inR_lt in PW, PH. apply inR_le in Z. rewrite inR_0 in PW, PH. fold (side_x v') in PW. fold (side_y v') in PH.
  assert (O : inR 1%Qc = 1) by (unfold inR, Q2R; cbn; lra). rewrite O in Z. set (z := inR (p_zoom v)) in *. clearbody z.
  assert (L : Rmin (side_x v') (side_y v') / (2 * z) <= side_x v' / 2 /\ Rmin (side_x v') (side_y v') / (2 * z) <= side_y v' / 2 /\
              0 <= Rmin (side_x v') (side_y v') / (2 * z)).
  { pose proof (Rmin_l (side_x v') (side_y v')). pose proof (Rmin_r (side_x v') (side_y v')).
    assert (M : 0 < Rmin (side_x v') (side_y v')) by (apply Rmin_glb_lt; assumption).
    set (m := Rmin _ _) in *. clearbody m. assert (Q : m / (2 * z) * (2 * z) = m) by (field; lra).
    assert (0 <= m / (2 * z)) by (apply Rlt_le, Rdiv_lt_0_compat; lra). set (u := m / (2 * z)) in *. clearbody u. nra. }
  destruct L as (L1 & L2 & L3).
  destruct (camera_units theta phi h zdist s model view proj E v' p D) as (x & y & Es & Hx & Hy); [rewrite UX; exact L3|rewrite UY; exact L3|exact H|].
  exists x, y. split; [exact Es|]. rewrite UX in Hx. rewrite UY in Hy. unfold middle in Hx, Hy. cbn [fst snd] in Hx, Hy.
  apply Rabs_def2' in Hx. apply Rabs_def2' in Hy. lra.
Qed.

(** ** A sort *)
Definition num_leb (a b : num) : bool :=
  match a, b with _, NonFinite => true | NonFinite, Num _ => false | Num x, Num y => if Rle_dec x y then true else false end.
Definition before (a b : num) : Prop := match a, b with _, NonFinite => True | NonFinite, Num _ => False | Num x, Num y => x <= y end.
Lemma num_leb_spec a b : if num_leb a b then before a b else before b a.
Proof. destruct a, b; cbn; auto. destruct (Rle_dec r r0); lra. Qed.
Lemma before_trans a b c : before a b -> before b c -> before a c.
Proof. destruct a, b, c; cbn; auto; try contradiction. intros. lra. Qed.
Fixpoint insert_num (k : nat -> num) (i : nat) (l : list nat) : list nat :=
  match l with [] => [i] | j :: r => if num_leb (k i) (k j) then i :: l else j :: insert_num k i r end.
Definition sort_nums (l : list num) : list nat := fold_right (insert_num (fun i => nth i l NonFinite)) [] (seq 0 (length l)).
Lemma insert_num_perm k i l : Permutation (insert_num k i l) (i :: l).
Proof.
  induction l as [|j r IH]; [reflexivity|]. cbn. destruct (num_leb (k i) (k j)); [reflexivity|]. rewrite IH. apply perm_swap.
Qed.
Fixpoint in_order (k : nat -> num) (l : list nat) : Prop :=
  match l with [] => True | i :: r => Forall (fun j => before (k i) (k j)) r /\ in_order k r end.
Lemma insert_num_order k i l : in_order k l -> in_order k (insert_num k i l).
Proof.
  induction l as [|j r IH]; intros H; [cbn; auto|]. cbn. pose proof (num_leb_spec (k i) (k j)) as E. destruct (num_leb (k i) (k j)).
  - cbn. destruct H as [H1 H2]. split; [|now split]. constructor; [exact E|].
    eapply Forall_impl; [|exact H1]. intros x Hx. now apply (before_trans _ (k j)).
  - destruct H as [H1 H2]. cbn. split; [|now apply IH].
    apply (Permutation_Forall (Permutation_sym (insert_num_perm k i r))). now constructor.
Qed.
Lemma in_order_nth k : forall l i j a b, in_order k l -> (i < j)%nat -> nth_error l i = Some a -> nth_error l j = Some b ->
  before (k a) (k b).
Proof.
  induction l as [|x l IH]; intros [|i] [|j] a b H L Ha Hb; try lia; try discriminate; destruct H as [H1 H2]; cbn in *.
  - injection Ha as <-. rewrite Forall_forall in H1. apply H1. eapply nth_error_In; eauto.
  - apply (IH i j a b H2); auto. lia.
Qed.
Lemma sort_nums_sorts : sorts_numbers sort_nums.
Proof.
  intros l. unfold sort_nums. set (k := fun i => nth i l NonFinite).
  assert (P : forall s, Permutation (fold_right (insert_num k) [] s) s).
  { induction s as [|i s IH]; cbn; [reflexivity|]. now rewrite insert_num_perm, IH. }
  assert (O : forall s, in_order k (fold_right (insert_num k) [] s)).
  { induction s as [|i s IH]; cbn; [exact Logic.I|]. now apply insert_num_order. }
  split; [apply P|]. intros i j a b x y L Hi Hj Hx Hy.
  pose proof (in_order_nth k _ i j a b (O _) L Hi Hj) as B. unfold k in B.
  rewrite (nth_error_nth _ _ _ Hx), (nth_error_nth _ _ _ Hy) in B. exact B.
Qed.

(** ** Cases *)
Lemma sin_quarter : 1 / 4 <= sin half_angle.
Proof.
  pose proof PI_RGT_0 as P.
  assert (S : sin (PI / 12) <= sin half_angle) by (apply sin_incr_1; unfold half_angle, radians; lra).
  assert (D : 2 * sin (PI / 12) * cos (PI / 12) = / 2).
  { rewrite <- sin_2a. replace (2 * (PI / 12)) with (PI / 6) by field. rewrite sin_PI6. field. }
  pose proof (COS_bound (PI / 12)) as [_ C]. assert (0 < cos (PI / 12)) by (apply cos_gt_0; lra).
  assert (0 < sin (PI / 12)) by (apply sin_gt_0; lra). nra.
Qed.
Lemma unit_cube p : -1 / 2 <= x3 p <= 1 / 2 -> -1 / 2 <= y3 p <= 1 / 2 -> -1 / 2 <= z3 p <= 1 / 2 ->
  Rabs 1 * norm p <= 5 * sin half_angle.
Proof.
  intros X Y Z. rewrite Rabs_R1, Rmult_1_l. pose proof sin_quarter. assert (norm p <= 1); [|lra].
  unfold norm. rewrite <- sqrt_1. apply sqrt_le_1_alt. unfold dot. nra.
Qed.
Lemma camera_ok b zdist s : exists model view proj, camera_mats b zdist s = Ok (model, view, proj).
Proof.
  destruct (perspective_shows 35 1 1 100 ltac:(lra) ltac:(lra) ltac:(lra)) as (m & E & _). unfold camera_mats. rewrite E. cbn [bind]. eauto.
Qed.
Definition sample : arr := mkA KFloat (Flat [Num 0; Num 0; Num 1; Num 0; Num 0; Num 2]).
Lemma sample_holds : holds sample [V3 0 0 1; V3 0 0 2].
Proof. exists [[0; 0; 1]; [0; 0; 2]]. split; [reflexivity|]. split; [repeat constructor|discriminate]. Qed.
Lemma sample_lists : lists (table KInt 3 [[0; 0; 1]; [0; 0; 2]]) [V3 0 0 1; V3 0 0 2].
Proof.
  exists KInt, [[0; 0; 1]; [0; 0; 2]]. split; [reflexivity|]. split; [repeat constructor|].
  intros _. repeat constructor; first [now exists 0%Z|now exists 1%Z|now exists 2%Z].
Qed.
(** A viewport of 512 by 256 pixels, resized to as much, with zoom 1. *)
Definition wide_view : res (Viewport.viewport * Viewport.viewport) :=
  let* f := new_canvas (CInt 512) (CInt 256) (zq 100) in
  let* v := new_viewport f (CInt 0) (CInt 0) (CFloat 1%Qc) (CFloat 1%Qc) in
  let* v' := resize v (f_inches f) in Ok (v, v').
Lemma wide_view_ok : match wide_view with
  | Ok (v, v') => qlt 0%Qc (wide v' * canvas_w v')%Qc && qlt 0%Qc (high v' * canvas_h v')%Qc && qle 1%Qc (p_zoom v) && qlt (span_y v') (span_x v')
  | Err _ => false end = true.
Proof. vm_compute. reflexivity. Qed.
Lemma camera_suits theta phi h zdist s :
  exists model view proj, camera_mats (acts (new_trackball theta phi) h) zdist s = Ok (model, view, proj) /\
    affine model /\ affine view /\ perspective 35 1 1 100 false = Ok proj /\
    forall p, exists r, dot r r = dot p p /\ eye model view p = V4 (s * x3 r) (s * y3 r) (s * z3 r - zdist) 1.
Proof.
  destruct (camera_ok (acts (new_trackball theta phi) h) zdist s) as (m & w & p & E). exists m, w, p. split; [exact E|].
  destruct (camera_affine _ _ _ _ _ _ _ _ E) as [A B]. split; [exact A|]. split; [exact B|].
  split; [exact (proj1 (camera_parts _ _ _ _ _ _ _ _ E))|]. intros x. exists (block m x).
  destruct (camera_eye _ _ _ _ _ _ _ _ E x) as [P Q]. auto.
Qed.
Lemma flat_suits v :
  exists model view proj, flat_mats = Ok (model, view, proj) /\
    affine model /\ affine view /\ ortho (-1) 1 (-1) 1 1 100 false = Ok proj /\ volume (-1) 1 (-1) 1 1 100 /\
    forall p, eye model view p = point p /\
      spot v (clip model view proj p) = Some (fst (middle v) + unit_x v * x3 p, snd (middle v) + unit_y v * y3 p).
Proof.
  assert (V : volume (-1) 1 (-1) 1 1 100) by (unfold volume; lra).
  unfold flat_mats. rewrite (ortho_ok _ _ _ _ _ _ V). cbn [bind].
  eexists _, _, _. split; [reflexivity|]. split; [reflexivity|]. split; [reflexivity|]. split; [reflexivity|]. split; [exact V|].
  intros p. assert (E : eye (Mat (V4 1 0 0 0) (V4 0 1 0 0) (V4 0 0 1 0) (V4 0 0 0 1)) (Mat (V4 1 0 0 0) (V4 0 1 0 0) (V4 0 0 1 0) (V4 0 0 0 1)) p = point p).
  { unfold eye. mats. entries; ring. }
  split; [exact E|]. unfold clip. rewrite E. unfold spot. generalize (fst (middle v)), (snd (middle v)), (unit_x v), (unit_y v). intros a b c d.
  mats. destruct (Req_EM_T _ 0) as [H|H]; [exfalso; lra|]. f_equal. f_equal; field; lra.
Qed.
