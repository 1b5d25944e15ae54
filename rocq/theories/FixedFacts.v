(** Proofs about lengths in units on the screen. *)
From Coq Require Import Reals Lra Lia.
From Verif Require Import Base Slice Measure Viewport ViewportSpec ViewportFacts Camera Glm GlmSpec GlmFacts Vec VecSpec Render RenderSpec Trackball Picture PictureSpec PictureFacts
  Outline OutlineSpec OutlineFacts Drag DragSpec DragFacts Live LiveSpec LiveFacts Fixed FixedSpec.
Local Open Scope R_scope.

Definition times_of (u : unit_of) : R := match u with Meter => 10 | _ => 1 end.
Lemma times_right u : right_length u -> times_of u = 1.
Proof. intros A. destruct u; try reflexivity. destruct (A eq_refl). Qed.
Lemma factor_long u v : inR (factor u (f_dpi (p_fig v))) = times_of u * long u v.
Proof.
  unfold long. set (d := f_dpi (p_fig v)). clearbody d.
  assert (E : forall a : Qc, inR (q 10 1 * a)%Qc = 10 * inR a) by (intros a; rewrite inR_mult; f_equal; exact (inR_zq 10)).
  destruct u; cbn [factor pixels_per times_of].
  - lra.
  - lra.
  - rewrite Rmult_1_l. reflexivity.
  - rewrite Rmult_1_l. reflexivity.
  - rewrite Rmult_1_l. f_equal. unfold Qcdiv. rewrite (Qcmult_comm (q 1 10) d), <- Qcmult_assoc. apply (f_equal (Qcmult d)), Qc_is_canon. reflexivity.
  - rewrite <- E. f_equal. unfold Qcdiv. transitivity (d * (q 1000 1 * / q 254 100))%Qc; [ring|]. transitivity (d * (q 10 1 * / q 254 10000))%Qc; [|ring]. apply (f_equal (Qcmult d)), Qc_is_canon. reflexivity.
  - rewrite Rmult_1_l. f_equal. unfold Qcdiv. transitivity (d * (q 100000 1 * / q 254 100))%Qc; [ring|]. apply (f_equal (Qcmult d)), Qc_is_canon. reflexivity.
Qed.
Lemma inR_inv b : b <> Q2Qc 0 -> inR (1 * (1 / b))%Qc = / inR b.
Proof.
  intros N. pose proof (inR_nz _ N) as NR. apply (Rmult_eq_reg_r (inR b)); [|exact NR]. rewrite <- inR_mult, Rinv_l by exact NR. rewrite <- (inR_zq 1). f_equal. change (zq 1) with 1%Qc. field. exact N.
Qed.
Lemma inR_ratio a b : b <> Q2Qc 0 -> inR (a * (1 / b))%Qc = inR a / inR b.
Proof. intros N. unfold Rdiv. rewrite <- inR_inv, <- inR_mult by exact N. f_equal. field. exact N. Qed.
(** What the measure makes of positions. *)
Lemma evaluated u v qs m : usable v -> Measure.evaluate u (variables_in v) (Some (Measure.Arr 3 (triples qs))) = Ok m ->
  side_x v <> 0 /\ side_y v <> 0 /\
  exists l, m = Measure.Arr 3 l /\ holds (numbers l) (map (fun q => V3 (times_of u * x3 (in_scene u v q)) (times_of u * y3 (in_scene u v q)) 0) qs).
Proof.
  intros (_ & SX & SY). unfold Measure.evaluate, Measure.pixels, Measure.frame, variables_in. cbn [v_dpi v_view v_canvas v_size bind fst snd frame_of w_size w_xlim w_ylim].
  rewrite pixels_of_is. cbv iota beta. destruct (Qc_eq_bool (wide v * canvas_w v) 0) eqn:W; [discriminate|]. destruct (Qc_eq_bool (high v * canvas_h v) 0) eqn:H; [discriminate|].
  apply eqb_false in W, H. fold (span_x v) (span_y v). intros E.
  assert (NX : side_x v <> 0) by (now apply inR_nz). assert (NY : side_y v <> 0) by (now apply inR_nz).
  split; [exact NX|]. split; [exact NY|].
  set (sx := (span_x v * (1 / (wide v * canvas_w v)))%Qc) in *. set (sy := (span_y v * (1 / (high v * canvas_h v)))%Qc) in *.
  assert (IX : inR sx = / unit_x v). { unfold sx. rewrite inR_ratio by exact W. unfold unit_x. fold (side_x v). field. split; [now apply inR_nz|exact NX]. }
  assert (IY : inR sy = / unit_y v). { unfold sy. rewrite inR_ratio by exact H. unfold unit_y. fold (side_y v). field. split; [now apply inR_nz|exact NY]. }
  clearbody sx sy. cbn [scaled bind] in E.
  set (k := factor u (f_dpi (p_fig v))). assert (IK : inR k = times_of u * long u v) by apply factor_long.
  assert (M : m = Measure.Arr 3 (map (fun '(x, y, z) => [k * (sx * x); k * (sy * y); k * (0 * z)]%Qc) qs)).
  { assert (P : map (mulrow [sx; sy; 0%Qc]) (triples qs) = map (fun '(x, y, z) => [sx * x; sy * y; 0 * z]%Qc) qs).
    { unfold triples. rewrite map_map. apply map_ext. intros [[a b] c]. reflexivity. }
    rewrite P in E. clear P.
    assert (G : forall k', map (map (Qcmult k')) (map (fun '(x, y, z) => [sx * x; sy * y; 0 * z]%Qc) qs) = map (fun '(x, y, z) => [k' * (sx * x); k' * (sy * y); k' * (0 * z)]%Qc) qs).
    { intros k'. rewrite map_map. apply map_ext. intros [[a b] c]. reflexivity. }
    unfold Measure.dpi in E. cbn [v_dpi v_view v_canvas bind frame_of w_canvas c_dpi mmap] in E.
    destruct u; injection E as <-; try (rewrite G; reflexivity).
    f_equal. apply map_ext. intros [[a b] c]. unfold k. cbn [factor]. now rewrite !Qcmult_1_l. }
  eexists. split; [exact M|]. clear M E.
  exists (map (fun q => [times_of u * x3 (in_scene u v q); times_of u * y3 (in_scene u v q); 0]) qs). split; [|split].
  - cbn [numbers a_data elements]. induction qs as [|[[a b] c] qs IH]; [reflexivity|]. cbn [map concat]. rewrite map_app, IH. cbn [map app in_scene x3 y3].
    repeat (apply (f_equal2 cons); [apply (f_equal Vec.Num); rewrite !inR_mult, IK, ?IX, ?IY, ?inR_0; unfold Rdiv; ring|]). reflexivity.
  - clear. induction qs as [|q qs IH]; [constructor|]. constructor; [reflexivity|exact IH].
  - discriminate.
Qed.

Definition spread (u : unit_of) (v : Viewport.viewport) (q : Qc * Qc * Qc) : vec3 := V3 (times_of u * x3 (in_scene u v q)) (times_of u * y3 (in_scene u v q)) 0.
Lemma spread_right u v q : right_length u -> spread u v q = in_scene u v q.
Proof. intros R. unfold spread. rewrite (times_right u R). destruct q as [[a b] c]. unfold in_scene. cbn [x3 y3]. now rewrite !Rmult_1_l. Qed.

Section Running.
Context {D : Type}.
Variables (visuals : list (D -> vis)) (on_render : Qc -> mat -> mat -> mat -> D -> res D) (port : nat) (figure : nat -> nat).
Notation launched := (launched visuals on_render port figure). Notation lives := (lives visuals on_render port figure).
Variables (c : @Camera.camera nat mat trackball) (f : fig) (x y w h : coord) (v : Viewport.viewport) (z : Qc) (d0 : D) (s0 : live D) (hist : list event) (s : live D) (k : nat) (g : D -> vis) (u : unit_of).
Hypotheses (MA : made c) (N : new_viewport f x y w h = Ok v) (L : launched c v z d0 = Ok s0) (E : lives s0 hist = Ok s) (S : settled port figure hist) (K : nth_error visuals k = Some g).
Let now := camera_steps figure c (start_of port ++ mouse_of hist).
Let view := s_view (l_view s).
Lemma view_usable : usable view.
Proof. destruct (parts _ _ _ _ _ _ _ _ _ _ _ MA L E) as (_ & R). exact (always_usable _ _ _ _ _ _ _ _ _ N R). Qed.
Lemma units_shown qs mk : g (l_data s) = in_units u (triples qs) mk ->
  side_x view <> 0 /\ side_y view <> 0 /\
  exists V l items, holds V (map (spread u view) qs) /\ l_screen s = Some (view, l) /\ nth_error l k = Some items /\ mk V view (c_model now) (c_view now) (c_proj now) = Ok items.
Proof.
  intros G. destruct (each _ _ _ _ _ _ _ _ _ _ _ _ _ MA L E S K) as (l & items & SC & NE & I). cbv zeta in I. fold now view in SC, I. rewrite G in I. unfold in_units in I.
  destruct (Measure.evaluate u (variables_in view) (Some (Arr 3 (triples qs)))) as [m|] eqn:EV; [|discriminate]. cbn [bind] in I.
  destruct (evaluated u view qs m view_usable EV) as (NX & NY & rows & -> & Ho). split; [exact NX|]. split; [exact NY|]. exists (numbers rows), l, items. auto.
Qed.
Lemma units_points argsort qs face edge width size : sorts_numbers argsort -> g (l_data s) = in_units u (triples qs) (fun V => points_vis argsort V face edge width size) ->
  let n := length qs in fits n face -> clear n face -> fits n edge -> clear n edge -> fits n width -> clear n width -> fits_size n size ->
  side_x view <> 0 /\ side_y view <> 0 /\
  exists l items order, l_screen s = Some (view, l) /\ nth_error l k = Some items /\ visits n order /\
    map Some (picture view items) = map (fun j => option_map (fun q => ([spot view (clip (c_model now) (c_view now) (c_proj now) (spread u view q))], [own face j; own edge j; own width j; own size j]))
                                                             (nth_error qs j)) order.
Proof.
  intros SO G n F1 C1 F2 C2 F3 C3 F4. destruct (units_shown qs _ G) as (NX & NY & V & l & items & Ho & SC & NE & I). split; [exact NX|]. split; [exact NY|].
  destruct (points_where argsort SO view V (c_model now) (c_view now) (c_proj now) _ face edge width size view_usable Ho) as (order & out & O & Vi & _ & W); rewrite ?map_length; try assumption.
  exists l, items, order. split; [exact SC|]. split; [exact NE|]. rewrite map_length in Vi. split; [exact Vi|].
  pose proof (points_picture argsort view V face edge width size (c_model now) (c_view now) (c_proj now)) as P. rewrite I, O in P. cbn [bind] in P. injection P as ->.
  rewrite map_map. rewrite <- (map_map (fun x => x) (fun x => Some (let '(x0, a) := x in ([x0], a)))). rewrite map_id.
  transitivity (map (option_map (fun '(x0, a) => ([x0], a))) (map Some out)); [rewrite map_map; apply map_ext; intros [p a]; reflexivity|]. rewrite W, map_map. apply map_ext. intros j.
  rewrite nth_error_map. destruct (nth_error qs j); reflexivity.
Qed.
Lemma units_segments argsort gs color width : sorts_numbers argsort -> Forall (fun e => length e = 2%nat) gs -> g (l_data s) = in_units u (triples (concat gs)) (fun V => segments_vis argsort V color width) ->
  let n := length gs in fits n color -> clear n color -> fits n width -> clear n width ->
  side_x view <> 0 /\ side_y view <> 0 /\
  exists l items order, l_screen s = Some (view, l) /\ nth_error l k = Some items /\ visits n order /\
    map Some (picture view items) = map (fun j => option_map (fun e => (map (fun q => spot view (clip (c_model now) (c_view now) (c_proj now) (spread u view q))) e, [own color j; own width j]))
                                                             (nth_error gs j)) order.
Proof.
  intros SO TW G n F1 C1 F2 C2. destruct (units_shown _ _ G) as (NX & NY & V & l & items & Ho & SC & NE & I). split; [exact NX|]. split; [exact NY|].
  assert (IP : in_pairs (map (map (spread u view)) gs) (map (spread u view) (concat gs))).
  { split; [now rewrite <- concat_map|]. apply Forall_map. eapply Forall_impl; [|exact TW]. intros e LE. now rewrite map_length. }
  destruct (segments_where argsort SO (c_model now) (c_view now) (c_proj now) view V _ _ color width view_usable Ho IP) as (order & out & O & Vi & _ & W); rewrite ?map_length; try assumption.
  exists l, items, order. split; [exact SC|]. split; [exact NE|]. rewrite map_length in Vi. split; [exact Vi|].
  pose proof (segments_picture argsort view V color width (c_model now) (c_view now) (c_proj now)) as P. rewrite I, O in P. cbn [bind] in P. injection P as ->.
  rewrite W. apply map_ext. intros j. rewrite nth_error_map. destruct (nth_error gs j) as [e|]; [|reflexivity]. cbn [option_map]. now rewrite map_map.
Qed.
Lemma flat_fixed q : flat_camera = Ok c -> side_x view <> 0 -> side_y view <> 0 -> spot view (clip (c_model now) (c_view now) (c_proj now) (spread u view q)) = fixed_times (times_of u) u view q.
Proof.
  intros FC NX NY. pose proof (flat_history figure c (start_of port ++ mouse_of hist) FC) as FM. cbv zeta in FM. fold now in FM.
  destruct (flat_suits view) as (m & vw & p & FS & _ & _ & _ & _ & SP). rewrite FM in FS. injection FS as <- <- <-. destruct (SP (spread u view q)) as [_ ->]. destruct view_usable as (_ & SX & SY).
  destruct q as [[a b] e]. unfold fixed_times, spread, in_scene. cbn [x3 y3]. f_equal. f_equal; f_equal; unfold unit_x, unit_y; field; split; auto using inR_nz.
Qed.
End Running.
Lemma fixed_one u v q : fixed_times 1 u v q = fixed u v q.
Proof. destruct q as [[a b] c]. unfold fixed_times, fixed. now rewrite !Rmult_1_l. Qed.

(** Seen by the turning camera. *)
Lemma line_bent theta phi h zdist sc model view proj v t : camera_mats (acts (new_trackball theta phi) h) zdist sc = Ok (model, view, proj) -> unit_x v <> 0 -> unit_y v <> 0 -> t <> 0 ->
  zdist <> 0 -> zdist * sin half_angle <> sc * cos half_angle -> zdist * sin half_angle <> - (sc * cos half_angle) ->
  spot v (clip model view proj (V3 t 0 0)) = Some (fst (middle v) + unit_x v * t, snd (middle v) + unit_y v * 0) ->
  spot v (clip model view proj (V3 (2 * t) 0 0)) = Some (fst (middle v) + unit_x v * (2 * t), snd (middle v) + unit_y v * 0) -> False.
Proof.
  intros E UX UY T ZD D1 D2. rewrite !(camera_spot _ _ _ _ _ _ _ _ E). cbv zeta. pose proof (camera_eye _ _ _ _ _ _ _ _ E (V3 t 0 0)) as [_ DD]. unfold dot, block in *. cbn [x3 y3 z3] in *.
  destruct alpha_signs as (S & C & _ & _). set (si := sin half_angle) in *. set (co := cos half_angle) in *. clearbody si co.
  set (a := x4 (row0 model)) in *. set (b := x4 (row1 model)) in *. set (e := x4 (row2 model)) in *.
  replace (a * t + y4 (row0 model) * 0 + z4 (row0 model) * 0) with (a * t) in * by ring. replace (b * t + y4 (row1 model) * 0 + z4 (row1 model) * 0) with (b * t) in * by ring.
  replace (e * t + y4 (row2 model) * 0 + z4 (row2 model) * 0) with (e * t) in * by ring.
  replace (a * (2 * t) + y4 (row0 model) * 0 + z4 (row0 model) * 0) with (2 * (a * t)) in * by ring. replace (b * (2 * t) + y4 (row1 model) * 0 + z4 (row1 model) * 0) with (2 * (b * t)) in * by ring.
  replace (e * (2 * t) + y4 (row2 model) * 0 + z4 (row2 model) * 0) with (2 * (e * t)) in * by ring.
  destruct (Req_EM_T (zdist - sc * (e * t)) 0) as [|N1]; [discriminate|]. destruct (Req_EM_T (zdist - sc * (2 * (e * t))) 0) as [|N2]; [discriminate|].
  intros Q1 Q2. injection Q1 as X1 Y1. injection Q2 as X2 Y2. apply Rplus_eq_reg_l in X1, Y1, X2, Y2. apply Rmult_eq_reg_l in X1, X2; try assumption. apply Rmult_eq_reg_l in Y1, Y2; try assumption.
  assert (NS : si <> 0) by lra. assert (NC : co <> 0) by lra.
  assert (F : forall m n p, p <> 0 -> m / (si * p) = n -> m = n * (si * p)) by (intros m n p P <-; field; auto).
  apply F in X1, X2, Y1, Y2; try assumption.
  assert (A1 : sc * a * co = si * (zdist - sc * (e * t))) by (apply (Rmult_eq_reg_r t); [|exact T]; lra).
  assert (A2 : sc * a * co = si * (zdist - sc * (2 * (e * t)))) by (apply (Rmult_eq_reg_r (2 * t)); [|lra]; lra).
  assert (Z0 : sc * (e * t) = 0) by (apply (Rmult_eq_reg_l si); [|exact NS]; lra).
  assert (SE : sc * e = 0) by (apply (Rmult_eq_reg_r t); [|exact T]; lra).
  rewrite Z0 in A1. assert (SB : sc * b = 0). { apply (Rmult_eq_reg_r (t * co)); [|now apply Rmult_integral_contrapositive_currified]. lra. }
  assert (NSC : sc <> 0) by (intros ->; apply ZD; apply (Rmult_eq_reg_l si); [lra|exact NS]).
  apply Rmult_integral in SE, SB. destruct SE as [|SE]; [contradiction|]. destruct SB as [|SB]; [contradiction|]. rewrite SE, SB in DD.
  assert (AA : a * a = 1) by (apply (Rmult_eq_reg_r (t * t)); [lra|now apply Rmult_integral_contrapositive_currified]).
  assert (A01 : (a - 1) * (a + 1) = 0) by lra. apply Rmult_integral in A01. destruct A01 as [A01|A01]; [apply D1|apply D2]; [replace a with 1 in A1 by lra|replace a with (-1) in A1 by lra]; lra.
Qed.
Lemma default_distance : 5 * sin half_angle <> 1 * cos half_angle /\ 5 * sin half_angle <> - (1 * cos half_angle).
Proof. pose proof sin_quarter. pose proof (COS_bound half_angle). destruct alpha_signs as (_ & C & _). split; lra. Qed.

Lemma evaluates u v qs : ViewportSpec.positive v -> exists k sx sy, Measure.evaluate u (variables_in v) (Some (Measure.Arr 3 (triples qs))) =
  Ok (Measure.Arr 3 (map (fun '(x, y, z) => [k * (sx * x); k * (sy * y); k * (0 * z)]%Qc) qs)).
Proof.
  intros [W H]. unfold Measure.evaluate, Measure.pixels, Measure.frame, variables_in. cbn [v_dpi v_view v_canvas v_size bind fst snd frame_of w_size w_xlim w_ylim].
  rewrite pixels_of_is. cbv iota beta. apply pos_nonzero, eqb_false in W, H. rewrite W, H. cbn [scaled bind]. unfold Measure.dpi. cbn [v_dpi v_view v_canvas bind frame_of w_canvas c_dpi mmap].
  set (sx := (_ * (1 / (wide v * canvas_w v)))%Qc). set (sy := (_ * (1 / (high v * canvas_h v)))%Qc). clearbody sx sy.
  exists (factor u (f_dpi (p_fig v))), sx, sy.
  assert (G : forall k', map (map (Qcmult k')) (map (mulrow [sx; sy; 0%Qc]) (triples qs)) = map (fun '(x, y, z) => [k' * (sx * x); k' * (sy * y); k' * (0 * z)]%Qc) qs).
  { intros k'. unfold triples. rewrite !map_map. apply map_ext. intros [[a b] c]. reflexivity. }
  destruct u; try (rewrite G; reflexivity). f_equal. f_equal. unfold triples. rewrite map_map. apply map_ext. intros [[a b] c]. cbn [mulrow factor]. now rewrite !Qcmult_1_l.
Qed.
Lemma numbers_hold {A} (f g h : A -> Qc) (l : list A) : holds (numbers (map (fun q => [f q; g q; h q]) l)) (map (fun q => V3 (inR (f q)) (inR (g q)) (inR (h q))) l).
Proof.
  exists (map (fun q => [inR (f q); inR (g q); inR (h q)]) l). split; [|split; [|discriminate]].
  - cbn [numbers a_data elements]. induction l as [|q l IH]; [reflexivity|]. cbn [map concat]. rewrite map_app, IH. reflexivity.
  - induction l as [|q l IH]; [constructor|]. constructor; [reflexivity|exact IH].
Qed.
Lemma evaluates_holds u v qs : ViewportSpec.positive v -> exists rows ps, Measure.evaluate u (variables_in v) (Some (Measure.Arr 3 (triples qs))) = Ok (Measure.Arr 3 rows) /\ holds (numbers rows) ps /\ length ps = length qs.
Proof.
  intros P. destruct (evaluates u v qs P) as (k & sx & sy & E). eexists. eexists. split; [exact E|].
  pose proof (numbers_hold (fun q : Qc * Qc * Qc => k * (sx * fst (fst q)))%Qc (fun q => k * (sy * snd (fst q)))%Qc (fun q => k * (0 * snd q))%Qc qs) as H.
  split; [|rewrite map_length; reflexivity]. erewrite map_ext; [exact H|]. intros [[a b] c]. reflexivity.
Qed.
Lemma units_never_fail {D} (sound : D -> Prop) u argsort qs :
  (forall face edge width size, fits_size (length qs) size -> never_fail sound [fun _ : D => in_units u (triples qs) (fun V => points_vis argsort V face edge width size)]) /\
  (forall gs color width, concat gs = qs -> Forall (fun e => length e = 2%nat) gs -> never_fail sound [fun _ : D => in_units u (triples qs) (fun V => segments_vis argsort V color width)]).
Proof.
  split.
  - intros face edge width size F. constructor; [|constructor]. intros d vp m w p _ P. unfold in_units. destruct (evaluates_holds u vp qs P) as (rows & ps & -> & Ho & LE). cbn [bind].
    apply (points_never_fail argsort _ ps); [exact Ho|now rewrite LE].
  - intros gs color width <- T. constructor; [|constructor]. intros d vp m w p _ P. unfold in_units. destruct (evaluates_holds u vp (concat gs) P) as (rows & ps & -> & Ho & LE). cbn [bind].
    assert (IP : exists gs', in_pairs gs' ps).
    { clear - T LE. revert ps LE. induction T as [|e gs E _ IH]; intros ps LE; [exists []; destruct ps; [split; [reflexivity|constructor]|discriminate]|].
      cbn [concat] in LE. rewrite app_length, E in LE. destruct ps as [|a [|b ps]]; try discriminate. injection LE as LE. destruct (IH ps LE) as (gs' & G1 & G2). exists ([a; b] :: gs'). split; [cbn; now rewrite G1|]. now constructor. }
    destruct IP as (gs' & IP). exact (segments_never_fail argsort _ ps gs' color width Ho IP vp m w p).
Qed.

Section Ends.
Context {D : Type}.
Variables (visuals : list (D -> vis)) (on_render : Qc -> mat -> mat -> mat -> D -> res D) (port : nat) (figure : nat -> nat).
Notation launched := (launched visuals on_render port figure). Notation lives := (lives visuals on_render port figure).
Lemma scene_end c f x y w h v z d0 s0 hist s k g u argsort qs face edge width size : sorts_numbers argsort -> made c -> right_length u -> new_viewport f x y w h = Ok v ->
  nth_error visuals k = Some g -> g (l_data s) = in_units u (triples qs) (fun V => points_vis argsort V face edge width size) ->
  let n := length qs in fits n face -> clear n face -> fits n edge -> clear n edge -> fits n width -> clear n width -> fits_size n size ->
  launched c v z d0 = Ok s0 -> lives s0 hist = Ok s -> settled port figure hist ->
  let now := camera_steps figure c (start_of port ++ mouse_of hist) in let view := s_view (l_view s) in
  exists l items order, l_screen s = Some (view, l) /\ nth_error l k = Some items /\ visits n order /\
    map Some (picture view items) = map (fun j => option_map (fun q => ([spot view (clip (c_model now) (c_view now) (c_proj now) (in_scene u view q))], [own face j; own edge j; own width j; own size j]))
                                                             (nth_error qs j)) order.
Proof.
  intros SO M R N K G n F1 C1 F2 C2 F3 C3 F4 L E S now view.
  destruct (units_points visuals on_render port figure c f x y w h v z d0 s0 hist s k g u M N L E S K argsort qs face edge width size SO G F1 C1 F2 C2 F3 C3 F4) as (_ & _ & l & items & order & A & B & C & P).
  exists l, items, order. split; [exact A|]. split; [exact B|]. split; [exact C|]. unfold view, now. rewrite P. apply map_ext. intros j. destruct (nth_error qs j) as [q|]; [|reflexivity]. cbn [option_map]. now rewrite (spread_right u _ q R).
Qed.
Lemma points_times c f x y w h v z d0 s0 hist s k g u argsort qs face edge width size : sorts_numbers argsort -> flat_camera = Ok c -> new_viewport f x y w h = Ok v ->
  nth_error visuals k = Some g -> g (l_data s) = in_units u (triples qs) (fun V => points_vis argsort V face edge width size) ->
  let n := length qs in fits n face -> clear n face -> fits n edge -> clear n edge -> fits n width -> clear n width -> fits_size n size ->
  launched c v z d0 = Ok s0 -> lives s0 hist = Ok s -> settled port figure hist ->
  let view := s_view (l_view s) in
  exists l items order, l_screen s = Some (view, l) /\ nth_error l k = Some items /\ visits n order /\
    map Some (picture view items) = map (fun j => option_map (fun q => ([fixed_times (times_of u) u view q], [own face j; own edge j; own width j; own size j])) (nth_error qs j)) order.
Proof.
  intros SO FC N K G n F1 C1 F2 C2 F3 C3 F4 L E S view. pose proof (flat_made _ FC) as M.
  destruct (units_points visuals on_render port figure c f x y w h v z d0 s0 hist s k g u M N L E S K argsort qs face edge width size SO G F1 C1 F2 C2 F3 C3 F4) as (NX & NY & l & items & order & A & B & C & P).
  exists l, items, order. split; [exact A|]. split; [exact B|]. split; [exact C|]. unfold view. rewrite P. apply map_ext. intros j. destruct (nth_error qs j) as [q|]; [|reflexivity]. cbn [option_map].
  now rewrite (flat_fixed visuals on_render port figure c f x y w h v z d0 s0 hist s u M N L E q FC NX NY).
Qed.
Lemma segments_times c f x y w h v z d0 s0 hist s k g u argsort gs color width : sorts_numbers argsort -> flat_camera = Ok c -> new_viewport f x y w h = Ok v ->
  nth_error visuals k = Some g -> Forall (fun e => length e = 2%nat) gs -> g (l_data s) = in_units u (triples (concat gs)) (fun V => segments_vis argsort V color width) ->
  let n := length gs in fits n color -> clear n color -> fits n width -> clear n width ->
  launched c v z d0 = Ok s0 -> lives s0 hist = Ok s -> settled port figure hist ->
  let view := s_view (l_view s) in
  exists l items order, l_screen s = Some (view, l) /\ nth_error l k = Some items /\ visits n order /\
    map Some (picture view items) = map (fun j => option_map (fun e => (map (fixed_times (times_of u) u view) e, [own color j; own width j])) (nth_error gs j)) order.
Proof.
  intros SO FC N K TW G n F1 C1 F2 C2 L E S view. pose proof (flat_made _ FC) as M.
  destruct (units_segments visuals on_render port figure c f x y w h v z d0 s0 hist s k g u M N L E S K argsort gs color width SO TW G F1 C1 F2 C2) as (NX & NY & l & items & order & A & B & C & P).
  exists l, items, order. split; [exact A|]. split; [exact B|]. split; [exact C|]. unfold view. rewrite P. apply map_ext. intros j. destruct (nth_error gs j) as [e|]; [|reflexivity]. cbn [option_map].
  do 2 f_equal. apply map_ext. intros q. exact (flat_fixed visuals on_render port figure c f x y w h v z d0 s0 hist s u M N L E q FC NX NY).
Qed.
Lemma points_fixed c f x y w h v z d0 s0 hist s k g u argsort qs face edge width size : sorts_numbers argsort -> flat_camera = Ok c -> right_length u -> new_viewport f x y w h = Ok v ->
  nth_error visuals k = Some g -> g (l_data s) = in_units u (triples qs) (fun V => points_vis argsort V face edge width size) ->
  let n := length qs in fits n face -> clear n face -> fits n edge -> clear n edge -> fits n width -> clear n width -> fits_size n size ->
  launched c v z d0 = Ok s0 -> lives s0 hist = Ok s -> settled port figure hist ->
  let view := s_view (l_view s) in
  exists l items order, l_screen s = Some (view, l) /\ nth_error l k = Some items /\ visits n order /\
    map Some (picture view items) = map (fun j => option_map (fun q => ([fixed u view q], [own face j; own edge j; own width j; own size j])) (nth_error qs j)) order.
Proof.
  intros SO FC R N K G n F1 C1 F2 C2 F3 C3 F4 L E S view.
  destruct (points_times c f x y w h v z d0 s0 hist s k g u argsort qs face edge width size SO FC N K G F1 C1 F2 C2 F3 C3 F4 L E S) as (l & items & order & A & B & C & P).
  exists l, items, order. split; [exact A|]. split; [exact B|]. split; [exact C|]. unfold view. rewrite P. apply map_ext. intros j. destruct (nth_error qs j) as [q|]; [|reflexivity]. cbn [option_map].
  now rewrite (times_right u R), fixed_one.
Qed.
Lemma segments_fixed c f x y w h v z d0 s0 hist s k g u argsort gs color width : sorts_numbers argsort -> flat_camera = Ok c -> right_length u -> new_viewport f x y w h = Ok v ->
  nth_error visuals k = Some g -> Forall (fun e => length e = 2%nat) gs -> g (l_data s) = in_units u (triples (concat gs)) (fun V => segments_vis argsort V color width) ->
  let n := length gs in fits n color -> clear n color -> fits n width -> clear n width ->
  launched c v z d0 = Ok s0 -> lives s0 hist = Ok s -> settled port figure hist ->
  let view := s_view (l_view s) in
  exists l items order, l_screen s = Some (view, l) /\ nth_error l k = Some items /\ visits n order /\
    map Some (picture view items) = map (fun j => option_map (fun e => (map (fixed u view) e, [own color j; own width j])) (nth_error gs j)) order.
Proof.
  intros SO FC R N K TW G n F1 C1 F2 C2 L E S view.
  destruct (segments_times c f x y w h v z d0 s0 hist s k g u argsort gs color width SO FC N K TW G F1 C1 F2 C2 L E S) as (l & items & order & A & B & C & P).
  exists l, items, order. split; [exact A|]. split; [exact B|]. split; [exact C|]. unfold view. rewrite P. apply map_ext. intros j. destruct (nth_error gs j) as [e|]; [|reflexivity]. cbn [option_map].
  do 2 f_equal. apply map_ext. intros q. now rewrite (times_right u R), fixed_one.
Qed.
(** The default camera. *)
Lemma perspective_bends theta phi c f x y w h v z d0 s0 hist s u : ball_camera theta phi 5 1 = Ok c -> new_viewport f x y w h = Ok v ->
  launched c v z d0 = Ok s0 -> lives s0 hist = Ok s ->
  let now := camera_steps figure c (start_of port ++ mouse_of hist) in let view := s_view (l_view s) in
  ViewportSpec.positive view -> long u view <> 0 ->
  ~ (forall q, In q [(1, 0, 0); (Q2Qc 2, 0, 0)]%Qc -> spot view (clip (c_model now) (c_view now) (c_proj now) (in_scene u view q)) = fixed u view q).
Proof.
  intros B N L E now view [PX PY] NL Q. pose proof (ball_made _ _ _ _ _ B) as M. pose proof (view_usable visuals on_render port figure c f x y w h v z d0 s0 hist s M N L E) as (_ & SX & SY). fold view in SX, SY.
  destruct (ball_history figure theta phi 5 1 c (start_of port ++ mouse_of hist) B) as (dl & _ & CM). fold now in CM.
  assert (UX : unit_x view <> 0). { unfold unit_x, Rdiv. apply Rmult_integral_contrapositive_currified; [apply inR_nz, not_eq_sym, Qclt_not_eq, PX|]. apply Rinv_neq_0_compat, inR_nz, SX. }
  assert (UY : unit_y view <> 0). { unfold unit_y, Rdiv. apply Rmult_integral_contrapositive_currified; [apply inR_nz, not_eq_sym, Qclt_not_eq, PY|]. apply Rinv_neq_0_compat, inR_nz, SY. }
  assert (I1 : inR 1%Qc = 1) by exact (inR_zq 1). assert (I2 : inR (Q2Qc 2) = 2) by exact (inR_zq 2). destruct default_distance as [D1 D2].
  pose proof (Q (1, 0, 0)%Qc (or_introl eq_refl)) as Q1. pose proof (Q (Q2Qc 2, 0, 0)%Qc (or_intror (or_introl eq_refl))) as Q2. clear Q. unfold in_scene, fixed in Q1, Q2. rewrite I1, ?inR_0 in Q1. rewrite I2, ?inR_0 in Q2.
  set (t := long u view / unit_x view). assert (NT : t <> 0). { unfold t, Rdiv. apply Rmult_integral_contrapositive_currified; [exact NL|]. now apply Rinv_neq_0_compat. }
  apply (line_bent _ _ _ _ _ _ _ _ view t CM UX UY NT ltac:(lra) D1 D2).
  - replace (V3 t 0 0) with (V3 (long u view * 1 / unit_x view) (long u view * 0 / unit_y view) 0) by (apply vec3_ext; cbn [x3 y3 z3]; unfold t, Rdiv; ring). rewrite Q1. f_equal. f_equal; f_equal; unfold t; field; assumption.
  - replace (V3 (2 * t) 0 0) with (V3 (long u view * 2 / unit_x view) (long u view * 0 / unit_y view) 0) by (apply vec3_ext; cbn [x3 y3 z3]; unfold t, Rdiv; ring). rewrite Q2. f_equal. f_equal; f_equal; unfold t; field; assumption.
Qed.
End Ends.
Lemma meter_far v x y z : long Meter v <> 0 -> x <> Q2Qc 0 -> fixed_times (times_of Meter) Meter v (x, y, z) <> fixed Meter v (x, y, z).
Proof.
  intros L X. unfold fixed_times, fixed, times_of. intros Q. injection Q as Q _. apply Rplus_eq_reg_l in Q. assert (Z : long Meter v * inR x = 0) by lra.
  apply Rmult_integral in Z. destruct Z as [Z|Z]; [exact (L Z)|exact (inR_nz _ X Z)].
Qed.
Lemma fixed_example (figure : nat -> nat) : let visuals := [fun _ : Datatypes.unit => in_units Pixel (triples (concat (square_of 128))) (fun V => segments_vis sort_nums V (Whole 1) (Whole 2))] in
  let up := Moved (Camera.mkMouse Camera.Scroll (figure 7%nat) (Some 7%nat) 0%Qc 0%Qc) Up in let h := [up; Resized (zq 10, zq 5); up] in
  settled 7 figure h /\ never_fail (fun _ => True) visuals /\ Forall (fun e => length e = 2%nat) (square_of 128) /\ right_length Pixel /\
  exists c f v s0 s, flat_camera = Ok c /\ new_canvas (CInt 512) (CInt 512) (zq 100) = Ok f /\ new_viewport f (CFloat 0%Qc) (CFloat 0%Qc) (CFloat 1%Qc) (CFloat 1%Qc) = Ok v /\
    launched visuals no_render 7 figure c v 1%Qc tt = Ok s0 /\ lives visuals no_render 7 figure s0 h = Ok s.
Proof.
  intros visuals up h. assert (TW : Forall (fun e : list (Qc * Qc * Qc) => length e = 2%nat) (square_of 128)) by (repeat constructor).
  assert (NF : never_fail (fun _ => True) visuals) by (apply (proj2 (units_never_fail (fun _ => True) Pixel sort_nums (concat (square_of 128))) (square_of 128)); [reflexivity|exact TW]).
  assert (SE : sensible h) by (repeat constructor; now vm_compute). split; [|split; [exact NF|split; [exact TW|split; [discriminate|]]]].
  - right. exists [up; Resized (zq 10, zq 5)], up, []. split; [reflexivity|]. split; [reflexivity|]. right. eexists. eexists. split; [reflexivity|].
    unfold clicks, inside. cbn [Camera.m_kind Camera.m_figure Camera.m_inaxes]. rewrite Nat.eqb_refl. reflexivity.
  - assert (NR : never_raises (fun _ => True) (@no_render Datatypes.unit) 1%Qc) by (intros ? ? ? ? d; exists d; split; [reflexivity|exact Logic.I]).
    assert (T : match new_canvas (CInt 512) (CInt 512) (zq 100) with Ok f => qlt 0%Qc (f_dpi f) && qlt 0%Qc (fst (Viewport.size f)) && qlt 0%Qc (snd (Viewport.size f)) = true | Err _ => False end) by (vm_compute; reflexivity).
    destruct (new_canvas (CInt 512) (CInt 512) (zq 100)) as [f|]; [|destruct T]. apply andb_true_iff in T. destruct T as [T SH]. apply andb_true_iff in T. destruct T as [DP SW]. apply qlt_spec in DP, SW, SH.
    assert (ONE : (0 < 1)%Qc) by reflexivity.
    assert (C : exists c : @Camera.camera nat mat trackball, flat_camera = Ok c). { unfold flat_camera, flat_mats. assert (V : volume (-1) 1 (-1) 1 1 100) by (unfold volume; lra). rewrite (ortho_ok _ _ _ _ _ _ V). cbn [bind]. eauto. }
    destruct C as (c & FC). pose proof (flat_made _ FC) as M.
    destruct (runs visuals no_render 7 figure _ c f (CFloat 0%Qc) (CFloat 0%Qc) (CFloat 1%Qc) (CFloat 1%Qc) 1%Qc tt h M NR NF DP SW SH Logic.I Logic.I ONE ONE SE) as (v & s0 & s & N & L & E).
    exists c, f, v, s0, s. auto 7.
Qed.
