(** Proofs about dragging. *)
From Coq Require Import Reals Lra Psatz Nsatz.
From Verif Require Import Base Measure Viewport ViewportSpec Glm GlmSpec GlmFacts Vec VecSpec Render Trackball TrackballSpec TrackballFacts
  Camera CameraSpec CameraFacts Picture PictureSpec PictureFacts Drag DragSpec.
Local Open Scope R_scope.

(** ** The trackball *)
Lemma drag_rotation b x y dx dy : ok b -> t_rotation (drag_to b x y dx dy) = q_add (rotate_by x y dx dy) (t_rotation b).
Proof.
  intros [H _]. unfold drag_to. destruct (renorm_count <? S (t_count b))%nat; cbn [t_rotation]; [|reflexivity].
  apply q_normalize_id. rewrite q_add_norm, rotate_by_unit, H. ring.
Qed.
Lemma drags_ok l b : ok b -> ok (acts b (drags l)).
Proof. apply acts_ok. Qed.
Definition conj (q : vec4) : vec4 := V4 (- x4 q) (- y4 q) (- z4 q) (w4 q).
Lemma norm_opp v : norm (V3 (- x3 v) (- y3 v) (- z3 v)) = norm v.
Proof. unfold norm. f_equal. unfold dot. cbn [x3 y3 z3]. ring. Qed.
Lemma rotate_back x y dx dy : rotate_by (x + dx) (y + dy) (- dx) (- dy) = conj (rotate_by x y dx dy).
Proof.
  destruct (Req_EM_T dx 0) as [E1|E1], (Req_EM_T dy 0) as [E2|E2].
  { subst. unfold rotate_by. destruct (Req_EM_T (- 0) 0); [|exfalso; lra]. destruct (Req_EM_T 0 0); [|exfalso; lra]. unfold conj. cbn [x4 y4 z4 w4]. f_equal; ring. }
  all: (rewrite (rotate_by_moved x y dx dy) by tauto; rewrite rotate_by_moved by (try (left; lra); try (right; lra));
    assert (N : drag_axis x y dx dy <> zero3) by (destruct (rotate_by_cases x y dx dy) as [(A & B & _)|(_ & N & _)]; [contradiction|exact N]);
    assert (AX : drag_axis (x + dx) (y + dy) (- dx) (- dy) = V3 (- x3 (drag_axis x y dx dy)) (- y3 (drag_axis x y dx dy)) (- z3 (drag_axis x y dx dy)))
      by (unfold drag_axis; replace (x + dx + - dx) with x by ring; replace (y + dy + - dy) with y by ring;
          unfold cross; cbn [x3 y3 z3]; f_equal; ring);
    assert (LN : drag_length (x + dx) (y + dy) (- dx) (- dy) = drag_length x y dx dy)
      by (unfold drag_length; replace (x + dx + - dx) with x by ring; replace (y + dy + - dy) with y by ring; f_equal;
          rewrite <- norm_opp; f_equal; unfold sub3; cbn [x3 y3 z3]; f_equal; ring);
    rewrite AX, LN; set (a := drag_axis x y dx dy) in *; clearbody a; set (t := 2 * asin _); clearbody t;
    unfold q_from_axis_angle; assert (N' : V3 (- x3 a) (- y3 a) (- z3 a) <> zero3)
      by (intros Z; apply N; destruct a as [p q r]; unfold zero3 in *; cbn [x3 y3 z3] in Z; injection Z as Z1 Z2 Z3; f_equal; lra);
    rewrite !v_normalize_unit by assumption; unfold unit, conj, append, v_mul; rewrite norm_opp; pose proof (norm_pos a N) as P; cbn [x3 y3 z3 x4 y4 z4 w4]; f_equal; field; lra).
Qed.
Lemma q_conj p q : q_dot p p = 1 -> q_add (conj p) (q_add p q) = q.
Proof.
  intros P. transitivity (q_mul q (q_dot p p)); [|rewrite P; destruct q as [a b c d]; unfold q_mul; cbn [x4 y4 z4 w4]; f_equal; ring].
  destruct p as [a b c d], q as [e f g h]. unfold conj. quat. f_equal; ring.
Qed.
Lemma acts_app b l m : acts b (l ++ m) = acts (acts b l) m.
Proof. apply fold_left_app. Qed.
Lemma retraced_rotation l : forall b c, ok b -> ok c -> t_rotation c = t_rotation (acts b (drags l)) ->
  t_rotation (acts c (drags (retraced l))) = t_rotation b.
Proof.
  induction l as [|[[[x y] dx] dy] l IH]; intros b c B C E; [exact E|].
  change (acts b (drags ((x, y, dx, dy) :: l))) with (acts (drag_to b x y dx dy) (drags l)) in E.
  unfold retraced. cbn [map rev]. fold (retraced l). unfold drags. rewrite map_app, acts_app. fold (drags (retraced l)).
  change (acts ?z (map _ [(?p, ?q, ?r, ?s)])) with (drag_to z p q r s).
  rewrite drag_rotation by now apply drags_ok. rewrite (IH (drag_to b x y dx dy) c (TrackballFacts.drag_ok _ _ _ _ _ B) C E).
  rewrite drag_rotation by exact B. rewrite rotate_back. apply q_conj, rotate_by_unit.
Qed.
Lemma retraced_model theta phi h l : let b := acts (new_trackball theta phi) h in
  t_model (acts b (drags l ++ drags (retraced l))) = t_model b.
Proof.
  cbv zeta. set (b := acts _ h). assert (B : ok b) by (apply acts_ok, new_ok). clearbody b. rewrite acts_app.
  destruct (drags_ok (retraced l) _ (drags_ok l b B)) as [_ ->]. destruct (B) as [_ ->]. f_equal.
  apply retraced_rotation; [exact B|apply drags_ok, B|reflexivity].
Qed.

(** ** One drag, as the camera shows it *)
Lemma composed_matmul A B C : composed A B C -> C = matmul A B.
Proof.
  intros H. pose proof (H (V4 1 0 0 0)) as H0. pose proof (H (V4 0 1 0 0)) as H1. pose proof (H (V4 0 0 1 0)) as H2. pose proof (H (V4 0 0 0 1)) as H3.
  rewrite <- matmul_apply in H0, H1, H2, H3. set (D := matmul A B) in *. clearbody D. revert H0 H1 H2 H3. clear.
  destruct C as [[a b c d] [e f g h] [i j k l] [m n o p]], D as [[a' b' c' d'] [e' f' g' h'] [i' j' k' l'] [m' n' o' p']].
  unfold apply4, dot4. cbn [x4 y4 z4 w4 row0 row1 row2 row3]. intros H0 H1 H2 H3. injection H0. injection H1. injection H2. injection H3. intros.
  f_equal; f_equal; lra.
Qed.
Lemma transpose_matmul A B : transpose (matmul A B) = matmul (transpose B) (transpose A).
Proof. destruct A as [[a0 a1 a2 a3] [b0 b1 b2 b3] [c0 c1 c2 c3] [d0 d1 d2 d3]], B as [[e0 e1 e2 e3] [f0 f1 f2 f3] [g0 g1 g2 g3] [h0 h1 h2 h3]]. mats. entries; ring. Qed.
Lemma turned_back D a u : turns D a u -> turns (transpose D) a (V3 (- x3 u) (- y3 u) (- z3 u)).
Proof.
  intros H p. rewrite (turns_unique _ _ _ H). unfold turn_matrix, sends, turned. destruct u as [x y z], p as [q r s]. mats. entries; ring.
Qed.
Lemma unit_opp v : unit (V3 (- x3 v) (- y3 v) (- z3 v)) = V3 (- x3 (unit v)) (- y3 (unit v)) (- z3 (unit v)).
Proof. unfold unit. rewrite norm_opp. cbn [x3 y3 z3]. f_equal; unfold Rdiv; ring. Qed.
Lemma shown_turns theta phi h x y dx dy : let b := acts (new_trackball theta phi) h in
  dx <> 0 \/ dy <> 0 ->
  let old := V3 x y (project ball_size x y) in
  let new := V3 (x + dx) (y + dy) (project ball_size (x + dx) (y + dy)) in
  cross old new <> zero3 /\
  exists D a, 0 <= a <= PI /\ sin (a / 2) = Rmin 1 (norm (sub3 new old) / (2 * ball_size)) /\
    turns D a (unit (cross old new)) /\ composed D (shown b) (shown (drag_to b x y dx dy)).
Proof.
  cbv zeta. intros N. destruct (drag_composes theta phi h x y dx dy) as [_ H]. destruct (H N) as (A & D & a & R1 & S1 & T1 & C1). clear H.
  assert (X : cross (V3 x y (project ball_size x y)) (V3 (x + dx) (y + dy) (project ball_size (x + dx) (y + dy))) =
    V3 (- x3 (drag_axis x y dx dy)) (- y3 (drag_axis x y dx dy)) (- z3 (drag_axis x y dx dy))).
  { unfold drag_axis, cross. cbn [x3 y3 z3]. f_equal; ring. }
  rewrite X. split.
  { intros Z. apply A. destruct (drag_axis x y dx dy) as [p q r]. unfold zero3 in *. cbn [x3 y3 z3] in Z. injection Z as Z1 Z2 Z3. f_equal; lra. }
  exists (transpose D), a. split; [exact R1|]. split.
  { rewrite S1. unfold drag_length. f_equal. f_equal. rewrite <- norm_opp. f_equal. unfold sub3. cbn [x3 y3 z3]. f_equal; ring. }
  split; [rewrite unit_opp; apply turned_back, T1|].
  intros w. unfold shown. rewrite (composed_matmul _ _ _ C1), transpose_matmul. apply matmul_apply.
Qed.

(** A turn carries a place to another of the same length when its angle is that between them. *)
Lemma turn_carries l m r a : 0 < r -> dot l l = r * r -> dot m m = r * r -> cross l m <> zero3 -> 0 <= a <= PI ->
  sin (a / 2) = norm (sub3 m l) / (2 * r) -> turned a (unit (cross l m)) l = m.
Proof.
  intros R0 L M N A SA. assert (CA : cos a = dot l m / (r * r)).
  { replace a with (2 * (a / 2)) by field. rewrite cos_2a_sin, SA.
    assert (Q : norm (sub3 m l) * norm (sub3 m l) = dot (sub3 m l) (sub3 m l)) by (apply sqrt_sqrt; unfold dot; nra).
    assert (Q' : dot (sub3 m l) (sub3 m l) = 2 * (r * r) - 2 * dot l m).
    { transitivity (dot l l + dot m m - 2 * dot l m); [|rewrite L, M; ring]. unfold dot, sub3. cbn [x3 y3 z3]. ring. }
    replace (1 - 2 * (norm (sub3 m l) / (2 * r)) * (norm (sub3 m l) / (2 * r))) with (1 - norm (sub3 m l) * norm (sub3 m l) / (2 * (r * r))) by (field; lra).
    rewrite Q, Q'. field. lra. }
  pose proof (norm_pos _ N) as K. set (k := norm (cross l m)) in *.
  assert (KK : k * k = r * r * (r * r) - dot l m * dot l m).
  { unfold k, norm. rewrite sqrt_sqrt by (unfold dot; nra). rewrite <- L at 1. rewrite <- M. unfold dot, cross. cbn [x3 y3 z3]. ring. }
  assert (SB : sin a = k / (r * r)).
  { pose proof (sc2 a) as SC. assert (S0 : 0 <= sin a) by (apply sin_ge_0; lra).
    assert (P : 0 < k / (r * r)) by (apply Rdiv_lt_0_compat; nra).
    assert (S2 : sin a * sin a = k / (r * r) * (k / (r * r))).
    { assert (sin a * sin a = 1 - cos a * cos a) as -> by lra. rewrite CA.
      replace (k / (r * r) * (k / (r * r))) with (k * k / (r * r * (r * r))) by (field; lra). rewrite KK. field. lra. }
    nra. }
  assert (U : dot (unit (cross l m)) l = 0) by (unfold unit; fold k; unfold dot, cross; cbn [x3 y3 z3]; field; lra).
  unfold turned. rewrite U, SB, CA. unfold unit. fold k. clearbody k. destruct l as [l1 l2 l3], m as [m1 m2 m3]. unfold cross, dot in *. cbn [x3 y3 z3] in *.
  assert (I : r * r <> 0) by nra.
  f_equal; (apply (Rmult_eq_reg_r (r * r)); [|exact I]).
  - transitivity (m1 * (l1 * l1 + l2 * l2 + l3 * l3)); [field; split; lra|rewrite L; ring].
  - transitivity (m2 * (l1 * l1 + l2 * l2 + l3 * l3)); [field; split; lra|rewrite L; ring].
  - transitivity (m3 * (l1 * l1 + l2 * l2 + l3 * l3)); [field; split; lra|rewrite L; ring].
Qed.
Lemma central_square x y : central x y -> x * x + y * y < ball_size * ball_size.
Proof.
  unfold central. intros C. pose proof (sum_sq_nonneg x y) as P. pose proof (sqrt_pos (x * x + y * y)) as Q.
  assert (x * x + y * y = sqrt (x * x + y * y) * sqrt (x * x + y * y)) as -> by (symmetry; apply sqrt_sqrt; exact P).
  set (d := sqrt _) in *. clearbody d. destruct half_sqrt2_bounds as (B & C' & _). pose proof ball_size_pos.
  assert (d < ball_size) by nra. nra.
Qed.
Lemma central_front x y : central x y -> V3 x y (project ball_size x y) = front x y.
Proof.
  intros C. unfold front, project. destruct (Rlt_dec _ _) as [_|N]; [|contradiction]. f_equal. f_equal. rewrite sqrt_sqrt; [reflexivity|apply sum_sq_nonneg].
Qed.
Lemma front_dot x y : central x y -> dot (front x y) (front x y) = ball_size * ball_size.
Proof. intros C. apply central_square in C. unfold dot, front. cbn [x3 y3 z3]. rewrite sqrt_sqrt; lra. Qed.
Lemma drag_follows theta phi h x y dx dy p : let b := acts (new_trackball theta phi) h in
  central x y -> central (x + dx) (y + dy) -> sends (shown b) p (front x y) ->
  sends (shown (drag_to b x y dx dy)) p (front (x + dx) (y + dy)).
Proof.
  cbv zeta. set (b := acts _ h). intros C1 C2 S. destruct (Req_EM_T dx 0) as [E1|E1], (Req_EM_T dy 0) as [E2|E2].
  { subst. destruct (drag_composes theta phi h x y 0 0) as [E _]. fold b in E. unfold shown. rewrite E by auto. replace (x + 0) with x by ring.
    replace (y + 0) with y by ring. exact S. }
  all: assert (N : dx <> 0 \/ dy <> 0) by tauto; destruct (shown_turns theta phi h x y dx dy N) as (NZ & D & a & A & SA & T & K);
    rewrite !central_front in * by assumption; fold b in K; unfold sends in *; rewrite K, S, (T (front x y)); f_equal;
    apply turn_carries with (r := ball_size); try assumption; [exact ball_size_pos|now apply front_dot|now apply front_dot|];
    rewrite SA; apply Rmin_right; apply Rmult_le_reg_r with (2 * ball_size); [pose proof ball_size_pos; lra|];
    unfold Rdiv; rewrite Rmult_assoc, Rinv_l by (pose proof ball_size_pos; lra); rewrite Rmult_1_l, Rmult_1_r.
  all: unfold norm; rewrite <- (sqrt_square (2 * ball_size)) by (pose proof ball_size_pos; lra); apply sqrt_le_1_alt.
  all: pose proof (front_dot _ _ C1) as F1; pose proof (front_dot _ _ C2) as F2; revert F1 F2; generalize (front x y), (front (x + dx) (y + dy)); intros [l1 l2 l3] [m1 m2 m3];
    unfold dot, sub3; cbn [x3 y3 z3]; intros F1 F2; pose proof (Rle_0_sqr (m1 + l1)); pose proof (Rle_0_sqr (m2 + l2)); pose proof (Rle_0_sqr (m3 + l3)); unfold Rsqr in *; lra.
Qed.

(** ** The camera *)
Section Camera.
Context {F : Type} `{EqB F} (figure : nat -> nat).
Notation op := (@op F).
Lemma ball_camera_parts theta phi zdist s (c : @camera F mat trackball) : ball_camera theta phi zdist s = Ok c ->
  exists eye view proj, c = new_camera shown (Some (new_trackball theta phi)) eye view proj /\
    camera_mats (new_trackball theta phi) zdist s = Ok (shown (new_trackball theta phi), view, proj).
Proof.
  unfold ball_camera, camera_mats. destruct (perspective 35 1 1 100 false) as [m|]; cbn [bind]; intros E; [|discriminate]. injection E as <-.
  eexists _, _, _. split; reflexivity.
Qed.
Lemma ball_step (c : @camera F mat trackball) o t : c_ball c = Some t ->
  exists l, c_ball (fst (step drag_event shown figure c o)) = Some (acts t (drags l)).
Proof.
  intros B. destruct o as [v name f|e| |].
  - exists nil. cbn. unfold connect. destruct (kind_of name); exact B.
  - cbn. destruct (mem_nat _ _); [|exists nil; exact B]. unfold on_event. destruct (m_kind e).
    + destruct (c_mouse c) as [[x y]|]; [|exists nil; exact B]. destruct (over c e); [|exists nil; exact B]. rewrite B.
      exists [(inR (m_x e), inR (m_y e), inR (m_x e - x)%Qc, inR (m_y e - y)%Qc)]. reflexivity.
    + exists nil. destruct (over c e); exact B.
    + exists nil. destruct (over c e); exact B.
    + exists nil. exact B.
  - exists nil. exact B.
  - exists nil. cbn [step]. destruct (disconnect_same figure c) as (_ & _ & _ & _ & _ & _ & D & _). rewrite D. exact B.
Qed.
Lemma ball_history theta phi zdist s (c : @camera F mat trackball) h : ball_camera theta phi zdist s = Ok c ->
  exists l, let b := acts (new_trackball theta phi) (drags l) in
    c_ball (camera_steps figure c h) = Some b /\
    camera_mats b zdist s = Ok (c_model (camera_steps figure c h), c_view (camera_steps figure c h), c_proj (camera_steps figure c h)).
Proof.
  intros E. destruct (ball_camera_parts _ _ _ _ _ E) as (eye & view & proj & -> & M). set (c0 := new_camera _ _ _ _ _).
  assert (B : exists l, c_ball (camera_steps figure c0 h) = Some (acts (new_trackball theta phi) (drags l))).
  { induction h as [|o h IH] using rev_ind; [exists nil; reflexivity|]. destruct IH as (l & IH). unfold camera_steps in *.
    rewrite steps_snoc. destruct (ball_step _ o _ IH) as (l' & K). exists (l ++ l')%list. rewrite K. unfold drags. now rewrite map_app, acts_app. }
  destruct B as (l & B). exists l. cbv zeta. split; [exact B|]. destruct (matrices_kept drag_event shown figure c0 h) as (V & P).
  pose proof (model_ok drag_event shown figure (Some (new_trackball theta phi)) eye view proj h) as I. fold c0 in I. unfold in_step in I.
  unfold camera_steps in *. rewrite B in I. rewrite I, V, P.
  destruct (camera_parts theta phi nil zdist s _ _ _ M) as (A1 & _ & A2). cbn [c0 new_camera c_view c_proj].
  unfold camera_mats. rewrite A1. cbn [bind]. rewrite A2. reflexivity.
Qed.
Lemma dragged theta phi zdist s (c0 : @camera F mat trackball) h v x0 y0 l : ball_camera theta phi zdist s = Ok c0 -> plain h -> last_viewport h = Some v ->
  exists k, let b := acts (new_trackball theta phi) (drags k) in
    c_model (camera_steps figure c0 h) = shown b /\
    c_model (camera_steps figure c0 (h ++ Mouse (press figure v x0 y0) :: map (fun '(x, y) => Mouse (motion figure v x y)) l)) =
    shown (follow drag_event v b x0 y0 (map (fun '(x, y) => motion figure v x y) l)).
Proof.
  intros E P L. destruct (ball_history _ _ _ _ _ h E) as (k & B & M). exists k. cbv zeta.
  destruct (ball_camera_parts _ _ _ _ _ E) as (eye & view & proj & -> & _).
  set (b := acts _ _) in *. split; [exact (proj1 (proj2 (camera_parts theta phi (drags k) zdist s _ _ _ M)))|].
  pose proof (CameraFacts.drag_ok drag_event shown figure (new_trackball theta phi) eye view proj h v (press figure v x0 y0) (map (fun '(x, y) => motion figure v x y) l) b P L eq_refl eq_refl) as D.
  unfold seen, press in D. cbn [m_inaxes] in D. rewrite Nat.eqb_refl in D. specialize (D eq_refl).
  assert (FA : Forall (fun e => m_kind e = Motion /\ m_figure e = figure v) (map (fun '(x, y) => motion figure v x y) l)).
  { apply Forall_forall. intros e I. apply in_map_iff in I. destruct I as ([x y] & <- & _). split; reflexivity. }
  specialize (D FA B). destruct D as [_ D]. unfold camera_steps. rewrite map_map in D. cbn [m_x m_y] in D.
  erewrite map_ext in D; [exact D|]. intros [x y]. reflexivity.
Qed.
Lemma follow_motion v b x0 y0 x y l : follow drag_event v b x0 y0 (motion figure v x y :: l) =
  follow drag_event v (drag_event b x y (x - x0)%Qc (y - y0)%Qc) x y l.
Proof. cbn [follow]. unfold seen. cbn [motion m_inaxes m_x m_y]. now rewrite Nat.eqb_refl. Qed.
Lemma beyond theta phi zdist s (c0 : @camera F mat trackball) h v x0 y0 x y p : ball_camera theta phi zdist s = Ok c0 -> plain h -> last_viewport h = Some v ->
  let dx := inR x - inR x0 in let dy := inR y - inR y0 in
  central (inR x) (inR y) -> central (inR x + dx) (inR y + dy) ->
  sends (c_model (camera_steps figure c0 h)) p (front (inR x) (inR y)) ->
  sends (c_model (camera_steps figure c0 (h ++ [Mouse (press figure v x0 y0); Mouse (motion figure v x y)]))) p (front (inR x + dx) (inR y + dy)).
Proof.
  intros E P L dx dy C1 C2 S. destruct (dragged _ _ _ _ _ h v x0 y0 [(x, y)] E P L) as (k & M & M'). cbn [map] in M'. rewrite M'. rewrite M in S.
  rewrite follow_motion. cbn [follow]. unfold drag_event. rewrite !inR_minus. apply drag_follows; assumption.
Qed.
End Camera.

Lemma block_dot m p q : rotation m -> dot (block (transpose m) p) (block (transpose m) q) = dot p q.
Proof.
  destruct m as [[a0 a1 a2 a3] [b0 b1 b2 b3] [c0 c1 c2 c3] r3]. destruct p as [x y z], q as [x' y' z'].
  unfold rotation, only_block, dot4, dot, block, transpose. cbn [x3 y3 z3 x4 y4 z4 w4 row0 row1 row2 row3].
  intros ((E1 & E2 & E3 & _) & A & B & C & AB & AC & BC & _). subst a3 b3 c3.
  transitivity (x * x' * (a0 * a0 + a1 * a1 + a2 * a2 + 0 * 0) + y * y' * (b0 * b0 + b1 * b1 + b2 * b2 + 0 * 0) + z * z' * (c0 * c0 + c1 * c1 + c2 * c2 + 0 * 0)
    + (x * y' + y * x') * (a0 * b0 + a1 * b1 + a2 * b2 + 0 * 0) + (x * z' + z * x') * (a0 * c0 + a1 * c1 + a2 * c2 + 0 * 0)
    + (y * z' + z * y') * (b0 * c0 + b1 * c1 + b2 * c2 + 0 * 0)); [ring|].
  rewrite A, B, C, AB, AC, BC. ring.
Qed.
Lemma point_inj p q : point p = point q -> p = q.
Proof. destruct p, q. unfold point. cbn [Glm.x3 Glm.y3 Glm.z3]. intros E. injection E as -> -> ->. reflexivity. Qed.
Lemma shown_block theta phi l p q : let b := acts (new_trackball theta phi) l in sends (shown b) p q <-> q = block (shown b) p.
Proof.
  cbv zeta. destruct (acts_conj theta phi l) as [_ [O _]]. unfold sends, shown. rewrite block_sends by exact O. split; [intros E; symmetry; now apply point_inj|now intros ->].
Qed.
(** Two things seen keep their distance. *)
Lemma shown_dots theta phi l l' p q p1 q1 p2 q2 : let b := acts (new_trackball theta phi) l in let b' := acts (new_trackball theta phi) l' in
  sends (shown b) p p1 -> sends (shown b) q q1 -> sends (shown b') p p2 -> sends (shown b') q q2 -> dot p1 q1 = dot p2 q2.
Proof.
  cbv zeta. rewrite !shown_block. intros -> -> -> ->. unfold shown. rewrite !block_dot; [reflexivity|apply acts_conj|apply acts_conj].
Qed.
Lemma shown_onto theta phi l q : exists p, sends (shown (acts (new_trackball theta phi) l)) p q.
Proof.
  exists (block (t_model (acts (new_trackball theta phi) l)) q). apply shown_block. unfold shown. rewrite block_back; [reflexivity|apply acts_conj].
Qed.
Lemma central_small x : -3 / 10 <= x <= 3 / 10 -> central x 0.
Proof.
  intros X. unfold central. rewrite <- (sqrt_square (ball_size * half_sqrt2)) by (unfold ball_size, half_sqrt2; lra).
  apply sqrt_lt_1_alt. unfold ball_size, half_sqrt2. split; nra.
Qed.
Definition tenth : Qc := Q2Qc (1 # 10).
Lemma inR_tenth : inR tenth = 1 / 10.
Proof. unfold inR, tenth. transitivity (Q2R (1 # 10)); [apply Qreals.Qeq_eqR, Qred_correct|unfold Q2R; cbn; lra]. Qed.

Section Refuted.
Context {F : Type} `{EqB F} (figure : nat -> nat).
Notation op := (@op F).
Lemma not_followed theta phi zdist s (c0 : @camera F mat trackball) h v : ball_camera theta phi zdist s = Ok c0 -> plain h -> last_viewport h = Some v ->
  exists p, sends (c_model (camera_steps figure c0 h)) p (front 0 0) /\
    ~ sends (c_model (camera_steps figure c0 (h ++ [Mouse (press figure v 0%Qc 0%Qc); Mouse (motion figure v tenth 0%Qc)]))) p (front (1 / 10) 0).
Proof.
  intros E P L. destruct (dragged figure _ _ _ _ _ h v 0%Qc 0%Qc [(tenth, 0%Qc)] E P L) as (k & M & M'). cbn [map] in M'. rewrite M', M.
  rewrite follow_motion. cbn [follow]. unfold drag_event. rewrite !inR_minus, inR_tenth, inR_0. clear M M'.
  destruct (shown_onto theta phi (drags k) (front 0 0)) as (p & S). exists p. split; [exact S|]. intros S'.
  destruct (shown_onto theta phi (drags k) (front (1 / 10) 0)) as (q & T).
  pose proof (drag_follows theta phi (drags k) (1 / 10) 0 (1 / 10 - 0) (0 - 0) q (central_small (1 / 10) ltac:(lra))) as T'. cbv zeta in T'.
  replace (1 / 10 + (1 / 10 - 0)) with (2 / 10) in T' by field. replace (0 + (0 - 0)) with 0 in T' by ring.
  specialize (T' (central_small (2 / 10) ltac:(lra)) T).
  change (drag_to (acts (new_trackball theta phi) (drags k)) (1 / 10) 0 (1 / 10 - 0) (0 - 0))
    with (acts (acts (new_trackball theta phi) (drags k)) [Drag (1 / 10) 0 (1 / 10 - 0) (0 - 0)]) in S', T'. rewrite <- acts_app in S', T'.
  pose proof (shown_dots theta phi _ _ p q _ _ _ _ S T S' T') as D. unfold dot, front in D. cbn [x3 y3 z3] in D.
  assert (RS : 63 / 100 < ball_size * ball_size < 65 / 100) by (unfold ball_size; lra). pose proof ball_size_pos as R0.
  replace (ball_size * ball_size - (0 * 0 + 0 * 0)) with (ball_size * ball_size) in D by ring. rewrite sqrt_square in D by lra.
  set (r := ball_size) in *. clearbody r.
  pose proof (sqrt_sqrt (r * r - (1 / 10 * (1 / 10) + 0 * 0)) ltac:(lra)) as Z1. pose proof (sqrt_sqrt (r * r - (2 / 10 * (2 / 10) + 0 * 0)) ltac:(lra)) as Z2.
  pose proof (sqrt_pos (r * r - (1 / 10 * (1 / 10) + 0 * 0))) as P1. pose proof (sqrt_pos (r * r - (2 / 10 * (2 / 10) + 0 * 0))) as P2.
  set (a := sqrt (r * r - (1 / 10 * (1 / 10) + 0 * 0))) in *. set (b := sqrt (r * r - (2 / 10 * (2 / 10) + 0 * 0))) in *. clearbody a b.
  assert (G : 2 * a = r + b) by nra. assert (Q : 4 * (a * a) = (r + b) * (r + b)) by (rewrite <- G; ring).
  assert (Q2 : r * r = r * b) by lra. assert (r = b) by nra. subst b. lra.
Qed.
Lemma not_back theta phi zdist s (c0 : @camera F mat trackball) h v : ball_camera theta phi zdist s = Ok c0 -> plain h -> last_viewport h = Some v ->
  c_model (camera_steps figure c0 (h ++ [Mouse (press figure v 0%Qc 0%Qc); Mouse (motion figure v tenth 0%Qc); Mouse (motion figure v 0%Qc 0%Qc)])) <>
  c_model (camera_steps figure c0 h).
Proof.
  intros E P L. destruct (dragged figure _ _ _ _ _ h v 0%Qc 0%Qc [(tenth, 0%Qc); (0%Qc, 0%Qc)] E P L) as (k & M & M'). cbn [map] in M'. rewrite M', M.
  rewrite !follow_motion. cbn [follow]. unfold drag_event. rewrite !inR_minus, inR_tenth, inR_0. clear M M'. intros X.
  set (b := acts (new_trackball theta phi) (drags k)) in *.
  set (b1 := drag_to b (1 / 10) 0 (1 / 10 - 0) (0 - 0)) in *.
  assert (B1 : b1 = acts (new_trackball theta phi) (drags k ++ [Drag (1 / 10) 0 (1 / 10 - 0) (0 - 0)])) by now rewrite acts_app.
  destruct (shown_onto theta phi (drags k) (front (1 / 10) 0)) as (q & T). fold b in T.
  pose proof (drag_follows theta phi (drags k) (1 / 10) 0 (1 / 10 - 0) (0 - 0) q (central_small (1 / 10) ltac:(lra))) as T'. cbv zeta in T'. fold b in T'. fold b1 in T'.
  replace (1 / 10 + (1 / 10 - 0)) with (2 / 10) in T' by field. replace (0 + (0 - 0)) with 0 in T' by ring.
  specialize (T' (central_small (2 / 10) ltac:(lra)) T).
  destruct (shown_onto theta phi (drags k ++ [Drag (1 / 10) 0 (1 / 10 - 0) (0 - 0)]) (front 0 0)) as (p & S). rewrite <- B1 in S.
  pose proof (drag_follows theta phi (drags k ++ [Drag (1 / 10) 0 (1 / 10 - 0) (0 - 0)]) 0 0 (0 - 1 / 10) (0 - 0) p (central_small 0 ltac:(lra))) as S'. cbv zeta in S'. rewrite <- B1 in S'.
  replace (0 + (0 - 1 / 10)) with (- 1 / 10) in S' by field. replace (0 + (0 - 0)) with 0 in S' by ring.
  specialize (S' (central_small (- 1 / 10) ltac:(lra)) S). rewrite X in S'.
  assert (D : dot (front (1 / 10) 0) (front (- 1 / 10) 0) = dot (front (2 / 10) 0) (front 0 0)).
  { rewrite B1 in T', S. unfold b in T, S'. exact (shown_dots theta phi _ _ q p _ _ _ _ T S' T' S). }
  clear - D. unfold dot, front in D. cbn [x3 y3 z3] in D.
  assert (RS : 63 / 100 < ball_size * ball_size < 65 / 100) by (unfold ball_size; lra). pose proof ball_size_pos as R0.
  replace (ball_size * ball_size - (0 * 0 + 0 * 0)) with (ball_size * ball_size) in D by ring. rewrite sqrt_square in D by lra.
  set (r := ball_size) in *. clearbody r.
  replace (r * r - (- 1 / 10 * (- 1 / 10) + 0 * 0)) with (r * r - (1 / 10 * (1 / 10) + 0 * 0)) in D by field.
  rewrite sqrt_sqrt in D by lra.
  pose proof (sqrt_sqrt (r * r - (2 / 10 * (2 / 10) + 0 * 0)) ltac:(lra)) as Z2.
  set (z := sqrt (r * r - (2 / 10 * (2 / 10) + 0 * 0))) in *. clearbody z.
  assert (Q : z * r = r * r - 2 / 100) by lra. assert (QQ : z * z * (r * r) = (r * r - 2 / 100) * (r * r - 2 / 100)) by (rewrite <- Q; ring).
  rewrite Z2 in QQ. lra.
Qed.
End Refuted.
Lemma events_in_view {F : Type} `{EqB F} (figure : nat -> nat) theta phi zdist s (c0 : @camera F mat trackball) h v i v' p :
  ball_camera theta phi zdist s = Ok c0 -> 0 < zdist -> Rabs s * norm p <= zdist * sin half_angle ->
  resize v i = Ok v' -> (1 <= p_zoom v)%Qc -> ViewportSpec.positive v' ->
  let c := camera_steps figure c0 h in in_viewport v' (spot v' (clip (c_model c) (c_view c) (c_proj c) p)).
Proof.
  intros E Z B R0 Q P. cbv zeta. destruct (ball_history figure _ _ _ _ _ h E) as (l & _ & M). exact (camera_in_viewport theta phi (drags l) zdist s _ _ _ v i v' p M Z B R0 Q P).
Qed.
Lemma flat_history {F : Type} `{EqB F} (figure : nat -> nat) (c0 : @camera F mat trackball) h : flat_camera = Ok c0 ->
  let c := camera_steps figure c0 h in flat_mats = Ok (c_model c, c_view c, c_proj c).
Proof.
  cbv zeta. unfold flat_camera. destruct (flat_mats) as [[[m w] p]|] eqn:E; cbn [bind]; intros X; [|discriminate]. injection X as <-.
  unfold camera_steps. destruct (ortho_kept drag_event shown figure m w p h) as [_ ->]. destruct (matrices_kept drag_event shown figure (new_camera shown None m w p) h) as [-> ->]. reflexivity.
Qed.
Lemma ball_camera_ok {F : Type} `{EqB F} theta phi zdist s : exists c : @camera F mat trackball, ball_camera theta phi zdist s = Ok c.
Proof.
  unfold ball_camera. destruct (camera_ok (new_trackball theta phi) zdist s) as (m & w & p & ->). cbn [bind]. eauto.
Qed.
Lemma flat_camera_ok {F : Type} `{EqB F} (v : Viewport.viewport) : exists c : @camera F mat trackball, flat_camera = Ok c.
Proof. unfold flat_camera. destruct (flat_suits v) as (m & w & p & -> & _). cbn [bind]. eauto. Qed.
Lemma central_case : central (1 / 10) 0 /\ central (2 / 10) 0 /\ central (inR tenth + (inR tenth - inR 0%Qc)) 0.
Proof. rewrite inR_tenth, inR_0. repeat split; apply central_small; lra. Qed.
