(** Proofs about Samples.v. *)
From Coq Require Import Reals Lra Psatz Lia.
From Verif Require Import Base Registry Measure Viewport ViewportSpec Glm GlmSpec Vec VecSpec Slice Render RenderSpec RenderFacts Picture PictureSpec PictureFacts
  Outline OutlineSpec Relay Gallery GallerySpec GalleryFacts GalleryMade Samples SamplesSpec.
Open Scope R_scope.

Lemma INR_pos n : (1 <= n)%nat -> 0 < INR n.
Proof. intros H. apply lt_0_INR. lia. Qed.
Lemma linspace_length a b n : length (linspace a b n) = n.
Proof. unfold linspace. now rewrite map_length, seq_length. Qed.
Lemma linspace_nth a b n i : (i < n)%nat -> nth_error (linspace a b n) i = Some (a + INR i * ((b - a) / INR (n - 1))).
Proof. intros H. unfold linspace. rewrite nth_error_map, (nth_error_nth' _ 0%nat) by (now rewrite seq_length). now rewrite seq_nth. Qed.
(** The step of a grid of n cells. *)
Lemma grid_step n i a : (i < n)%nat -> INR i * ((1 - 1 / INR n - (-1 + 1 / INR n)) / INR (n - 1)) = a -> a = 2 * INR i / INR n.
Proof.
  intros H <-. destruct n as [|[|n]]; [lia| |].
  - replace i with 0%nat by lia. change (INR 0) with 0. unfold Rdiv. ring.
  - replace (S (S n) - 1)%nat with (S n) by lia. rewrite !S_INR. pose proof (pos_INR n).
    field. split; lra.
Qed.

(** ** The loops *)
Lemma put_at done q rest p : put (done ++ q :: rest) (length done) p = Ok (done ++ p :: rest)%list.
Proof. induction done as [|a done IH]; cbn [app length put]; [reflexivity|]. now rewrite IH. Qed.
Lemma corners_all radius ox oy m thetas : forall done,
  corners radius ox oy (done ++ repeat (V3 0 0 0) (length thetas + m)) (length done) thetas =
  Ok ((done ++ map (fun a => V3 (ox + radius * cos a) (oy + radius * sin a) 0) thetas) ++ repeat (V3 0 0 0) m, (length done + length thetas)%nat)%list.
Proof.
  induction thetas as [|a l IH]; intros done; cbn [corners length map Nat.add repeat].
  - now rewrite app_nil_r, Nat.add_0_r.
  - rewrite put_at. cbn [bind]. specialize (IH (done ++ [V3 (ox + radius * cos a) (oy + radius * sin a) 0])%list).
    rewrite app_length in IH. cbn [length] in IH. rewrite <- !app_assoc in IH. cbn [app] in IH. rewrite IH. rewrite <- app_assoc. cbn [app]. f_equal. f_equal. lia.
Qed.
Lemma open_length b n : length (linspace_open b n) = n.
Proof. unfold linspace_open. now rewrite map_length, seq_length. Qed.
Lemma open_ngon radius ox oy n : map (fun a => V3 (ox + radius * cos a) (oy + radius * sin a) 0) (linspace_open (2 * PI) n) = ngon n ox oy radius.
Proof. unfold linspace_open, ngon. now rewrite map_map. Qed.
Lemma ngon_length m x y r : length (ngon m x y r) = m.
Proof. unfold ngon. now rewrite map_length, seq_length. Qed.
Fixpoint row_polygons (r oy : R) (n : nat) (OX : list R) : list (list vec3) :=
  match OX with [] => [] | ox :: l => ngon n ox oy r :: row_polygons r oy (n + 1) l end.
Fixpoint all_polygons (r : R) (OX : list R) (n : nat) (OY : list R) : list (list vec3) :=
  match OY with [] => [] | oy :: l => (row_polygons r oy n OX ++ all_polygons r OX (n + length OX) l)%list end.
Lemma row_sizes r oy OX : forall n, map (@length vec3) (row_polygons r oy n OX) = seq n (length OX).
Proof. induction OX as [|ox l IH]; intros n; cbn [row_polygons map length seq]; [reflexivity|]. now rewrite ngon_length, IH, Nat.add_1_r. Qed.
Lemma all_sizes r OX OY : forall n, map (@length vec3) (all_polygons r OX n OY) = seq n (length OX * length OY).
Proof.
  induction OY as [|oy l IH]; intros n; cbn [all_polygons map length]; [now rewrite Nat.mul_0_r|].
  rewrite map_app, row_sizes, IH, Nat.mul_succ_r, (Nat.add_comm (length OX * length l)), seq_app. reflexivity.
Qed.
Lemma concat_length (ls : list (list vec3)) : length (concat ls) = fold_right Nat.add 0%nat (map (@length vec3) ls).
Proof. induction ls as [|a l IH]; cbn; [reflexivity|]. now rewrite app_length, IH. Qed.
Lemma columns_all radius oy m OX : forall done n,
  columns radius oy (done ++ repeat (V3 0 0 0) (length (concat (row_polygons radius oy n OX)) + m)) (length done) n OX =
  Ok ((done ++ concat (row_polygons radius oy n OX)) ++ repeat (V3 0 0 0) m, (length done + length (concat (row_polygons radius oy n OX)))%nat, (n + length OX)%nat)%list.
Proof.
  induction OX as [|ox l IH]; intros done n; cbn [columns row_polygons concat length].
  - now rewrite app_nil_r, !Nat.add_0_r.
  - rewrite app_length, <- Nat.add_assoc, ngon_length. pose proof (corners_all radius ox oy (length (concat (row_polygons radius oy (n + 1) l)) + m) (linspace_open (2 * PI) n) done) as K.
    rewrite open_length, open_ngon in K. rewrite K. cbn [bind fst snd].
    specialize (IH (done ++ ngon n ox oy radius)%list (n + 1)%nat). rewrite app_length, ngon_length in IH. rewrite IH. rewrite <- !app_assoc. f_equal. f_equal; [f_equal|]; lia.
Qed.
Lemma lines_all radius OX m OY : forall done n,
  lines radius OX (done ++ repeat (V3 0 0 0) (length (concat (all_polygons radius OX n OY)) + m)) (length done) n OY =
  Ok ((done ++ concat (all_polygons radius OX n OY)) ++ repeat (V3 0 0 0) m, (length done + length (concat (all_polygons radius OX n OY)))%nat, (n + length OX * length OY)%nat)%list.
Proof.
  induction OY as [|oy l IH]; intros done n; cbn [lines all_polygons concat length].
  - now rewrite app_nil_r, Nat.mul_0_r, !Nat.add_0_r.
  - rewrite concat_app, app_length, <- Nat.add_assoc. rewrite columns_all. cbn [bind fst snd].
    specialize (IH (done ++ concat (row_polygons radius oy n OX))%list (n + length OX)%nat). rewrite app_length in IH. rewrite IH. rewrite <- !app_assoc.
    f_equal. f_equal; [f_equal|]; lia.
Qed.
Lemma row_nth r oy OX : forall n c x, nth_error OX c = Some x -> nth_error (row_polygons r oy n OX) c = Some (ngon (n + c) x oy r).
Proof.
  induction OX as [|ox l IH]; intros n [|c] x H; try discriminate H; cbn in *.
  - injection H as ->. now rewrite Nat.add_0_r.
  - rewrite (IH _ _ _ H). do 2 f_equal. lia.
Qed.
Lemma row_length r oy OX n : length (row_polygons r oy n OX) = length OX.
Proof. rewrite <- (map_length (@length vec3)), row_sizes. apply seq_length. Qed.
Lemma all_nth r OX OY : forall n i c x y, nth_error OX c = Some x -> nth_error OY i = Some y ->
  nth_error (all_polygons r OX n OY) (i * length OX + c) = Some (ngon (n + (i * length OX + c)) x y r).
Proof.
  induction OY as [|oy l IH]; intros n [|i] c x y Hx Hy; try discriminate Hy; cbn [all_polygons nth_error] in *.
  - injection Hy as ->. cbn [Nat.mul Nat.add]. rewrite nth_error_app1; [now apply row_nth|]. rewrite row_length. apply nth_error_Some. congruence.
  - rewrite nth_error_app2 by (rewrite row_length; nia). rewrite row_length. replace (S i * length OX + c - length OX)%nat with (i * length OX + c)%nat by lia.
    rewrite (IH _ _ _ _ _ Hx Hy). do 2 f_equal. lia.
Qed.

Lemma cut_concat (ls : list (list vec3)) : cut (concat ls) (map (@length vec3) ls) = ls.
Proof.
  induction ls as [|a l IH]; cbn [concat map cut]; [reflexivity|]. rewrite firstn_app, Nat.sub_diag, firstn_all. cbn [firstn]. rewrite app_nil_r.
  rewrite skipn_app, Nat.sub_diag, skipn_all. cbn [skipn app]. now rewrite IH.
Qed.
(** ** Regular polygons *)
Lemma polygons_placed n : (1 <= n)%nat -> exists P gs, regular n = Ok (P, seq 3 (n * n)) /\
  group P (Sizes (fun z => z) (map Z.of_nat (seq 3 (n * n)))) = Ok gs /\ concat gs = P /\ length gs = (n * n)%nat /\
  forall row column, (row < n)%nat -> (column < n)%nat ->
    nth_error gs (row * n + column) = Some (ngon (3 + (row * n + column)) (middle_x n column) (middle_y n row) (0.85 / INR n)).
Proof.
  intros H. unfold regular. destruct (Nat.eqb_spec n 0) as [|_]; [lia|].
  destruct (seq 3 (n * n)) as [|first rest] eqn:E; [destruct n; [lia|discriminate E]|].
  assert (first = 3%nat) as -> by (destruct n; [lia|]; cbn in E; congruence). rewrite <- E.
  set (radius := 0.85 * (1 / INR n)). set (OX := linspace (-1 + 1 / INR n) (1 - 1 / INR n) n). set (OY := linspace (1 - 1 / INR n) (-1 + 1 / INR n) n).
  assert (Lx : length OX = n) by apply linspace_length. assert (Ly : length OY = n) by apply linspace_length.
  pose proof (lines_all radius OX 0 OY [] 3) as L. cbn [app length] in L. rewrite concat_length, all_sizes, Lx, Ly, Nat.add_0_r in L.
  rewrite L. cbn [bind fst snd repeat]. rewrite app_nil_r.
  eexists. exists (all_polygons radius OX 3 OY). split; [reflexivity|].
  assert (Es : seq 3 (n * n) = map (@length vec3) (all_polygons radius OX 3 OY)) by (now rewrite all_sizes, Lx, Ly).
  split; [|split; [reflexivity|split]].
  - rewrite sizes_group by reflexivity. f_equal. rewrite Es. apply cut_concat.
  - rewrite <- (map_length (@length vec3)), <- Es. apply seq_length.
  - intros row column Hr Hc.
    rewrite <- Lx at 1.
    rewrite (all_nth radius OX OY 3 row column _ _ (linspace_nth _ _ n column Hc) (linspace_nth _ _ n row Hr)). rewrite Lx. do 2 f_equal.
    + unfold middle_x. rewrite (grid_step n column _ Hc eq_refl). field. pose proof (INR_pos n H). lra.
    + unfold middle_y. replace ((-1 + 1 / INR n - (1 - 1 / INR n)) / INR (n - 1)) with (- ((1 - 1 / INR n - (-1 + 1 / INR n)) / INR (n - 1))) by (unfold Rdiv; ring).
      rewrite Ropp_mult_distr_r_reverse, (grid_step n row _ Hr eq_refl). field. pose proof (INR_pos n H). lra.
    + unfold radius. field. pose proof (INR_pos n H). lra.
Qed.
(** Corners are at the radius from the middle. *)
Lemma ngon_in m x y r p : In p (ngon m x y r) -> exists a, p = V3 (x + r * cos a) (y + r * sin a) 0.
Proof. unfold ngon. intros H. apply in_map_iff in H as (k & <- & _). eauto. Qed.
Lemma circle_abs r a : 0 <= r -> Rabs (r * cos a) <= r /\ Rabs (r * sin a) <= r.
Proof.
  intros H. pose proof (COS_bound a). pose proof (SIN_bound a). split; apply Rabs_le; nra.
Qed.
Lemma polygon_inside n row column m p : (row < n)%nat -> (column < n)%nat -> In p (ngon m (middle_x n column) (middle_y n row) (0.85 / INR n)) ->
  in_cell n row column p /\ in_square p /\ z3 p = 0 /\
  (x3 p - middle_x n column) * (x3 p - middle_x n column) + (y3 p - middle_y n row) * (y3 p - middle_y n row) = 0.85 / INR n * (0.85 / INR n).
Proof.
  intros Hr Hc I. apply ngon_in in I as (a & ->). pose proof (INR_pos n ltac:(lia)) as Hn.
  assert (Hi : 0 < / INR n) by (apply Rinv_0_lt_compat; exact Hn).
  destruct (circle_abs (0.85 / INR n) a) as [Ca Sa]; [unfold Rdiv; lra|].
  assert (Cell : in_cell n row column (V3 (middle_x n column + 0.85 / INR n * cos a) (middle_y n row + 0.85 / INR n * sin a) 0)).
  { unfold in_cell. cbn [x3 y3]. split.
    - replace (middle_x n column + 0.85 / INR n * cos a - middle_x n column) with (0.85 / INR n * cos a) by ring. unfold Rdiv in *. lra.
    - replace (middle_y n row + 0.85 / INR n * sin a - middle_y n row) with (0.85 / INR n * sin a) by ring. unfold Rdiv in *. lra. }
  split; [exact Cell|]. split; [|split; [reflexivity|]].
  - destruct Cell as [X Y]. cbn [x3 y3] in X, Y. apply Rabs_def2 in X, Y. unfold in_square. cbn [x3 y3].
    assert (Bx : -1 + 1 / INR n <= middle_x n column <= 1 - 1 / INR n).
    { unfold middle_x. assert (INR column + 1 <= INR n) by (rewrite <- S_INR; apply le_INR; lia). pose proof (pos_INR column).
      assert ((2 * INR column + 1) / INR n <= (2 * INR n - 1) / INR n) by (apply Rmult_le_compat_r; lra).
      assert (1 / INR n <= (2 * INR column + 1) / INR n) by (apply Rmult_le_compat_r; lra).
      replace ((2 * INR n - 1) / INR n) with (2 - 1 / INR n) in * by (field; lra). lra. }
    assert (By : -1 + 1 / INR n <= middle_y n row <= 1 - 1 / INR n).
    { unfold middle_y. assert (INR row + 1 <= INR n) by (rewrite <- S_INR; apply le_INR; lia). pose proof (pos_INR row).
      assert ((2 * INR row + 1) / INR n <= (2 * INR n - 1) / INR n) by (apply Rmult_le_compat_r; lra).
      assert (1 / INR n <= (2 * INR row + 1) / INR n) by (apply Rmult_le_compat_r; lra).
      replace ((2 * INR n - 1) / INR n) with (2 - 1 / INR n) in * by (field; lra). lra. }
    lra.
  - cbn [x3 y3]. pose proof (sin2_cos2 a) as S. unfold Rsqr in S. set (r := 0.85 / INR n). transitivity (r * r * (sin a * sin a + cos a * cos a)); [ring|]. rewrite S. ring.
Qed.
(** No position is in two cells. *)
Lemma cells_apart n r c r' c' p : (1 <= n)%nat -> in_cell n r c p -> in_cell n r' c' p -> r = r' /\ c = c'.
Proof.
  intros H [X Y] [X' Y']. pose proof (INR_pos n H) as Hn. apply Rabs_def2 in X, Y, X', Y'. unfold middle_x, middle_y in *.
  assert (Hi : 0 < / INR n) by (apply Rinv_0_lt_compat; exact Hn). unfold Rdiv in *.
  assert (A : forall a b : nat, (2 * INR a + 1) * / INR n < (2 * INR b + 1) * / INR n + 2 * / INR n -> (a <= b)%nat).
  { intros a b L. apply Nat.nlt_ge. intros Q. assert (INR b + 1 <= INR a) by (rewrite <- S_INR; apply le_INR; lia). nra. }
  split; apply Nat.le_antisymm; apply A; lra.
Qed.

(** ** The spiral and the sphere *)
Lemma combine_nth_error {A B} (l : list A) : forall (m : list B) i a b, nth_error l i = Some a -> nth_error m i = Some b -> nth_error (combine l m) i = Some (a, b).
Proof. induction l as [|x l IH]; intros [|y m] [|i] a b H K; cbn in *; try discriminate; [congruence|]. now apply IH. Qed.
Lemma zip_nth {A B C} (f : A -> B -> C) l m i a b : nth_error l i = Some a -> nth_error m i = Some b -> nth_error (zip f l m) i = Some (f a b).
Proof. intros H K. unfold zip. now rewrite nth_error_map, (combine_nth_error l m i a b H K). Qed.
Lemma zip_length {A B C} (f : A -> B -> C) l m n : length l = n -> length m = n -> length (zip f l m) = n.
Proof. intros H K. unfold zip. rewrite map_length, combine_length, H, K. apply Nat.min_id. Qed.
Lemma share_bounds n i : (i < n)%nat -> 0 <= share n i <= 1.
Proof.
  intros H. unfold share. destruct n as [|[|n]]; [lia| |].
  - cbn [Nat.sub]. replace i with 0%nat by lia. change (INR 0) with 0. unfold Rdiv. rewrite Rmult_0_l. lra.
  - replace (S (S n) - 1)%nat with (S n) by lia. assert (INR i <= INR (S n)) by (apply le_INR; lia). pose proof (pos_INR i). assert (0 < INR (S n)) by (apply lt_0_INR; lia).
    split; [apply Rmult_le_pos; [lra|left; now apply Rinv_0_lt_compat]|]. apply (Rmult_le_reg_r (INR (S n))); [lra|]. unfold Rdiv. rewrite Rmult_assoc, Rinv_l by lra. lra.
Qed.
Lemma share_step a b n i : a + INR i * ((b - a) / INR (n - 1)) = a + share n i * (b - a).
Proof. unfold share, Rdiv. ring. Qed.
Lemma circle_square r a : r * cos a * (r * cos a) + r * sin a * (r * sin a) = r * r.
Proof. pose proof (sin2_cos2 a) as S. unfold Rsqr in S. transitivity (r * r * (sin a * sin a + cos a * cos a)); [ring|]. rewrite S. ring. Qed.
Lemma spiral_each n i : (i < n)%nat -> exists p, nth_error (spiral n) i = Some p /\
  p = V3 (from_axis p * cos (share n i * (20.25 * PI))) (from_axis p * sin (share n i * (20.25 * PI))) 0 /\
  from_axis p = 0.05 + share n i * 0.9 /\ in_square p.
Proof.
  intros H. pose proof (share_bounds n i H) as B. unfold spiral. rewrite (zip_nth _ _ _ _ _ _ (linspace_nth _ _ n i H) (linspace_nth _ _ n i H)).
  rewrite !share_step. eexists. split; [reflexivity|].
  set (r := 0.05 + share n i * (0.95 - 0.05)). set (t := 0 + share n i * (10.125 * 2 * PI - 0)).
  replace (share n i * (20.25 * PI)) with t by (unfold t; lra).
  assert (E : from_axis (V3 (r * cos t) (r * sin t) 0) = r).
  { unfold from_axis. cbn [x3 y3]. rewrite circle_square. apply sqrt_square. unfold r. lra. }
  rewrite E. split; [reflexivity|]. split; [unfold r; lra|]. destruct (circle_abs r t) as [X Y]; [unfold r; lra|].
  assert (r <= 0.95) by (unfold r; lra).
  unfold in_square. cbn [x3 y3]. pose proof (Rle_abs (r * cos t)). pose proof (Rle_abs (r * sin t)).
  pose proof (Rle_abs (- (r * cos t))) as X'. pose proof (Rle_abs (- (r * sin t))) as Y'. rewrite Rabs_Ropp in X', Y'. lra.
Qed.
Lemma spiral_attributes n i : (i < n)%nat -> nth_error (spiral_sizes n) i = Some ((0.05 + share n i * 11.95) * (0.05 + share n i * 11.95)) /\
  nth_error (spiral_angles n) i = Some (share n i * 3645).
Proof.
  intros H. unfold spiral_sizes, spiral_angles. rewrite !nth_error_map, !(linspace_nth _ _ n i H), !share_step. cbn [option_map]. split; f_equal; [lra|].
  field_simplify; [lra|apply PI_neq0].
Qed.
Lemma attributes_length n : length (spiral_sizes n) = n /\ length (spiral_angles n) = n.
Proof. unfold spiral_sizes, spiral_angles. now rewrite !map_length, !linspace_length. Qed.
Lemma spiral_length n : length (spiral n) = n.
Proof. apply zip_length; apply linspace_length. Qed.
Lemma sphere_each n i : (i < n)%nat -> exists p, nth_error (sphere n) i = Some p /\ from_origin p = 1 /\ z3 p = 1 - (2 * INR i + 1) / INR n /\ -1 < z3 p < 1.
Proof.
  intros H. unfold sphere. pose proof (INR_pos n ltac:(lia)) as Hn. pose proof (pos_INR i). assert (INR i + 1 <= INR n) by (rewrite <- S_INR; apply le_INR; lia).
  rewrite (zip_nth _ _ _ i (PI * (3 - sqrt 5) * INR i) (1 - (2 * INR i + 1) / INR n)); [|now rewrite nth_error_map, (nth_error_nth' _ 0%nat), seq_nth by (rewrite ?seq_length; exact H)|].
  - assert (Z : 0 < (2 * INR i + 1) / INR n < 2).
    { split; [apply Rmult_lt_0_compat; [lra|now apply Rinv_0_lt_compat]|]. apply (Rmult_lt_reg_r (INR n)); [lra|]. unfold Rdiv. rewrite Rmult_assoc, Rinv_l by lra. lra. }
    set (z := 1 - (2 * INR i + 1) / INR n) in *. assert (Hz : -1 < z < 1) by (unfold z; lra). eexists. split; [reflexivity|]. cbn [z3].
    split; [|split; [reflexivity|exact Hz]]. unfold from_origin. cbn [x3 y3 z3]. set (t := PI * (3 - sqrt 5) * INR i).
    rewrite (Rplus_comm (_ * sin t * _)), circle_square, sqrt_sqrt by nra. replace (1 - z * z + z * z) with 1 by ring. apply sqrt_1.
  - rewrite (linspace_nth _ _ n i H). f_equal.
    replace ((1 / INR n - 1 - (1 - 1 / INR n)) / INR (n - 1)) with (- ((1 - 1 / INR n - (-1 + 1 / INR n)) / INR (n - 1))) by (unfold Rdiv; ring).
    rewrite Ropp_mult_distr_r_reverse, (grid_step n i _ H eq_refl). field. lra.
Qed.
Lemma sphere_length n : length (sphere n) = n.
Proof. apply zip_length; [now rewrite map_length, seq_length|apply linspace_length]. Qed.

(** ** Segments and the curve *)
Lemma flat_pairs {A B} (f g : A -> B) l : forall i x, nth_error l i = Some x ->
  nth_error (flat_map (fun x => [f x; g x]) l) (2 * i) = Some (f x) /\ nth_error (flat_map (fun x => [f x; g x]) l) (2 * i + 1) = Some (g x).
Proof.
  induction l as [|a l IH]; intros [|i] x H; try discriminate H; cbn [nth_error] in H.
  - injection H as ->. auto.
  - replace (2 * S i)%nat with (S (S (2 * i))) by lia. cbn [flat_map app nth_error]. exact (IH i x H).
Qed.
Lemma pairs_length {A B} (f g : A -> B) l : length (flat_map (fun x => [f x; g x]) l) = (2 * length l)%nat.
Proof. induction l as [|a l IH]; [reflexivity|]. cbn [flat_map app length]. rewrite IH. lia. Qed.
Lemma slanted_each n i : (i < n)%nat -> exists p q, nth_error (slanted n) (2 * i) = Some p /\ nth_error (slanted n) (2 * i + 1) = Some q /\
  p = V3 (-0.75 + share n i * 1.5) (-0.5) 0 /\ q = V3 (x3 p + 0.1) 0.5 0 /\ in_square p /\ in_square q.
Proof.
  intros H. pose proof (share_bounds n i H). unfold slanted.
  destruct (flat_pairs (fun x => V3 x (-0.5) 0) (fun x => V3 (x + 0.1) 0.5 0) _ i _ (linspace_nth (-0.75) 0.75 n i H)) as [-> ->].
  rewrite share_step. do 2 eexists. split; [reflexivity|]. split; [reflexivity|]. cbn [x3]. split; [f_equal; lra|]. split; [reflexivity|]. unfold in_square. cbn [x3 y3]. lra.
Qed.
Lemma slanted_length n : length (slanted n) = (2 * n)%nat.
Proof. unfold slanted. now rewrite pairs_length, linspace_length. Qed.
Lemma curve_each n i : (i < n)%nat -> exists p, nth_error (curve n) i = Some p /\ in_square p /\ z3 p = 0 /\
  exists t, t = -7.4 + share n i * 6.9 /\ p = V3 (0.9 * sin t) (0.9 * cos (1.6 * t)) 0.
Proof.
  intros H. unfold curve. rewrite nth_error_map, (linspace_nth _ _ n i H), share_step. cbn [option_map]. eexists. split; [reflexivity|]. set (t := -7.4 + _).
  split; [|split; [reflexivity|exists t; split; [unfold t; lra|reflexivity]]].
  unfold in_square. cbn [x3 y3]. pose proof (SIN_bound t). pose proof (COS_bound (1.6 * t)). lra.
Qed.
Lemma curve_length n : length (curve n) = n.
Proof. unfold curve. rewrite map_length. apply linspace_length. Qed.
Lemma two_app l : forall n, by_two (flat_map (fun i => [i; S i]) (seq n l)) = Ok (map (fun i => [i; S i]) (seq n l)).
Proof. induction l as [|l IH]; intros n; [reflexivity|]. cbn [seq flat_map app by_two map]. rewrite IH. reflexivity. Qed.
Lemma twice_from l : forall n, flat_map (fun i => [i; i]) (seq n (S l)) = (n :: flat_map (fun i => [i; S i]) (seq n l) ++ [n + l])%list%nat.
Proof.
  induction l as [|l IH]; intros n; [cbn; now rewrite Nat.add_0_r|].
  change (flat_map (fun i => [i; i]) (seq n (S (S l)))) with (n :: n :: flat_map (fun i => [i; i]) (seq (S n) (S l)))%list. rewrite IH.
  cbn [seq flat_map app]. do 3 f_equal. rewrite Nat.add_succ_r. reflexivity.
Qed.
Lemma curve_pairs n : curve_parts n = Ok (map (fun i => [i; S i]) (seq 0 (n - 1))).
Proof.
  unfold curve_parts, twice. destruct n as [|n]; [reflexivity|]. rewrite twice_from. cbn [tl]. rewrite removelast_last. replace (S n - 1)%nat with n by lia. apply two_app.
Qed.

(** ** The cube *)
Lemma cube_corner p : is_corner p <-> In p cube.
Proof.
  split.
  - destruct p as [x y z]. intros (X & Y & Z). cbn [x3 y3 z3] in *.
    assert (A : forall r, Rabs r = 1 -> r = 1 \/ r = -1) by (intros r E; unfold Rabs in E; destruct (Rcase_abs r); lra).
    destruct (A x X) as [-> | ->], (A y Y) as [-> | ->], (A z Z) as [-> | ->]; cbn; auto 12.
  - cbn. unfold is_corner. intros H. repeat (destruct H as [<-|H]; [cbn [x3 y3 z3]; repeat split; unfold Rabs; destruct (Rcase_abs _); lra|]). destruct H.
Qed.
Lemma cube_distinct : NoDup cube.
Proof. unfold cube. repeat constructor; cbn; intros H; repeat (destruct H as [H|H]; [injection H; intros; lra|]); exact H. Qed.

Ltac member := first [left; reflexivity | right; member].
Lemma edges_joined i j p q : nth_error cube i = Some p -> nth_error cube j = Some q -> (joined p q <-> In [i; j] cube_edges \/ In [j; i] cube_edges).
Proof.
  intros Hi Hj. unfold cube in Hi, Hj.
  do 8 (destruct i as [|i]; [injection Hi as <-; do 8 (destruct j as [|j]; [injection Hj as <-; clear;
     (split; [intros J; first [left; cbn; member | right; cbn; member | exfalso; unfold joined in J; cbn [x3 y3 z3] in J; lra]
             |intros [J|J]; cbn in J; repeat (destruct J as [J|J]; [first [discriminate J | unfold joined; cbn [x3 y3 z3]; lra]|]); destruct J])|]);
     destruct j; discriminate Hj|]).
  destruct i; discriminate Hi.
Qed.
Lemma edges_once : NoDup cube_edges /\ length cube_edges = 12%nat /\ forall i j, In [i; j] cube_edges -> ~ In [j; i] cube_edges.
Proof.
  split; [|split; [reflexivity|]].
  - unfold cube_edges. repeat constructor; cbn; intros H; repeat (destruct H as [H|H]; [discriminate H|]); exact H.
  - intros i j H K. cbn in H, K. repeat (destruct H as [H|H]; [injection H as <- <-; repeat (destruct K as [K|K]; [discriminate K|]); exact K|]). exact H.
Qed.

(** ** What is drawn *)
Lemma spot_inside v p : inR (span_x v) = 2 -> inR (span_y v) = 2 -> 0 <= side_x v -> 0 <= side_y v -> in_square p -> in_viewport v (spot v (point p)).
Proof.
  intros Sx Sy X Y [A B]. unfold in_viewport, spot. cbn [point w4 x4 y4]. destruct (Req_EM_T 1 0) as [E|_]; [lra|]. do 2 eexists. split; [reflexivity|].
  unfold middle, unit_x, unit_y. cbn [fst snd]. rewrite Sx, Sy. replace (x3 p / 1) with (x3 p) by field. replace (y3 p / 1) with (y3 p) by field. nra.
Qed.
Lemma grid_split n j : (1 <= n)%nat -> (j < n * n)%nat -> (j / n < n)%nat /\ (j mod n < n)%nat /\ j = (j / n * n + j mod n)%nat.
Proof.
  intros H L. split; [apply Nat.div_lt_upper_bound; lia|]. split; [apply Nat.mod_upper_bound; lia|]. pose proof (Nat.div_mod j n). lia.
Qed.
Lemma sum_lower a l : (length l * a <= fold_right Nat.add 0 l)%nat \/ exists x, In x l /\ (x < a)%nat.
Proof.
  induction l as [|x l [IH|(y & I & L)]]; [now left| |right; exists y; split; [now right|exact L]].
  destruct (Nat.lt_ge_cases x a) as [L|L]; [right; exists x; split; [now left|exact L]|]. left. cbn. lia.
Qed.
Lemma nth_error_ext_len {A} (l : list A) : forall m, length l = length m -> (forall j, (j < length l)%nat -> nth_error l j = nth_error m j) -> l = m.
Proof.
  induction l as [|a l IH]; intros [|b m] H K; try discriminate H; [reflexivity|]. f_equal.
  - specialize (K 0%nat ltac:(cbn; lia)). cbn in K. congruence.
  - apply IH; [now injection H|]. intros j L. apply (K (S j)). cbn. lia.
Qed.
Lemma new_spans f x y w h v : new_viewport f x y w h = Ok v -> inR (span_x v) = 2 /\ inR (span_y v) = 2.
Proof.
  intros N. unfold new_viewport in N. destruct (update _) as [u|]; cbn [bind] in N; [|discriminate N]. injection N as <-. unfold span_x, span_y. cbn [p_xlim p_ylim].
  split; vm_compute; lra.
Qed.
Section Drawn.
  Context (code whole : Vec.num -> Z) (argsort : list Vec.num -> list nat).
  Lemma polygons_shown fg vx vy vw vh v V n P I vars k l f e w fill line width : (1 <= n)%nat -> n <> 2%nat -> regular n = Ok (P, I) ->
    sorts_numbers argsort -> new_viewport fg vx vy vw vh = Ok v -> 0 <= side_x v -> 0 <= side_y v -> PictureSpec.holds V P ->
    dget vars "positions"%string = Some (Array (Ok V) (Z.of_nat (length P))) ->
    dget vars "indices"%string = Some (Array (Ok (mkA k (Flat l))) (Z.of_nat (length l))) -> map whole l = map Z.of_nat I ->
    dget vars "fill_colors"%string = Some f -> colors code f = Ok (Row fill) -> length fill = 4%nat ->
    dget vars "line_colors"%string = Some e -> colors code e = Ok (Row line) -> length line = 4%nat ->
    dget vars "line_widths"%string = Some w -> numbers code w = Ok (Whole width) ->
    exists order out, paint_all code whole argsort "visual.Polygons" v vars = Ok (Lines out) /\ visits (n * n) order /\ length out = (n * n)%nat /\
      forall a j, nth_error order a = Some j -> exists s, nth_error out a = Some (s, [Some fill; Some line; Some [width]]) /\
        s = map (fun p => spot v (point p)) (ngon (3 + j) (middle_x n (j mod n)) (middle_y n (j / n)) (0.85 / INR n)) /\
        length s = (3 + j)%nat /\ Forall (in_viewport v) s.
  Proof.
    intros Hn N2 R SORT Nv X Y H Dp Di Wl Df Ef Lf De Ee Le Dw Ew.
    pose proof (new_usable _ _ _ _ _ _ Nv) as U. destruct (new_spans _ _ _ _ _ _ Nv) as [Sx Sy].
    destruct (polygons_placed n Hn) as (P' & gs & R' & G & Cg & Lg & Ng). rewrite R in R'. injection R' as <- ->.
    assert (Big : length P <> 4%nat /\ length gs <> 4%nat).
    { rewrite Lg, <- Cg, concat_length.
      assert (Es : fold_right Nat.add 0%nat (map (@length vec3) gs) = fold_right Nat.add 0%nat (seq 3 (n * n))).
      { f_equal. apply nth_error_ext_len; [now rewrite map_length, seq_length|]. intros j Hj. rewrite map_length, Lg in Hj.
        destruct (grid_split n j Hn Hj) as (A & B & E). rewrite nth_error_map. rewrite E at 1. rewrite (Ng _ _ A B), <- E. cbn [option_map]. rewrite ngon_length.
        rewrite (nth_error_nth' _ 0%nat) by (now rewrite seq_length). now rewrite seq_nth. }
      rewrite Es. destruct (Nat.eq_dec n 1) as [->|N1]; [cbn; lia|]. destruct (sum_lower 3 (seq 3 (n * n))) as [Q|(x & I & L)].
      - rewrite seq_length in Q. nia.
      - apply in_seq in I. lia. }
    destruct (polygons_paint code whole argsort v V P vars _ (Sizes (fun z => z) (map Z.of_nat (seq 3 (n * n)))) gs f e w (Row fill) (Row line) (Whole width) SORT U H Dp Di) as (order & out & O & Vi & _ & M); auto.
    - right. exists k, l. split; [reflexivity|]. now rewrite Wl.
    - intros ->. cbn in Lg. nia.
    - destruct Big. repeat constructor; cbn; congruence.
    - rewrite Lg in Vi. exists order, out. split; [exact O|]. split; [exact Vi|].
      assert (Lo : length order = (n * n)%nat) by (rewrite (Permutation.Permutation_length Vi); apply seq_length).
      split; [rewrite <- Lo, <- (map_length Some), M; apply map_length|].
      intros a j Ha. assert (Hj : (j < n * n)%nat) by (apply nth_error_In in Ha; apply (Permutation.Permutation_in _ Vi) in Ha; apply in_seq in Ha; lia).
      destruct (grid_split n j Hn Hj) as (A & B & E). pose proof (Ng _ _ A B) as G'. rewrite <- E in G'.
      remember (map (fun p => spot v (point p)) (ngon (3 + j) (middle_x n (j mod n)) (middle_y n (j / n)) (0.85 / INR n))) as s eqn:Es.
      assert (K : nth_error (map Some out) a = Some (Some (s, [Some fill; Some line; Some [width]]))).
      { rewrite M, nth_error_map, Ha. cbn [option_map]. now rewrite G', Es. }
      rewrite nth_error_map in K. destruct (nth_error out a) as [o|]; [|discriminate K]. cbn [option_map] in K. injection K as ->. exists s. split; [reflexivity|]. split; [reflexivity|]. rewrite Es.
      split; [rewrite map_length; apply ngon_length|]. apply Forall_forall. intros c I. apply in_map_iff in I as (p & <- & I).
      apply spot_inside; auto. exact (proj1 (proj2 (polygon_inside n _ _ _ p A B I))).
  Qed.
End Drawn.

(** ** The program *)
Lemma whole_nat k : Int_part (INR k) = Z.of_nat k.
Proof.
  unfold Int_part. rewrite INR_IZR_INZ. rewrite <- (tech_up (IZR (Z.of_nat k)) (Z.of_nat k + 1)); [lia| |]; rewrite plus_IZR; lra.
Qed.
Lemma program_case : exists f v P, new_canvas (CInt 512) (CInt 512) (zq 100) = Ok f /\ new_viewport f (CInt 0) (CInt 0) (CInt 512) (CInt 512) = Ok v /\ side_x v = 512 /\ side_y v = 512 /\
  regular 3 = Ok (P, seq 3 9) /\ PictureSpec.holds (table KFloat 3 (map (fun p => [x3 p; y3 p; z3 p]) P)) P /\
  map (fun x => match x with Num r => Int_part r | _ => 0%Z end) (map (fun k => Num (INR k)) (seq 3 9)) = map Z.of_nat (seq 3 9).
Proof.
  destruct (polygons_placed 3 ltac:(lia)) as (P & gs & R & _).
  assert (T : match new_canvas (CInt 512) (CInt 512) (zq 100) with
              | Ok f => match new_viewport f (CInt 0) (CInt 0) (CInt 512) (CInt 512) with
                        | Ok v => (Qc_eq_bool (wide v * canvas_w v) (zq 512) && Qc_eq_bool (high v * canvas_h v) (zq 512))%bool
                        | Err _ => false end
              | Err _ => false end = true) by (vm_compute; reflexivity).
  destruct (new_canvas (CInt 512) (CInt 512) (zq 100)) as [f|]; [|discriminate T].
  destruct (new_viewport f (CInt 0) (CInt 0) (CInt 512) (CInt 512)) as [v|] eqn:Ev; [|discriminate T].
  exists f, v, P. split; [reflexivity|]. split; [exact Ev|]. apply andb_true_iff in T.
  assert (W : (wide v * canvas_w v)%Qc = zq 512 /\ (high v * canvas_h v)%Qc = zq 512) by (split; apply Qc_eq_bool_correct; apply T).
  unfold side_x, side_y. destruct W as [-> ->].
  assert (R512 : inR (zq 512) = 512) by (unfold inR, zq, q, Q2R; cbn; lra). rewrite R512. do 2 (split; [reflexivity|]). split; [exact R|]. split.
  - exists (map (fun p => [x3 p; y3 p; z3 p]) P). split; [|split; [|intros E; discriminate E]].
    + cbn. clear. generalize (map (fun p => [x3 p; y3 p; z3 p]) P). intros l. induction l as [|a l IH]; [reflexivity|]. cbn. now rewrite map_app, IH.
    + clear. induction P as [|p P IH]; cbn [map]; constructor; [reflexivity|exact IH].
  - rewrite map_map. apply map_ext. intros k. apply whole_nat.
Qed.

(** ** The assignment of the spiral *)
From Verif Require Import Swizzle SwizzleSpec SwizzleFacts.
Lemma spiral_set n : (1 <= n)%nat ->
  exists v, Swizzle.setattr (alphabets 3) (mkVecs [n] 3 (fun _ _ => 0)) (list_ascii_of_string "xy") (spiral_columns n) = (v, Ok tt) /\
    Swizzle.lead v = [n] /\ Swizzle.ncomp v = 3%nat /\
    forall i, (i < n)%nat -> nth_error (spiral n) i = Some (V3 (comp v [i] 0) (comp v [i] 1) (comp v [i] 2)).
Proof.
  intros H. set (z := mkVecs [n] 3 (fun _ _ => 0)).
  assert (Hv : vector z) by (cbn; unfold vector; cbn; lia).
  assert (Hn : names (Swizzle.ncomp z) (list_ascii_of_string "xy") [0; 1]%nat) by (exists ["x"; "y"; "z"]%char; split; [cbn; auto|repeat constructor]).
  assert (Hd : NoDup (list_ascii_of_string "xy")).
  { cbn. constructor; [intros [E|E]; [discriminate E|destruct E]|]. constructor; [intros []|constructor]. }
  destruct (write_arrays z (list_ascii_of_string "xy") [0; 1]%nat (spiral_columns n) Hv Hn n [] Hd eq_refl eq_refl) as (v & E & L & N & S); [cbn; lia|].
  exists v. split; [exact E|]. split; [exact L|]. split; [exact N|]. intros i Hi.
  destruct (S [i]) as [S1 S2]; [constructor; [exact Hi|constructor]|].
  rewrite (S1 0%nat 0%nat eq_refl), (S1 1%nat 1%nat eq_refl), (S2 2%nat) by (cbn; lia).
  unfold spiral, spiral_columns. cbn [Swizzle.at_ comp z].
  rewrite (zip_nth _ _ _ _ _ _ (linspace_nth _ _ n i Hi) (linspace_nth _ _ n i Hi)).
  rewrite !(nth_error_nth _ _ _ (zip_nth _ _ _ _ _ _ (linspace_nth _ _ n i Hi) (linspace_nth _ _ n i Hi))). reflexivity.
Qed.
