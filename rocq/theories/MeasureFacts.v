(** Proofs about measures. *)
From Verif Require Import Base Measure MeasureSpec.
Local Open Scope Qc_scope.

Lemma map_mulrow c s r : map (Qcmult c) (mulrow s r) = mulrow s (map (Qcmult c) r).
Proof. revert r; induction s as [|a s IH]; intros [|b r]; cbn; try reflexivity. rewrite IH. f_equal. ring. Qed.
Lemma scaled_times sx sy c x : scaled sx sy (times c x) = let* m := scaled sx sy x in Ok (times c m).
Proof.
  destruct x as [a|[|[|[|[|w]]]] rows]; unfold times; cbn [mmap scaled bind]; try reflexivity.
  - do 2 f_equal. ring.
  - do 2 f_equal. rewrite !map_map. apply map_ext. intros r. rewrite !map_map. apply map_ext. intros y. ring.
  - do 2 f_equal. rewrite !map_map. apply map_ext. intros r. symmetry. apply map_mulrow.
  - do 2 f_equal. rewrite !map_map. apply map_ext. intros r. symmetry. apply map_mulrow.
Qed.
Lemma times_times a b x : times a (times b x) = times (a * b) x.
Proof.
  destruct x as [y|w rows]; unfold times; cbn -[Qcmult]; f_equal; [ring|].
  rewrite map_map. apply map_ext. intros r. rewrite map_map. apply map_ext. intros y. ring.
Qed.
Lemma pixels_times v c x : pixels v (Some (times c x)) = let* m := pixels v (Some x) in Ok (times c m).
Proof.
  unfold pixels. destruct (frame v) as [[[w h] [rx ry]]|]; cbn [bind]; [|reflexivity].
  destruct (Qc_eq_bool w 0); [reflexivity|]. destruct (Qc_eq_bool h 0); [reflexivity|]. apply scaled_times.
Qed.
Lemma eval_pixels u v x : evaluate u v x =
  let* m := pixels v x in
  match u with Pixel => Ok m | _ => let* d := dpi v in Ok (times (factor u d) m) end.
Proof. reflexivity. Qed.
Lemma times_one x : times 1 x = x.
Proof.
  destruct x as [y|w rows]; unfold times; cbn -[Qcmult]; f_equal; [ring|].
  rewrite <- (map_id rows) at 2. apply map_ext. intros r. rewrite <- (map_id r) at 2. apply map_ext. intros y. ring.
Qed.

Lemma homogeneous u v c x : evaluate u v (Some (times c x)) = let* m := evaluate u v (Some x) in Ok (times c m).
Proof.
  rewrite !eval_pixels, pixels_times. destruct (pixels v (Some x)) as [m|]; cbn [bind]; [|reflexivity].
  assert (forall d, times (factor u d) (times c m) = times c (times (factor u d) m))
    by (intros d; rewrite !times_times; f_equal; ring).
  destruct u; try reflexivity; (destruct (dpi v); cbn [bind]; [now rewrite H|reflexivity]).
Qed.

Lemma addrow_mul c r s : map (Qcmult c) (addrow r s) = addrow (map (Qcmult c) r) (map (Qcmult c) s).
Proof. revert s; induction r as [|a r IH]; intros [|b s]; cbn; try reflexivity. rewrite IH. f_equal. ring. Qed.
Lemma mulrow_add t r s : mulrow t (addrow r s) = addrow (mulrow t r) (mulrow t s).
Proof. revert r s; induction t as [|a t IH]; intros [|b r] [|c s]; cbn; try reflexivity. rewrite IH. f_equal. ring. Qed.
Lemma addrows_map (f : list Qc -> list Qc) r s : (forall a b, f (addrow a b) = addrow (f a) (f b)) ->
  map f (addrows r s) = addrows (map f r) (map f s).
Proof. intros H. revert s; induction r as [|a r IH]; intros [|b s]; cbn; try reflexivity. now rewrite IH, H. Qed.
Lemma times_plus c x y : same_shape x y -> times c (plus x y) = plus (times c x) (times c y).
Proof.
  destruct x as [a|w r], y as [b|w' s]; cbn -[Qcmult]; intros H; try contradiction; f_equal; [unfold times; ring|].
  apply addrows_map, addrow_mul.
Qed.
Lemma scaled_plus sx sy x y : same_shape x y ->
  scaled sx sy (plus x y) = let* m := scaled sx sy x in let* n := scaled sx sy y in Ok (plus m n).
Proof.
  destruct x as [a|w r], y as [b|w' s]; intros H; try contradiction.
  - cbn -[Qcmult]. do 2 f_equal. ring.
  - destruct H as [<- _]. destruct w as [|[|[|[|w]]]]; cbn [plus scaled bind]; try reflexivity.
    + do 2 f_equal. apply addrows_map, addrow_mul.
    + do 2 f_equal. apply addrows_map, (mulrow_add [sx; sy]).
    + do 2 f_equal. apply addrows_map, (mulrow_add [sx; sy; 0]).
Qed.
Lemma mulrow_length t r s : length r = length s -> length (mulrow t r) = length (mulrow t s).
Proof. revert r s; induction t as [|a t IH]; intros [|b r] [|c s] H; cbn in *; try discriminate; auto. Qed.
Lemma Forall2_map2 {A B} (f : A -> B) (P : A -> A -> Prop) (Q : B -> B -> Prop) r s :
  (forall a b, P a b -> Q (f a) (f b)) -> Forall2 P r s -> Forall2 Q (map f r) (map f s).
Proof. intros H. induction 1; cbn; constructor; auto. Qed.
Lemma scaled_shape sx sy x y m n : same_shape x y -> scaled sx sy x = Ok m -> scaled sx sy y = Ok n -> same_shape m n.
Proof.
  destruct x as [a|w r], y as [b|w' s]; intros H; try contradiction.
  - cbn -[Qcmult]. intros E1 E2. inversion E1; inversion E2. exact I.
  - destruct H as [<- F]. destruct w as [|[|[|[|w]]]]; cbn [scaled]; intros E1 E2; try discriminate;
      inversion E1; inversion E2; subst; split; try reflexivity.
    + eapply Forall2_map2; [|exact F]. intros a b E. now rewrite !map_length.
    + eapply Forall2_map2; [|exact F]. intros a b E. now apply (mulrow_length [sx; sy]).
    + eapply Forall2_map2; [|exact F]. intros a b E. now apply (mulrow_length [sx; sy; 0]).
Qed.
Lemma scaled_total sx sy x y m : same_shape x y -> scaled sx sy x = Ok m -> exists n, scaled sx sy y = Ok n.
Proof.
  destruct x as [a|w r], y as [b|w' s]; intros H; try contradiction; [cbn; eauto|].
  destruct H as [<- F]. destruct w as [|[|[|[|w]]]]; cbn [scaled]; intros; try discriminate; eauto.
Qed.
Lemma additive u v x y : same_shape x y ->
  evaluate u v (Some (plus x y)) =
    let* m := evaluate u v (Some x) in let* n := evaluate u v (Some y) in Ok (plus m n).
Proof.
  intros H. rewrite !eval_pixels. unfold pixels. destruct (frame v) as [[[w h] [rx ry]]|]; cbn [bind]; [|reflexivity].
  destruct (Qc_eq_bool w 0); [reflexivity|]. destruct (Qc_eq_bool h 0); [reflexivity|].
  rewrite (scaled_plus _ _ x y H).
  destruct (scaled _ _ x) as [m|] eqn:E1; cbn [bind]; [|reflexivity].
  destruct (scaled_total _ _ _ _ _ H E1) as [n E2]. rewrite E2. cbn [bind].
  pose proof (scaled_shape _ _ _ _ _ _ H E1 E2) as Hs.
  destruct u; cbn [bind]; try reflexivity; (destruct (dpi v); cbn [bind]; [now rewrite times_plus|reflexivity]).
Qed.

(** ** Conversions *)
Lemma q_nonzero n d : (n <> 0)%Z -> q n d <> 0.
Proof.
  intros Hn E. unfold q in E. 
  assert (X : (n # d == 0)%Q).
  { rewrite <- (Qred_correct (n # d)). change (Qred (n # d)) with (this (Q2Qc (n # d))). rewrite E. reflexivity. }
  unfold Qeq in X. cbn in X. lia.
Qed.

Lemma factor_length u d c : u <> Meter -> centimetres u = Some c -> factor u d = c * (d / q 254 100).
Proof.
  intros Hm. pose proof (q_nonzero 254 100 ltac:(lia)) as N1. pose proof (q_nonzero 72 1 ltac:(lia)) as N2.
  destruct u; unfold centimetres, factor; intros E; try discriminate E; try (now destruct Hm); injection E as <-;
    field; repeat split; assumption.
Qed.
Lemma centimetres_nonzero u c : centimetres u = Some c -> c <> 0.
Proof.
  pose proof (q_nonzero 254 100 ltac:(lia)) as N1. pose proof (q_nonzero 72 1 ltac:(lia)) as N2.
  unfold centimetres. intros E. destruct u; try congruence; injection E as <-; try (now apply q_nonzero); try discriminate.
Qed.
Lemma eval_unit u v x : u <> Pixel -> evaluate u v x =
  let* m := pixels v x in let* d := dpi v in Ok (times (factor u d) m).
Proof. intros H. rewrite eval_pixels. destruct u; congruence || reflexivity. Qed.
Lemma conversion u1 u2 c1 c2 v x : u1 <> Meter -> u2 <> Meter ->
  centimetres u1 = Some c1 -> centimetres u2 = Some c2 ->
  evaluate u1 v (Some x) = evaluate u2 v (Some (times (c1 / c2) x)).
Proof.
  intros M1 M2 E1 E2. pose proof (centimetres_nonzero _ _ E2) as N.
  rewrite !eval_unit by (intros ->; discriminate). rewrite pixels_times.
  destruct (pixels v (Some x)) as [m|]; cbn [bind]; [|reflexivity].
  destruct (dpi v) as [d|]; cbn [bind]; [|reflexivity]. rewrite times_times. do 2 f_equal.
  rewrite (factor_length u1 d c1 M1 E1), (factor_length u2 d c2 M2 E2).
  field. split; [exact N|apply q_nonzero; lia].
Qed.
Lemma meter_is v x : evaluate Meter v (Some x) = evaluate Centimeter v (Some (times (q 1000 1) x)).
Proof.
  rewrite !eval_unit by discriminate. rewrite pixels_times.
  destruct (pixels v (Some x)) as [m|]; cbn [bind]; [|reflexivity].
  destruct (dpi v) as [d|]; cbn [bind]; [|reflexivity]. rewrite times_times. do 2 f_equal.
  unfold factor. field. apply q_nonzero. lia.
Qed.

(** ** The frame of reference *)
Lemma inch_dpi v d x : v_dpi v = Some d -> evaluate Inch v (Some x) = evaluate Pixel v (Some (times d x)).
Proof.
  intros H. rewrite (eval_unit Inch) by discriminate. rewrite eval_pixels, pixels_times. unfold dpi. rewrite H.
  destruct (pixels v (Some x)); reflexivity.
Qed.
Lemma inch_resolution v x : evaluate Inch v (Some x) =
  let* m := evaluate Pixel v (Some x) in
  match v_dpi v, v_canvas v, v_view v with
  | Some d, _, _ => Ok (times d m)
  | None, Some c, _ => Ok (times (c_dpi c) m)
  | None, None, Some w => Ok (times (c_dpi (w_canvas w)) m)
  | None, None, None => Err ValueError
  end.
Proof.
  rewrite (eval_unit Inch) by discriminate. rewrite eval_pixels. unfold dpi.
  destruct (pixels v (Some x)); [|reflexivity]. cbn [bind]. destruct (v_dpi v); [reflexivity|].
  destruct (v_canvas v); [reflexivity|]. destruct (v_view v); reflexivity.
Qed.
Lemma Qc_eq_bool_false x : x <> 0 -> Qc_eq_bool x 0 = false.
Proof. intros H. unfold Qc_eq_bool. destruct (Qc_eq_dec x 0); congruence. Qed.
Lemma pixels_in_view v w x y : v_dpi v = None -> v_view v = Some w -> v_size v = None ->
  fst (w_size w) <> 0 -> snd (w_size w) <> 0 ->
  evaluate Pixel v (Some (Arr 2 [[x; y]])) =
    Ok (Arr 2 [[x * (snd (w_xlim w) - fst (w_xlim w)) / fst (w_size w);
                y * (snd (w_ylim w) - fst (w_ylim w)) / snd (w_size w)]]).
Proof.
  intros H1 H2 H3 N1 N2. rewrite eval_pixels. unfold pixels, frame. rewrite H1, H2, H3. cbn [bind fst snd].
  destruct (w_size w) as [a b]. cbn [fst snd] in *. rewrite !Qc_eq_bool_false by assumption.
  cbn [scaled map mulrow bind]. do 4 f_equal; [|f_equal]; field; assumption.
Qed.
Lemma z_lost u v x y z : match evaluate u v (Some (Arr 3 [[x; y; z]])) with
  | Ok (Arr 3 [[_; _; z']]) => z' = 0 | Ok _ => False | Err _ => True end.
Proof.
  rewrite eval_pixels. unfold pixels. destruct (frame v) as [[[w h] [rx ry]]|]; cbn [bind]; [|exact I].
  destruct (Qc_eq_bool w 0); [exact I|]. destruct (Qc_eq_bool h 0); [exact I|]. cbn [scaled map mulrow bind].
  destruct u; cbn [bind]; try (destruct (dpi v); cbn [bind times mmap map]; [|exact I]); try ring.
  all: unfold times, mmap; cbn [map]; ring.
Qed.
Lemma number_uses_width v w x : v_dpi v = None -> v_view v = Some w -> v_size v = None ->
  fst (w_size w) <> 0 -> snd (w_size w) <> 0 ->
  evaluate Pixel v (Some (Num x)) = Ok (Num (x * (snd (w_xlim w) - fst (w_xlim w)) / fst (w_size w))).
Proof.
  intros H1 H2 H3 N1 N2. rewrite eval_pixels. unfold pixels, frame. rewrite H1, H2, H3. cbn [bind fst snd].
  destruct (w_size w) as [a b]. cbn [fst snd] in *. rewrite !Qc_eq_bool_false by assumption.
  cbn [scaled bind]. do 2 f_equal. field; assumption.
Qed.

(** ** Concrete cases *)
Definition ex_view : view := mkView (mkCanvas (q 100 1) (q 512 1, q 256 1)) (q 400 1, q 200 1) (q (-1) 1, 1) (q (-1) 1, 1).
Definition ex_vars : vars := mkVars None (Some ex_view) None None.
Lemma meter_witness : exists v x, is_ok (evaluate Meter v (Some x)) = true /\
  evaluate Meter v (Some x) <> evaluate Centimeter v (Some (times (q 100 1) x)).
Proof. exists ex_vars, (Num 1). split; [reflexivity|]. vm_compute. intros E. congruence. Qed.
Lemma kilometer_witness : exists v x, is_ok (evaluate Kilometer v (Some x)) = true /\
  evaluate Kilometer v (Some x) <> evaluate Meter v (Some (times (q 1000 1) x)).
Proof. exists ex_vars, (Num 1). split; [reflexivity|]. vm_compute. intros E. congruence. Qed.
Lemma z_witness : exists x y, evaluate Pixel ex_vars (Some (Arr 3 [[q 10 1; q 10 1; q 3 1]])) = Ok (Arr 3 [[x; y; 0]]) /\ q 3 1 <> 0.
Proof.
  pose proof (z_lost Pixel ex_vars (q 10 1) (q 10 1) (q 3 1)) as H.
  destruct (evaluate Pixel ex_vars _) as [[n|[|[|[|[|w]]]] [|[|a [|b [|c [|d r]]]] [|r2 rows]]]|] eqn:E; try contradiction.
  - exists a, b. rewrite H. split; [reflexivity|apply q_nonzero; lia].
  - exfalso. vm_compute in E. discriminate.
Qed.
Lemma axes_witness : exists a b c, evaluate Pixel ex_vars (Some (Arr 2 [[q 10 1; q 10 1]])) = Ok (Arr 2 [[a; b]]) /\
  evaluate Pixel ex_vars (Some (Num (q 10 1))) = Ok (Num c) /\ c = a /\ a <> b.
Proof.
  rewrite (pixels_in_view ex_vars ex_view) by (reflexivity || (apply q_nonzero; lia)).
  rewrite (number_uses_width ex_vars ex_view) by (reflexivity || (apply q_nonzero; lia)).
  eexists _, _, _. split; [reflexivity|]. split; [reflexivity|]. split; [reflexivity|].
  vm_compute. intros E. congruence.
Qed.
