(** Proofs about visuals in viewports. *)
From Verif Require Import Base Scene SceneSpec.

Lemma upd_same {A} (l : list A) i x : nth_error l i = Some x -> upd l i x = l.
Proof. revert i. induction l as [|y l IH]; intros [|i] H; cbn in *; try congruence. now rewrite IH. Qed.
Lemma nth_error_snoc {A} (l : list A) x i : nth_error (l ++ [x]) i = if i =? length l then Some x else nth_error l i.
Proof.
  destruct (Nat.eqb_spec i (length l)) as [->|N].
  - rewrite nth_error_app2, Nat.sub_diag by lia. reflexivity.
  - destruct (Nat.lt_ge_cases i (length l)) as [L|L]; [now rewrite nth_error_app1|].
    rewrite (proj2 (nth_error_None _ _)) by (rewrite app_length; cbn; lia). symmetry. apply nth_error_None. lia.
Qed.
Lemma existsb_nat p l : existsb (Nat.eqb p) l = true <-> In p l.
Proof.
  rewrite existsb_exists. split; [intros (x & I & E); apply Nat.eqb_eq in E; now subst|].
  intros I. exists p. split; [exact I|apply Nat.eqb_refl].
Qed.
Lemma nth_axes (l : list (list nat)) p x : nth_error l p = Some x -> nth p l [] = x.
Proof. intros E. now apply nth_error_nth. Qed.

Section Facts.
Context {M : Type}.
Variable mul : M -> M -> option M.
Variable eye : M.
Notation scene := (scene M).
Notation visual := (visual M).
Notation render := (render mul).
Notation call := (call mul).
Notation resize := (resize mul).
Notation step := (step mul eye).
Notation run := (run mul eye).

Definition weight (k : kind) : nat := match k with Scatter => 2 | Plain => 1 end.
(** The known viewports of a visual. *)
Definition on (s : scene) (v p : nat) : Prop := exists x, nth_error (s_visuals s) v = Some x /\ In p (v_on x).
Record inv (s : scene) : Prop := mkInv {
  i_axes : length (s_axes s) = length (s_views s);
  i_draw : exists r, s_callbacks s = CDraw :: r /\ ~ In CDraw r;
  i_update : forall p, In (CUpdate p) (s_callbacks s) <-> p < length (s_views s);
  i_render : forall v p, In (CRender v p) (s_callbacks s) <-> on s v p;
  i_order : forall l1 v p l2, s_callbacks s = l1 ++ CRender v p :: l2 -> In (CUpdate p) l1;
  i_once : forall l1 v p l2, s_callbacks s = l1 ++ CRender v p :: l2 -> ~ In (CRender v p) (l1 ++ l2);
  i_bound : forall v p, on s v p -> p < length (s_views s);
  i_trans : forall v x, nth_error (s_visuals s) v = Some x -> v_on x <> [] ->
    v_transform x = product mul (v_proj x) (v_view x) (v_model x);
  i_times : forall v p x, nth_error (s_visuals s) v = Some x -> times s v p = (if existsb (Nat.eqb p) (v_on x) then weight (v_kind x) else 0);
  i_no_times : forall v p, length (s_visuals s) <= v -> times s v p = 0
}.

(** Re-rendering a known visual changes only what its collection shows, and the
    log. *)
Definition shows (s : scene) (v p : nat) : content :=
  match nth_error (s_visuals s) v, nth_error (s_views s) p with
  | Some x, Some laid => match v_transform x with Some t => show (s_shown s) v p (t, laid) | None => s_shown s end
  | _, _ => s_shown s
  end.
Definition log_of (c : callback) : list (entry M) := match c with CRender v p => [LRender v p None None None] | _ => [] end.
Lemma rerender s v p : inv s -> on s v p ->
  render s v p None None None =
  mkScene (s_size s) (s_views s) (s_visuals s) (s_axes s) (shows s v p) (s_callbacks s) (s_drawn s) (s_log s ++ log_of (CRender v p)).
Proof.
  intros I (x & X & P). pose proof (i_bound s I v p (ex_intro _ x (conj X P))) as B.
  unfold Scene.render, shows. rewrite X.
  destruct (nth_error (s_views s) p) as [laid|] eqn:L; [|apply nth_error_None in L; lia].
  destruct (nth_error (s_axes s) p) as [ch|] eqn:A; [|apply nth_error_None in A; rewrite (i_axes s I) in A; lia].
  cbn [given]. rewrite (proj2 (existsb_nat p (v_on x)) P).
  assert (T : product mul (v_proj x) (v_view x) (v_model x) = v_transform x).
  { symmetry. apply (i_trans s I v x X). intros N. rewrite N in P. destruct P. }
  rewrite T. f_equal. apply upd_same. rewrite X. f_equal. destruct x; reflexivity.
Qed.

(** What the callbacks do, one after the other. *)
Definition sized (s : scene) (sz : size) : scene :=
  mkScene sz (s_views s) (s_visuals s) (s_axes s) (s_shown s) (s_callbacks s) (s_drawn s) (s_log s).
Record called (s : scene) (l : list callback) (s' : scene) : Prop := mkCalled {
  c_size : s_size s' = s_size s;
  c_visuals : s_visuals s' = s_visuals s;
  c_axes : s_axes s' = s_axes s;
  c_callbacks : s_callbacks s' = s_callbacks s;
  c_log : s_log s' = s_log s ++ flat_map log_of l;
  c_length : length (s_views s') = length (s_views s);
  c_updated : forall p, In (CUpdate p) l -> p < length (s_views s) -> nth_error (s_views s') p = Some (s_size s);
  c_kept : forall p, ~ In (CUpdate p) l -> nth_error (s_views s') p = nth_error (s_views s) p;
  c_unshown : forall v p, ~ In (CRender v p) l -> s_shown s' v p = s_shown s v p;
  c_undefined : forall v p x, nth_error (s_visuals s) v = Some x -> v_transform x = None -> s_shown s' v p = s_shown s v p;
  c_shown : forall v p x t, In (CRender v p) l -> (forall l1 l2, l = l1 ++ CRender v p :: l2 -> In (CUpdate p) l1) ->
    nth_error (s_visuals s) v = Some x -> v_transform x = Some t -> s_shown s' v p = Some (t, s_size s);
  c_drawn : ~ In CDraw l -> s_drawn s' = s_drawn s }.
(** The invariant speaks of visuals, axes, callbacks and the number of viewports. *)
Lemma inv_same s s' : s_visuals s' = s_visuals s -> s_axes s' = s_axes s -> s_callbacks s' = s_callbacks s ->
  length (s_views s') = length (s_views s) -> inv s -> inv s'.
Proof.
  intros V A C L I. assert (O : forall v p, on s' v p <-> on s v p) by (intros v p; unfold on; now rewrite V).
  assert (T : forall v p, times s' v p = times s v p) by (intros v p; unfold times; now rewrite A).
  destruct I as [I1 I2 I3 I4 I5 I6 I7 I8 I9 I10]. split; rewrite ?V, ?A, ?C, ?L; auto.
  - intros v p. rewrite O. apply I4.
  - intros v p H. apply O in H. eauto.
  - intros v p x X. rewrite T. eauto.
  - intros v p N. rewrite T. eauto.
Qed.
Lemma callback_dec (a b : callback) : {a = b} + {a <> b}.
Proof. decide equality; apply Nat.eq_dec. Qed.
Lemma calls s l : inv s -> (forall v p, In (CRender v p) l -> on s v p) -> called s l (fold_left call l s).
Proof.
  intros I. induction l as [|c l IH] using rev_ind; intros H.
  - cbn [fold_left flat_map]. split; auto.
    + now rewrite app_nil_r.
    + intros p []. 
    + intros v p x t [].
  - assert (H' : forall v p, In (CRender v p) l -> on s v p) by (intros v p N; apply H, in_or_app; now left).
    specialize (IH H'). rewrite fold_left_app. cbn [fold_left]. set (s1 := fold_left call l s) in *.
    destruct IH as [J1 J2 J3 J4 J5 J6 J7 J8 J9 J10 J11 J12].
    assert (I1 : inv s1) by (apply (inv_same s); auto).
    destruct c as [|p0|v0 p0]; cbn [Scene.call].
    + (* draw *)
      unfold draw. split; cbn [s_size s_visuals s_axes s_callbacks s_log s_views s_shown s_drawn]; auto.
      * rewrite J5, flat_map_app. cbn. now rewrite app_nil_r.
      * intros p N. apply in_app_or in N. destruct N as [N|[N|[]]]; [auto|discriminate].
      * intros p N. apply J8. intros N'. apply N, in_or_app. now left.
      * intros v p N. apply J9. intros N'. apply N, in_or_app. now left.
      * intros v p x t N O. apply in_app_or in N. destruct N as [N|[N|[]]]; [|discriminate]. apply J11; [exact N|].
        intros l1 l2 E. apply (O l1 (l2 ++ [CDraw])). rewrite E, <- app_assoc. reflexivity.
      * intros N. exfalso. apply N, in_or_app. right. now left.
    + (* update *)
      unfold update. split; cbn [s_size s_visuals s_axes s_callbacks s_log s_views s_shown s_drawn]; auto.
      * rewrite J5, flat_map_app. cbn. now rewrite app_nil_r.
      * now rewrite upd_length.
      * intros p N L. rewrite nth_error_upd. destruct (Nat.eqb_spec p p0) as [->|D].
        -- rewrite J1. destruct (nth_error (s_views s1) p0) eqn:E; [reflexivity|]. apply nth_error_None in E. lia.
        -- apply in_app_or in N. destruct N as [N|[N|[]]]; [auto|congruence].
      * intros p N. rewrite nth_error_upd. destruct (Nat.eqb_spec p p0) as [->|D]; [exfalso; apply N, in_or_app; right; now left|].
        apply J8. intros N'. apply N, in_or_app. now left.
      * intros v p N. apply J9. intros N'. apply N, in_or_app. now left.
      * intros v p x t N O. apply in_app_or in N. destruct N as [N|[N|[]]]; [|discriminate]. apply J11; [exact N|].
        intros l1 l2 E. apply (O l1 (l2 ++ [CUpdate p0])). rewrite E, <- app_assoc. reflexivity.
      * intros N. apply J12. intros N'. apply N, in_or_app. now left.
    + (* render *)
      assert (O1 : on s1 v0 p0).
      { destruct (H v0 p0) as (x & X & P); [apply in_or_app; right; now left|]. exists x. now rewrite J2. }
      rewrite (rerender s1 v0 p0 I1 O1). destruct O1 as (x0 & X0 & P0). pose proof (i_bound s1 I1 v0 p0 (ex_intro _ x0 (conj X0 P0))) as B.
      assert (SH : forall v p, s_shown (mkScene (s_size s1) (s_views s1) (s_visuals s1) (s_axes s1) (shows s1 v0 p0) (s_callbacks s1) (s_drawn s1) (s_log s1 ++ log_of (CRender v0 p0))) v p = shows s1 v0 p0 v p) by reflexivity.
      assert (OTHER : forall v p, (v, p) <> (v0, p0) -> shows s1 v0 p0 v p = s_shown s1 v p).
      { intros v p D. unfold shows. destruct (nth_error (s_visuals s1) v0) as [y|]; [|reflexivity]. destruct (nth_error (s_views s1) p0); [|reflexivity].
        destruct (v_transform y); [|reflexivity]. unfold show. destruct (Nat.eqb_spec v0 v) as [->|]; [|reflexivity]. destruct (Nat.eqb_spec p0 p) as [->|]; [congruence|reflexivity]. }
      split; cbn [s_size s_visuals s_axes s_callbacks s_log s_views s_drawn]; auto.
      * rewrite J5, flat_map_app, <- app_assoc. reflexivity.
      * intros p N L. apply in_app_or in N. destruct N as [N|[N|[]]]; [auto|discriminate].
      * intros p N. apply J8. intros N'. apply N, in_or_app. now left.
      * intros v p N. rewrite SH, OTHER; [apply J9; intros N'; apply N, in_or_app; now left|].
        intros E. injection E as -> ->. apply N, in_or_app. right. now left.
      * intros v p x X T. rewrite SH. destruct (Nat.eq_dec v v0) as [->|D]; [|rewrite OTHER by congruence; eauto].
        unfold shows. rewrite J2, X, T. destruct (nth_error (s_views s1) p0); eauto.
      * intros v p x t N O X T. rewrite SH. destruct (callback_dec (CRender v p) (CRender v0 p0)) as [E|D].
        -- injection E as -> ->. unfold shows. rewrite J2, X, T.
           assert (U : In (CUpdate p0) l) by (apply (O l []); reflexivity).
           rewrite (J7 p0 U) by lia. unfold show. now rewrite !Nat.eqb_refl.
        -- rewrite OTHER by congruence. apply in_app_or in N. destruct N as [N|[N|[]]]; [|congruence]. eapply J11; eauto.
           intros l1 l2 E. apply (O l1 (l2 ++ [CRender v0 p0])). rewrite E, <- app_assoc. reflexivity.
      * intros N. apply J12. intros N'. apply N, in_or_app. now left.
Qed.
Lemma resized s sz : inv s -> called (sized s sz) (s_callbacks s) (resize s sz).
Proof.
  intros I. unfold Scene.resize. fold (sized s sz). apply calls.
  - apply (inv_same s); auto.
  - intros v p N. apply (i_render s I) in N. exact N.
Qed.
Lemma resize_inv s sz : inv s -> inv (resize s sz).
Proof. intros I. destruct (resized s sz I) as [J1 J2 J3 J4 J5 J6 J7 J8 J9 J10 J11 J12]. apply (inv_same (sized s sz)); auto. apply (inv_same s); auto. Qed.

Lemma start_inv sz : inv (start sz).
Proof.
  split; cbn.
  - reflexivity.
  - exists []. auto.
  - intros p. split; [intros [H|[]]; discriminate|lia].
  - intros v p. split; [intros [H|[]]; discriminate|]. intros (x & X & _). destruct v; discriminate.
  - intros [|c l1] v p l2 E; [discriminate|]. injection E as _ E. destruct l1; discriminate.
  - intros [|c l1] v p l2 E; [discriminate|]. injection E as _ E. destruct l1; discriminate.
  - intros v p (x & X & _). destruct v; discriminate.
  - intros [|v] x; discriminate.
  - intros [|v] p x; discriminate.
  - intros v p _. unfold times. cbn. now destruct p.
Qed.
Lemma snoc_split {A} (l l1 l2 : list A) x y : l ++ [x] = l1 ++ y :: l2 ->
  (l2 = [] /\ x = y /\ l = l1) \/ (exists l3, l2 = l3 ++ [x] /\ l = l1 ++ y :: l3).
Proof.
  intros E. destruct l2 as [|z l2' _] using rev_ind.
  - left. apply app_inj_tail in E. destruct E. auto.
  - right. change (l1 ++ y :: l2' ++ [z]) with (l1 ++ (y :: l2') ++ [z]) in E. rewrite app_assoc in E.
    apply app_inj_tail in E. destruct E as [-> ->]. exists l2'. auto.
Qed.
Lemma new_viewport_inv s : inv s -> inv (new_viewport s).
Proof.
  intros I. destruct I as [I1 (r & I2 & I2') I3 I4 I5 I6 I7 I8 I9 I10].
  assert (T : forall v p, times (new_viewport s) v p = times s v p).
  { intros v p. unfold times, new_viewport. cbn [s_axes]. destruct (Nat.lt_ge_cases p (length (s_axes s))) as [L|L].
    - now rewrite app_nth1.
    - rewrite app_nth2, (nth_overflow (s_axes s)) by lia. destruct (p - length (s_axes s)) as [|[|]]; reflexivity. }
  split; cbn [new_viewport s_size s_visuals s_axes s_callbacks s_log s_views s_shown s_drawn].
  - rewrite !app_length. cbn. lia.
  - exists (r ++ [CUpdate (length (s_views s))]). rewrite I2. split; [reflexivity|]. intros N. apply in_app_or in N. destruct N as [N|[N|[]]]; [auto|discriminate].
  - intros p. rewrite in_app_iff, I3, app_length. cbn. split.
    + intros [L|[E|[]]]; [lia|]. injection E as <-. lia.
    + intros L. destruct (Nat.eq_dec p (length (s_views s))) as [->|]; [right; now left|left; lia].
  - intros v p. rewrite in_app_iff, I4. split; [intros [H|[H|[]]]; [exact H|discriminate]|now left].
  - intros l1 v p l2 E. apply snoc_split in E. destruct E as [(_ & E & _)|(l3 & _ & E)]; [discriminate|eauto].
  - intros l1 v p l2 E. apply snoc_split in E. destruct E as [(_ & E & _)|(l3 & -> & E)]; [discriminate|]. apply I6 in E. rewrite app_assoc, in_app_iff.
    intros [N|[N|[]]]; [auto|discriminate].
  - intros v p H. apply I7 in H. rewrite app_length. lia.
  - exact I8.
  - intros v p x X. rewrite T. eauto.
  - intros v p L. rewrite T. eauto.
Qed.
Lemma new_visual_inv s k : inv s -> inv (new_visual eye s k).
Proof.
  intros I. destruct I as [I1 (r & I2 & I2') I3 I4 I5 I6 I7 I8 I9 I10].
  assert (O : forall v p, on (new_visual eye s k) v p <-> on s v p).
  { intros v p. unfold on, new_visual. cbn [s_visuals]. split; intros (x & X & P).
    - rewrite nth_error_snoc in X. destruct (v =? length (s_visuals s)); [injection X as <-; destruct P|eauto].
    - exists x. split; [|exact P]. rewrite nth_error_app1; [exact X|]. apply nth_error_Some. congruence. }
  split; cbn [new_visual s_size s_visuals s_axes s_callbacks s_log s_views s_shown s_drawn]; eauto.
  - intros v p. rewrite I4. symmetry. apply O.
  - intros v p H. apply O in H. eauto.
  - intros v x X N. rewrite nth_error_snoc in X. destruct (v =? length (s_visuals s)); [injection X as <-; cbn in N; congruence|eauto].
  - intros v p x X. rewrite nth_error_snoc in X. destruct (Nat.eqb_spec v (length (s_visuals s))) as [->|]; [|apply (I9 v p x X)].
    injection X as <-. cbn. apply I10. lia.
  - intros v p L. rewrite app_length in L. cbn in L. apply (I10 v p). lia.
Qed.
Lemma count_children k v v' : count_occ Nat.eq_dec (children k v) v' = if v =? v' then weight k else 0.
Proof. destruct k; cbn; destruct (Nat.eq_dec v v') as [->|N]; rewrite ?Nat.eqb_refl; try (apply Nat.eqb_neq in N; rewrite N); reflexivity. Qed.
(** What a render that can take place does. *)
Lemma render_inv s v p a b c : inv s -> inv (render s v p a b c).
Proof.
  intros I. destruct (nth_error (s_visuals s) v) as [x|] eqn:X; [|unfold Scene.render; rewrite X; exact I].
  destruct (nth_error (s_views s) p) as [laid|] eqn:L; [|unfold Scene.render; rewrite X, L; exact I].
  destruct (nth_error (s_axes s) p) as [ch|] eqn:A; [|unfold Scene.render; rewrite X, L, A; exact I].
  unfold Scene.render. rewrite X, L, A. cbv zeta.
  set (t := product mul (given c (v_proj x)) (given b (v_view x)) (given a (v_model x))).
  set (x' := mkVis (v_kind x) (given a (v_model x)) (given b (v_view x)) (given c (v_proj x)) t _).
  assert (PL : p < length (s_views s)) by (apply nth_error_Some; congruence).
  destruct (existsb (Nat.eqb p) (v_on x)) eqn:K.
  - (* known *)
    assert (OK : forall v' x1, nth_error (upd (s_visuals s) v x') v' = Some x1 ->
       exists x2, nth_error (s_visuals s) v' = Some x2 /\ v_on x1 = v_on x2 /\ v_kind x1 = v_kind x2).
    { intros v' x1 E. rewrite nth_error_upd in E. destruct (Nat.eqb_spec v' v) as [->|].
      - rewrite X in E. injection E as <-. exists x. auto.
      - exists x1. auto. }
    assert (O : forall s1, s_visuals s1 = upd (s_visuals s) v x' -> forall v' p', on s1 v' p' <-> on s v' p').
    { intros s1 E v' p'. unfold on. rewrite E. split; intros (x1 & X1 & P1).
      - destruct (OK v' x1 X1) as (x2 & X2 & E2 & _). exists x2. rewrite <- E2. auto.
      - rewrite nth_error_upd. destruct (Nat.eqb_spec v' v) as [->|]; [|eauto]. rewrite X1. exists x'. rewrite X in X1. injection X1 as <-. auto. }
    destruct I as [I1 I2 I3 I4 I5 I6 I7 I8 I9 I10].
    split; cbn [s_size s_visuals s_axes s_callbacks s_log s_views s_shown s_drawn]; auto.
    + intros v' p'. rewrite O by reflexivity. apply I4.
    + intros v' p' H. rewrite O in H by reflexivity. eauto.
    + intros v' x1 E N. rewrite nth_error_upd in E. destruct (Nat.eqb_spec v' v) as [->|]; [|eauto]. rewrite X in E. injection E as <-. reflexivity.
    + intros v' p' x1 E. destruct (OK v' x1 E) as (x2 & X2 & -> & ->). apply (I9 v' p' x2 X2).
    + intros v' p' N. rewrite upd_length in N. apply (I10 v' p' N).
  - (* new *)
    assert (NP : ~ In p (v_on x)) by (intros P; apply existsb_nat in P; congruence).
    assert (NO : ~ on s v p) by (intros (y & Y & P); congruence).
    assert (OK : forall v' x1, nth_error (upd (s_visuals s) v x') v' = Some x1 ->
       exists x2, nth_error (s_visuals s) v' = Some x2 /\ v_on x1 = (if v' =? v then v_on x2 ++ [p] else v_on x2) /\ v_kind x1 = v_kind x2).
    { intros v' x1 E. rewrite nth_error_upd in E. destruct (Nat.eqb_spec v' v) as [->|].
      - rewrite X in E. injection E as <-. exists x. auto.
      - exists x1. auto. }
    assert (O : forall s1, s_visuals s1 = upd (s_visuals s) v x' -> forall v' p', on s1 v' p' <-> on s v' p' \/ (v', p') = (v, p)).
    { intros s1 E v' p'. unfold on. rewrite E. split.
      - intros (x1 & X1 & P1). destruct (OK v' x1 X1) as (x2 & X2 & E2 & _). rewrite E2 in P1. destruct (Nat.eqb_spec v' v) as [->|]; [|eauto].
        apply in_app_or in P1. destruct P1 as [P1|[<-|[]]]; [eauto|now right].
      - intros [(x1 & X1 & P1)|E1].
        + rewrite nth_error_upd. destruct (Nat.eqb_spec v' v) as [->|]; [|eauto]. rewrite X1. exists x'. rewrite X in X1. injection X1 as <-. split; [reflexivity|]. cbn. apply in_or_app. now left.
        + injection E1 as -> ->. exists x'. rewrite nth_error_upd, Nat.eqb_refl, X. split; [reflexivity|]. cbn. apply in_or_app. right. now left. }
    assert (TT : forall s1 : scene, s_axes s1 = upd (s_axes s) p (ch ++ children (v_kind x) v) -> forall v' p', times s1 v' p' = times s v' p' + (if (p' =? p) && (v =? v') then weight (v_kind x) else 0)).
    { intros s1 E v' p'. unfold times. rewrite E. destruct (Nat.eqb_spec p' p) as [->|D]; cbn [andb].
      - rewrite (nth_axes _ _ (ch ++ children (v_kind x) v)) by (rewrite nth_error_upd, Nat.eqb_refl, A; reflexivity). rewrite (nth_axes _ _ _ A), count_occ_app, count_children. reflexivity.
      - rewrite Nat.add_0_r. f_equal. destruct (nth_error (s_axes s) p') as [ch'|] eqn:A'.
        + rewrite (nth_axes _ _ ch'), (nth_axes _ _ ch') by (rewrite ?nth_error_upd; apply Nat.eqb_neq in D; rewrite ?D; exact A'). reflexivity.
        + apply nth_error_None in A'. rewrite !nth_overflow; rewrite ?upd_length; auto. }
    destruct I as [I1 (r & I2 & I2') I3 I4 I5 I6 I7 I8 I9 I10].
    split; cbn [s_size s_visuals s_axes s_callbacks s_log s_views s_shown s_drawn].
    + now rewrite upd_length.
    + exists (r ++ [CRender v p]). rewrite I2. split; [reflexivity|]. intros N. apply in_app_or in N. destruct N as [N|[N|[]]]; [auto|discriminate].
    + intros p'. rewrite in_app_iff, I3. split; [intros [H|[H|[]]]; [exact H|discriminate]|now left].
    + intros v' p'. rewrite O by reflexivity. rewrite in_app_iff, I4. split; (intros [H|H]; [now left|right]).
      * destruct H as [H|[]]. now injection H as <- <-.
      * injection H as -> ->. now left.
    + intros l1 v' p' l2 E. apply snoc_split in E. destruct E as [(_ & E & <-)|(l3 & _ & E)]; [|eauto]. injection E as <- <-. now apply I3.
    + intros l1 v' p' l2 E. apply snoc_split in E. destruct E as [(-> & E & <-)|(l3 & -> & E)].
      * injection E as <- <-. rewrite app_nil_r. intros N. apply I4 in N. auto.
      * rewrite app_assoc, in_app_iff. intros [N|[N|[]]]; [eapply I6; eauto|]. injection N as <- <-. apply NO, I4. rewrite E. apply in_elt.
    + intros v' p' H. rewrite O in H by reflexivity. destruct H as [H|H]; [eauto|]. now injection H as -> ->.
    + intros v' x1 E N. rewrite nth_error_upd in E. destruct (Nat.eqb_spec v' v) as [->|]; [|eauto]. rewrite X in E. injection E as <-. reflexivity.
    + intros v' p' x1 E. rewrite TT by reflexivity. destruct (OK v' x1 E) as (x2 & X2 & -> & ->). rewrite (I9 v' p' x2 X2). destruct (Nat.eqb_spec v' v) as [->|D].
      * rewrite X in X2. injection X2 as <-. rewrite Nat.eqb_refl, andb_true_r, existsb_app. cbn [existsb]. rewrite orb_false_r. destruct (Nat.eqb_spec p' p) as [->|]; [rewrite K; reflexivity|]. rewrite orb_false_r. lia.
      * apply not_eq_sym, Nat.eqb_neq in D. rewrite D, andb_false_r. lia.
    + intros v' p' N. rewrite TT by reflexivity. rewrite upd_length in N. rewrite (I10 v' p' N). assert (v < length (s_visuals s)) by (apply nth_error_Some; congruence).
      destruct (Nat.eqb_spec v v'); [lia|]. now rewrite andb_false_r.
Qed.
Lemma step_inv s e : inv s -> inv (step s e).
Proof.
  intros I. destruct e as [|k|v p a b c|sz|]; cbn [Scene.step].
  - now apply new_viewport_inv.
  - now apply new_visual_inv.
  - now apply render_inv.
  - now apply resize_inv.
  - apply (inv_same s); auto.
Qed.
Lemma run_snoc s h e : run s (h ++ [e]) = step (run s h) e.
Proof. unfold Scene.run. now rewrite fold_left_app. Qed.
Lemma run_inv sz h : inv (run (start sz) h).
Proof. induction h as [|e h IH] using rev_ind; [apply start_inv|]. rewrite run_snoc. now apply step_inv. Qed.

(** ** Histories *)
Lemma kinds_app (h1 h2 : list (event M)) : kinds (h1 ++ h2) = kinds h1 ++ kinds h2.
Proof. induction h1 as [|[|k|v p a b c|z|] h1 IH]; cbn; rewrite ?IH; reflexivity. Qed.
Lemma viewports_app (h1 h2 : list (event M)) : viewports (h1 ++ h2) = viewports h1 + viewports h2.
Proof. induction h1 as [|[|k|v p a b c|z|] h1 IH]; cbn; rewrite ?IH; reflexivity. Qed.
Lemma last_size_app (h1 h2 : list (event M)) d : last_size (h1 ++ h2) d = last_size h2 (last_size h1 d).
Proof. revert d. induction h1 as [|[|k|v p a b c|z|] h1 IH]; intros d; cbn; rewrite ?IH; reflexivity. Qed.
Lemma last_given_app (h1 h2 : list (event M)) nv np v ms :
  last_given nv np (h1 ++ h2) v ms = last_given (nv + length (kinds h1)) (np + viewports h1) h2 v (last_given nv np h1 v ms).
Proof.
  revert nv np ms. induction h1 as [|[|k|v' p a b c|z|] h1 IH]; intros nv np ms; cbn [app last_given kinds viewports length]; rewrite ?IH, ?Nat.add_0_r; auto.
  - now rewrite <- plus_n_Sm.
  - now rewrite <- plus_n_Sm.
Qed.
Lemma performed_snoc (h : list (event M)) e v p : performed (h ++ [e]) v p <->
  performed h v p \/ (exists a b c, e = ERender v p a b c /\ v < length (kinds h) /\ p < viewports h).
Proof.
  split.
  - intros (h1 & h2 & a & b & c & E & V & P). apply snoc_split in E. destruct E as [(_ & -> & ->)|(h3 & _ & ->)].
    + right. exists a, b, c. auto.
    + left. exists h1, h3, a, b, c. auto.
  - intros [(h1 & h2 & a & b & c & -> & V & P)|(a & b & c & -> & V & P)].
    + exists h1, (h2 ++ [e]), a, b, c. rewrite <- app_assoc. auto.
    + exists h, [], a, b, c. auto.
Qed.
(** What scenes keep of their history. *)
Record kept (sz : size) (h : list (event M)) (s : scene) : Prop := mkKept {
  k_kinds : map v_kind (s_visuals s) = kinds h;
  k_views : length (s_views s) = viewports h;
  k_on : forall v p, on s v p <-> performed h v p;
  k_given : forall v x, nth_error (s_visuals s) v = Some x -> (v_model x, v_view x, v_proj x) = last_given 0 0 h v (eye, eye, eye);
  k_none : forall v, length (s_visuals s) <= v -> last_given 0 0 h v (eye, eye, eye) = (eye, eye, eye);
  k_size : s_size s = last_size h sz;
  k_laid : forall p, p < viewports h -> nth_error (s_views s) p = Some (last_size h sz) }.
Lemma on_same (s s' : scene) : s_visuals s' = s_visuals s -> forall v p, on s' v p <-> on s v p.
Proof. intros E v p. unfold on. now rewrite E. Qed.
Lemma on_render s v p a b c v' p' : inv s -> on (render s v p a b c) v' p' <->
  on s v' p' \/ ((v', p') = (v, p) /\ v < length (s_visuals s) /\ p < length (s_views s)).
Proof.
  intros I. unfold Scene.render.
  destruct (nth_error (s_visuals s) v) as [x|] eqn:X; [|apply nth_error_None in X; intuition lia].
  destruct (nth_error (s_views s) p) as [laid|] eqn:L; [|apply nth_error_None in L; intuition lia].
  destruct (nth_error (s_axes s) p) as [ch|] eqn:A; [|apply nth_error_None in A; rewrite (i_axes s I) in A; intuition lia].
  assert (v < length (s_visuals s)) by (apply nth_error_Some; congruence). assert (p < length (s_views s)) by (apply nth_error_Some; congruence).
  cbv zeta. unfold on. cbn [s_visuals]. rewrite nth_error_upd. destruct (Nat.eqb_spec v' v) as [->|D].
  - rewrite X. split.
    + intros (x1 & E & P). injection E as <-. cbn [v_on] in P. destruct (existsb (Nat.eqb p) (v_on x)); [left; eauto|].
      apply in_app_or in P. destruct P as [P|[<-|[]]]; [left; eauto|right; auto].
    + intros Q. eexists. split; [reflexivity|]. cbn [v_on]. destruct Q as [(x1 & E & P)|(E & _ & _)].
      * injection E as <-. destruct (existsb (Nat.eqb p) (v_on x)); [exact P|apply in_or_app; now left].
      * injection E as ->. destruct (existsb (Nat.eqb p) (v_on x)) eqn:K; [now apply existsb_nat|]. apply in_or_app. right. now left.
  - split; [now left|]. intros [Q|(E & _ & _)]; [exact Q|congruence].
Qed.
Lemma history_kept sz h : kept sz h (run (start sz) h).
Proof.
  induction h as [|e h IH] using rev_ind.
  - split; cbn; auto.
    + intros v p. split; [intros (x & X & _); destruct v; discriminate|]. intros (h1 & h2 & a & b & c & E & _). destruct h1; discriminate.
    + intros [|v] x; discriminate.
    + intros p L. lia.
  - pose proof (run_inv sz h) as I. rewrite run_snoc. set (s := run (start sz) h) in *. destruct IH as [K1 K2 K3 K4 K5 K6 K7].
    assert (KL : length (s_visuals s) = length (kinds h)) by (rewrite <- K1; now rewrite map_length).
    destruct e as [|k|v0 p0 a b c|z|]; cbn [Scene.step].
    + split; cbn [new_viewport s_size s_visuals s_axes s_callbacks s_log s_views s_shown s_drawn]; rewrite ?kinds_app, ?viewports_app, ?last_size_app; cbn [kinds viewports last_size]; rewrite ?app_nil_r; auto.
      * rewrite app_length, K2. reflexivity.
      * intros v p. rewrite performed_snoc. rewrite (on_same s) by reflexivity. rewrite K3. split; [now left|]. intros [H|(a & b & c & E & _)]; [exact H|discriminate].
      * intros v x X. rewrite last_given_app. cbn [last_given]. auto.
      * intros v L. rewrite last_given_app. cbn [last_given]. auto.
      * intros p L. rewrite nth_error_snoc, K2. destruct (Nat.eqb_spec p (viewports h)) as [->|]; [now rewrite K6|apply K7; lia].
    + split; cbn [new_visual s_size s_visuals s_axes s_callbacks s_log s_views s_shown s_drawn]; rewrite ?kinds_app, ?viewports_app, ?last_size_app; cbn [kinds viewports last_size]; rewrite ?Nat.add_0_r; auto.
      * rewrite map_app, K1. reflexivity.
      * intros v p. rewrite performed_snoc. rewrite <- K3. split.
        -- intros (x & X & P). left. cbn [new_visual s_visuals] in X. rewrite nth_error_snoc in X. destruct (v =? length (s_visuals s)); [injection X as <-; destruct P|exists x; auto].
        -- intros [(x & X & P)|(a & b & c & E & _)]; [|discriminate]. exists x. split; [|exact P]. cbn [new_visual s_visuals]. rewrite nth_error_app1; [exact X|]. apply nth_error_Some. congruence.
      * intros v x X. rewrite last_given_app. cbn [last_given]. rewrite nth_error_snoc in X. destruct (Nat.eqb_spec v (length (s_visuals s))) as [->|]; [|auto].
        injection X as <-. cbn. symmetry. apply K5. lia.
      * intros v L. rewrite last_given_app. cbn [last_given]. apply K5. rewrite app_length in L. lia.
    + pose proof (on_render s v0 p0 a b c) as OR.
      assert (SAME : length (s_visuals s) <= v0 \/ length (s_views s) <= p0 -> render s v0 p0 a b c = s).
      { intros [L|L]; unfold Scene.render; apply nth_error_None in L; rewrite L; [reflexivity|]. now destruct (nth_error (s_visuals s) v0). }
      assert (GIV : forall v ms, last_given 0 0 (h ++ [ERender v0 p0 a b c]) v ms =
         if (v0 =? v)%nat && (v <? length (s_visuals s))%nat && (p0 <? length (s_views s))%nat then let '(m, vw, pr) := last_given 0 0 h v ms in (keep a m, keep b vw, keep c pr) else last_given 0 0 h v ms).
      { intros v ms. rewrite last_given_app. cbn [last_given]. cbn [Nat.add]. rewrite K2, <- KL. reflexivity. }
      assert (P1 : map v_kind (s_visuals (render s v0 p0 a b c)) = map v_kind (s_visuals s) /\ s_views (render s v0 p0 a b c) = s_views s /\ s_size (render s v0 p0 a b c) = s_size s).
      { unfold Scene.render. destruct (nth_error (s_visuals s) v0) as [x|] eqn:X; [|auto]. destruct (nth_error (s_views s) p0); [|auto]. destruct (nth_error (s_axes s) p0); [|auto].
        cbn [s_visuals s_views s_size]. split; [|auto]. clear - X. revert v0 X. induction (s_visuals s) as [|y l IHl]; intros [|v0] X; cbn in *; try discriminate; [injection X as <-; reflexivity|]. f_equal. now apply IHl. }
      destruct P1 as (P1 & P2 & P3).
      assert (P4 : length (s_visuals (render s v0 p0 a b c)) = length (s_visuals s)) by (rewrite <- (map_length v_kind), P1; now rewrite map_length).
      split; rewrite ?kinds_app, ?viewports_app, ?last_size_app; cbn [kinds viewports last_size]; rewrite ?app_nil_r, ?Nat.add_0_r, ?P1, ?P2, ?P3; auto.
      * intros v p. rewrite (OR v p I), K3, performed_snoc, KL, K2. split; (intros [H|H]; [now left|right]).
        -- destruct H as (E & V & P). injection E as -> ->. exists a, b, c. auto.
        -- destruct H as (a' & b' & c' & E & V & P). injection E as -> -> -> -> ->. auto.
      * intros v x X. rewrite GIV. destruct (Nat.eqb_spec v0 v) as [->|D]; cbn [andb].
        -- assert (V : v < length (s_visuals s)) by (rewrite <- P4; apply nth_error_Some; congruence).
           destruct (Nat.ltb_spec v (length (s_visuals s))); [|lia]. destruct (Nat.ltb_spec p0 (length (s_views s))) as [L|L]; cbn [andb].
           ++ unfold Scene.render in X. destruct (nth_error (s_visuals s) v) as [y|] eqn:Y; [|apply nth_error_None in Y; lia].
              destruct (nth_error (s_views s) p0) eqn:L2; [|apply nth_error_None in L2; lia].
              destruct (nth_error (s_axes s) p0) eqn:A2; [|apply nth_error_None in A2; rewrite (i_axes s I) in A2; lia].
              cbn [s_visuals] in X. rewrite nth_error_upd, Nat.eqb_refl, Y in X. injection X as <-. cbn [v_model v_view v_proj]. rewrite <- (K4 v y Y). reflexivity.
           ++ rewrite SAME in X by (now right). auto.
        -- apply K4. unfold Scene.render in X. destruct (nth_error (s_visuals s) v0) as [y|]; [|exact X]. destruct (nth_error (s_views s) p0); [|exact X]. destruct (nth_error (s_axes s) p0); [|exact X].
           cbn [s_visuals] in X. rewrite nth_error_upd in X. destruct (Nat.eqb_spec v v0); [congruence|exact X].
      * intros v L. rewrite P4 in L. rewrite GIV. destruct (Nat.ltb_spec v (length (s_visuals s))); [lia|]. rewrite andb_false_r. cbn [andb]. auto.
    + destruct (resized s z I) as [J1 J2 J3 J4 J5 J6 J7 J8 J9 J10 J11 J12]. cbn [sized s_size s_visuals s_axes s_callbacks s_log s_views s_shown s_drawn] in *.
      split; rewrite ?kinds_app, ?viewports_app, ?last_size_app; cbn [kinds viewports last_size]; rewrite ?app_nil_r, ?Nat.add_0_r, ?J1, ?J2, ?J6; auto.
      * intros v p. rewrite (on_same s) by exact J2. rewrite K3, performed_snoc. split; [now left|]. intros [H|(a & b & c & E & _)]; [exact H|discriminate].
      * intros v x X. rewrite last_given_app. cbn [last_given]. auto.
      * intros v L. rewrite last_given_app. cbn [last_given]. auto.
      * intros p L. rewrite J7; [reflexivity| |lia]. apply (i_update s I). lia.
    + split; cbn [draw s_size s_visuals s_axes s_callbacks s_log s_views s_shown s_drawn]; rewrite ?kinds_app, ?viewports_app, ?last_size_app; cbn [kinds viewports last_size]; rewrite ?app_nil_r, ?Nat.add_0_r; auto.
      * intros v p. rewrite performed_snoc. rewrite (on_same s) by reflexivity. rewrite K3. split; [now left|]. intros [H|(a & b & c & E & _)]; [exact H|discriminate].
      * intros v x X. rewrite last_given_app. cbn [last_given]. auto.
      * intros v L. rewrite last_given_app. cbn [last_given]. auto.
Qed.

(** ** The properties *)
Lemma visual_of sz h v k : nth_error (kinds h) v = Some k -> exists x, nth_error (s_visuals (run (start sz) h)) v = Some x /\ v_kind x = k.
Proof.
  intros E. rewrite <- (k_kinds _ _ _ (history_kept sz h)) in E. rewrite nth_error_map in E. destruct (nth_error (s_visuals _) v) as [x|]; [|discriminate]. exists x. now injection E as <-.
Qed.
Theorem times_drawn sz h v p k : nth_error (kinds h) v = Some k -> performed h v p ->
  times (run (start sz) h) v p = match k with Scatter => 2 | Plain => 1 end.
Proof.
  intros K P. destruct (visual_of sz h v k K) as (x & X & <-). rewrite (i_times _ (run_inv sz h) v p x X).
  apply (k_on _ _ _ (history_kept sz h)) in P. destruct P as (y & Y & P). rewrite X in Y. injection Y as <-. now rewrite (proj2 (existsb_nat p (v_on x)) P).
Qed.
Theorem not_drawn sz h v p : ~ performed h v p -> times (run (start sz) h) v p = 0 /\ s_shown (run (start sz) h) v p = None.
Proof.
  intros N. split.
  - destruct (nth_error (s_visuals (run (start sz) h)) v) as [x|] eqn:X.
    + rewrite (i_times _ (run_inv sz h) v p x X). destruct (existsb (Nat.eqb p) (v_on x)) eqn:E; [|reflexivity].
      exfalso. apply N, (k_on _ _ _ (history_kept sz h)). exists x. split; [exact X|now apply existsb_nat].
    + apply nth_error_None in X. apply (i_no_times _ (run_inv sz h) v p X).
  - revert N. induction h as [|e h IH] using rev_ind; [reflexivity|]. intros N. rewrite performed_snoc in N.
    assert (N' : ~ performed h v p) by tauto. specialize (IH N'). rewrite run_snoc. pose proof (run_inv sz h) as I. pose proof (history_kept sz h) as K. set (s := run (start sz) h) in *.
    destruct e as [|k|v0 p0 a b c|z|]; cbn [Scene.step]; try exact IH.
    + unfold Scene.render. destruct (nth_error (s_visuals s) v0) as [x|] eqn:X; [|exact IH]. destruct (nth_error (s_views s) p0) eqn:L; [|exact IH]. destruct (nth_error (s_axes s) p0); [|exact IH].
      cbv zeta. cbn [s_shown]. destruct (product _ _ _ _); [|exact IH]. unfold show. destruct (Nat.eqb_spec v0 v) as [->|]; [|exact IH]. destruct (Nat.eqb_spec p0 p) as [->|]; [|exact IH].
      exfalso. apply N. right. exists a, b, c. split; [reflexivity|]. rewrite <- (k_kinds _ _ _ K), <- (k_views _ _ _ K), map_length. split; apply nth_error_Some; congruence.
    + rewrite (c_unshown _ _ _ (resized s z I)); [exact IH|]. intros Q. apply (i_render s I) in Q. apply N', (k_on _ _ _ K). exact Q.
Qed.
(** Rendering shows the product of the matrices given last, for the size of now. *)
Theorem render_shows sz h v p a b c t : v < length (kinds h) -> p < viewports h ->
  transform mul (last_given 0 0 (h ++ [ERender v p a b c]) v (eye, eye, eye)) = Some t ->
  s_shown (run (start sz) (h ++ [ERender v p a b c])) v p = Some (t, last_size h sz).
Proof.
  intros V P T. rewrite run_snoc. pose proof (run_inv sz h) as I. pose proof (history_kept sz h) as K. set (s := run (start sz) h) in *.
  rewrite last_given_app in T. cbn [last_given Nat.add] in T. rewrite Nat.eqb_refl in T. destruct (Nat.ltb_spec v (length (kinds h))); [|lia]. destruct (Nat.ltb_spec p (viewports h)); [|lia]. cbn [andb] in T.
  cbn [Scene.step]. unfold Scene.render.
  destruct (nth_error (s_visuals s) v) as [x|] eqn:X; [|apply nth_error_None in X; rewrite <- (k_kinds _ _ _ K), map_length in V; lia].
  rewrite (k_laid _ _ _ K p P). destruct (nth_error (s_axes s) p) eqn:A; [|apply nth_error_None in A; rewrite (i_axes s I), (k_views _ _ _ K) in A; lia].
  cbv zeta. cbn [s_shown]. rewrite <- (k_given _ _ _ K v x X) in T. cbn [transform] in T.
  change (product mul (given c (v_proj x)) (given b (v_view x)) (given a (v_model x)) = Some t) in T. rewrite T. unfold show. now rewrite !Nat.eqb_refl.
Qed.
Theorem render_others sz h v p a b c v' p' : (v', p') <> (v, p) ->
  let s := run (start sz) h in let s' := run (start sz) (h ++ [ERender v p a b c]) in
  s_shown s' v' p' = s_shown s v' p' /\ times s' v' p' = times s v' p' /\ s_views s' = s_views s /\ s_drawn s' = s_drawn s /\
  (v' <> v -> nth_error (s_visuals s') v' = nth_error (s_visuals s) v').
Proof.
  intros D s s'. subst s'. rewrite run_snoc. fold s. cbn [Scene.step]. unfold Scene.render.
  destruct (nth_error (s_visuals s) v) as [x|] eqn:X; [|auto]. destruct (nth_error (s_views s) p) as [laid|] eqn:L; [|auto]. destruct (nth_error (s_axes s) p) as [ch|] eqn:A; [|auto].
  cbv zeta. unfold times. cbn [s_shown s_axes s_views s_drawn s_visuals]. split; [|split; [|split; [|split]]]; auto.
  - destruct (product _ _ _ _); [|reflexivity]. unfold show. destruct (Nat.eqb_spec v v') as [->|]; [|reflexivity]. destruct (Nat.eqb_spec p p') as [->|]; [congruence|reflexivity].
  - destruct (existsb (Nat.eqb p) (v_on x)); [reflexivity|]. destruct (Nat.eq_dec p p') as [<-|N].
    + rewrite (nth_axes _ _ (ch ++ children (v_kind x) v)) by (rewrite nth_error_upd, Nat.eqb_refl, A; reflexivity). rewrite (nth_axes _ _ _ A), count_occ_app, count_children.
      destruct (Nat.eqb_spec v v') as [->|]; [congruence|lia].
    + f_equal. destruct (nth_error (s_axes s) p') as [ch'|] eqn:A'.
      * apply not_eq_sym, Nat.eqb_neq in N. rewrite (nth_axes _ _ ch'), (nth_axes _ _ ch') by (rewrite ?nth_error_upd, ?N; exact A'). reflexivity.
      * apply nth_error_None in A'. rewrite !nth_overflow; rewrite ?upd_length; auto.
  - intros N. rewrite nth_error_upd. destruct (Nat.eqb_spec v' v); congruence.
Qed.
Theorem resize_shows sz h v p z : performed h v p ->
  s_shown (run (start sz) (h ++ [EResize z])) v p =
  match transform mul (last_given 0 0 h v (eye, eye, eye)) with
  | Some t => Some (t, z)
  | None => s_shown (run (start sz) h) v p
  end.
Proof.
  intros P. rewrite run_snoc. pose proof (run_inv sz h) as I. pose proof (history_kept sz h) as K. set (s := run (start sz) h) in *. cbn [Scene.step].
  apply (k_on _ _ _ K) in P. destruct P as (x & X & P).
  assert (T : v_transform x = transform mul (last_given 0 0 h v (eye, eye, eye))).
  { rewrite <- (k_given _ _ _ K v x X). apply (i_trans s I v x X). intros N. rewrite N in P. destruct P. }
  pose proof (resized s z I) as C. destruct (transform mul _) as [t|] eqn:E.
  - apply (c_shown _ _ _ C v p x t); auto.
    + apply (i_render s I). exists x. auto.
    + intros l1 l2 Q. eapply (i_order s I). exact Q.
  - apply (c_undefined _ _ _ C v p x X T).
Qed.
Theorem resize_lays_out sz h p z : p < viewports h -> nth_error (s_views (run (start sz) (h ++ [EResize z]))) p = Some z.
Proof.
  intros P. rewrite (k_laid _ _ _ (history_kept sz (h ++ [EResize z])) p); [now rewrite last_size_app|]. rewrite viewports_app. cbn. lia.
Qed.
Theorem resize_draws sz h z : s_drawn (run (start sz) (h ++ [EResize z])) = Some (s_views (run (start sz) h), s_shown (run (start sz) h)).
Proof.
  rewrite run_snoc. pose proof (run_inv sz h) as I. set (s := run (start sz) h) in *. cbn [Scene.step]. unfold Scene.resize.
  destruct (i_draw s I) as (r & E & N). rewrite E at 1. cbn [fold_left Scene.call].
  set (s1 := draw _). assert (I1 : inv s1) by (apply (inv_same s); auto).
  assert (O : forall v p, In (CRender v p) r -> on s1 v p).
  { intros v p Q. apply (on_same s); [reflexivity|]. apply (i_render s I). rewrite E. now right. }
  rewrite (c_drawn _ _ _ (calls s1 r I1 O) N). reflexivity.
Qed.
Theorem drawn_old sz h z p : p < viewports h ->
  exists sizes c, s_drawn (run (start sz) (h ++ [EResize z])) = Some (sizes, c) /\ nth_error sizes p = Some (last_size h sz) /\ c = s_shown (run (start sz) h).
Proof.
  intros P. exists (s_views (run (start sz) h)), (s_shown (run (start sz) h)). split; [apply resize_draws|]. split; [|reflexivity].
  apply (k_laid _ _ _ (history_kept sz h) p P).
Qed.
(** A visual rendered in one viewport only. *)
Theorem alone_shows sz h v p t : (forall q, performed h v q -> q = p) -> performed h v p ->
  transform mul (last_given 0 0 h v (eye, eye, eye)) = Some t -> s_shown (run (start sz) h) v p = Some (t, last_size h sz).
Proof.
  induction h as [|e h IH] using rev_ind; intros A P T.
  - destruct P as (h1 & h2 & a & b & c & E & _). destruct h1; discriminate.
  - assert (A' : forall q, performed h v q -> q = p) by (intros q Q; apply A, performed_snoc; now left).
    assert (OLD : (forall a b c, e <> ERender v p a b c) -> performed h v p).
    { intros N. apply performed_snoc in P. destruct P as [P|(a & b & c & E & _)]; [exact P|]. exfalso. now apply (N a b c). }
    destruct e as [|k|v0 p0 a b c|z|].
    + rewrite last_given_app in T. cbn [last_given] in T. specialize (IH A' (OLD ltac:(discriminate)) T). rewrite run_snoc, last_size_app. exact IH.
    + rewrite last_given_app in T. cbn [last_given] in T. specialize (IH A' (OLD ltac:(discriminate)) T). rewrite run_snoc, last_size_app. exact IH.
    + rewrite last_size_app. cbn [last_size].
      destruct (Nat.lt_ge_cases v0 (length (kinds h))) as [V0|V0].
      * destruct (Nat.lt_ge_cases p0 (viewports h)) as [P0|P0].
        -- destruct (Nat.eq_dec v0 v) as [->|D].
           ++ assert (E : p0 = p) by (apply A, performed_snoc; right; exists a, b, c; auto). subst p0. now apply render_shows.
           ++ destruct (render_others sz h v0 p0 a b c v p) as (S1 & _); [congruence|]. rewrite S1. apply IH; auto.
              ** apply OLD. intros a' b' c' E. congruence.
              ** rewrite last_given_app in T. cbn [last_given] in T. apply Nat.eqb_neq in D. rewrite D in T. exact T.
        -- rewrite run_snoc. assert (SAME : render (run (start sz) h) v0 p0 a b c = run (start sz) h).
           { unfold Scene.render. destruct (nth_error (s_visuals _) v0); [|reflexivity]. destruct (nth_error (s_views (run (start sz) h)) p0) eqn:L; [|reflexivity].
             exfalso. apply (Nat.lt_irrefl (viewports h)). apply (Nat.le_lt_trans _ p0); [exact P0|]. rewrite <- (k_views _ _ _ (history_kept sz h)). apply nth_error_Some. congruence. }
           cbn [Scene.step]. rewrite SAME. apply IH; auto.
           ++ apply performed_snoc in P. destruct P as [P|(a' & b' & c' & E & _ & P)]; [exact P|]. injection E as -> -> _ _ _. lia.
           ++ rewrite last_given_app in T. cbn [last_given Nat.add] in T. destruct (Nat.ltb_spec p0 (viewports h)); [lia|]. rewrite andb_false_r in T. exact T.
      * rewrite run_snoc. assert (SAME : render (run (start sz) h) v0 p0 a b c = run (start sz) h).
        { unfold Scene.render. destruct (nth_error (s_visuals (run (start sz) h)) v0) eqn:L; [|reflexivity].
          exfalso. apply (Nat.lt_irrefl v0). apply (Nat.lt_le_trans _ (length (kinds h))); [|exact V0]. rewrite <- (k_kinds _ _ _ (history_kept sz h)), map_length. apply nth_error_Some. congruence. }
        cbn [Scene.step]. rewrite SAME. apply IH; auto.
        -- apply performed_snoc in P. destruct P as [P|(a' & b' & c' & E & P & _)]; [exact P|]. injection E as -> -> _ _ _. lia.
        -- rewrite last_given_app in T. cbn [last_given Nat.add] in T. destruct (Nat.eqb_spec v0 v) as [->|D]; [|exact T]. destruct (Nat.ltb_spec v (length (kinds h))); [lia|]. exact T.
    + rewrite (resize_shows sz h v p z) by (apply OLD; discriminate). rewrite last_given_app in T. cbn [last_given] in T. rewrite T, last_size_app. reflexivity.
    + rewrite last_given_app in T. cbn [last_given] in T. specialize (IH A' (OLD ltac:(discriminate)) T). rewrite run_snoc, last_size_app. exact IH.
Qed.
Theorem alone_kept sz h v p z t : (forall q, performed h v q -> q = p) -> performed h v p ->
  transform mul (last_given 0 0 h v (eye, eye, eye)) = Some t ->
  shown_transform (run (start sz) (h ++ [EResize z])) v p = shown_transform (run (start sz) h) v p.
Proof.
  intros A P T. unfold shown_transform. rewrite (resize_shows sz h v p z P), T, (alone_shows sz h v p t A P T). reflexivity.
Qed.
(** Two viewports. *)
Theorem resize_mixes sz h v p q m w r m' w' r' t t' z : v < length (kinds h) -> p < viewports h -> q < viewports h -> p <> q ->
  transform mul (m, w, r) = Some t -> transform mul (m', w', r') = Some t' ->
  let s := run (start sz) (h ++ [ERender v p (Some m) (Some w) (Some r); ERender v q (Some m') (Some w') (Some r')]) in
  let s' := run (start sz) (h ++ [ERender v p (Some m) (Some w) (Some r); ERender v q (Some m') (Some w') (Some r'); EResize z]) in
  shown_transform s v p = Some t /\ shown_transform s' v p = Some t'.
Proof.
  intros V P Q D T T' s s'.
  assert (G : forall (h' : list (event M)) ms, length (kinds h') = length (kinds h) -> viewports h' = viewports h -> forall p0 m0 w0 r0, p0 < viewports h -> last_given 0 0 (h' ++ [ERender v p0 (Some m0) (Some w0) (Some r0)]) v ms = (m0, w0, r0)).
  { intros h' ms H1 H2 p0 m0 w0 r0 H3. rewrite last_given_app. cbn [last_given Nat.add]. rewrite Nat.eqb_refl, H1, H2. destruct (Nat.ltb_spec v (length (kinds h))); [|lia]. destruct (Nat.ltb_spec p0 (viewports h)); [|lia]. cbn [andb].
    destruct (last_given 0 0 h' v ms) as ((? & ?) & ?). reflexivity. }
  set (e1 := ERender v p (Some m) (Some w) (Some r)) in *. set (e2 := ERender v q (Some m') (Some w') (Some r')) in *.
  assert (E1 : length (kinds (h ++ [e1])) = length (kinds h)) by (rewrite kinds_app; cbn; now rewrite app_nil_r).
  assert (E2 : viewports (h ++ [e1]) = viewports h) by (rewrite viewports_app; cbn; lia).
  unfold shown_transform. split.
  - subst s. change [e1; e2] with ([e1] ++ [e2]). rewrite app_assoc. destruct (render_others sz (h ++ [e1]) v q (Some m') (Some w') (Some r') v p) as (S1 & _); [congruence|].
    fold e2 in S1. rewrite S1. unfold e1. rewrite (render_shows sz h v p _ _ _ t V P); [reflexivity|]. rewrite G by auto. exact T.
  - subst s'. replace (h ++ [e1; e2; EResize z]) with (((h ++ [e1]) ++ [e2]) ++ [EResize z]) by (rewrite <- !app_assoc; reflexivity).
    rewrite resize_shows.
    + unfold e2. rewrite G by auto. rewrite T'. reflexivity.
    + apply performed_snoc. left. apply performed_snoc. right. exists (Some m), (Some w), (Some r). auto.
Qed.

(** ** Recording *)
Record alike (s1 s2 : scene) : Prop := mkAlike {
  l_visuals : s_visuals s1 = s_visuals s2;
  l_axes : s_axes s1 = s_axes s2;
  l_callbacks : s_callbacks s1 = s_callbacks s2;
  l_views : length (s_views s1) = length (s_views s2);
  l_shown : forall v p, shown_transform s1 v p = shown_transform s2 v p }.
Lemma alike_render s1 s2 v p a b c : alike s1 s2 -> alike (render s1 v p a b c) (render s2 v p a b c).
Proof.
  intros [A1 A2 A3 A4 A5]. unfold Scene.render. rewrite A1, A2.
  destruct (nth_error (s_visuals s2) v) as [x|] eqn:X; [|split; auto].
  destruct (nth_error (s_views s1) p) as [l1|] eqn:L1; destruct (nth_error (s_views s2) p) as [l2|] eqn:L2.
  - destruct (nth_error (s_axes s2) p) as [ch|]; [|split; auto]. cbv zeta. split; cbn [s_visuals s_axes s_callbacks s_views]; rewrite ?A1, ?A2, ?A3; auto.
    intros v' p'. unfold shown_transform. cbn [s_shown]. destruct (product _ _ _ _); [|apply A5]. unfold show. destruct ((v =? v') && (p =? p')); [reflexivity|apply A5].
  - apply nth_error_None in L2. assert (p < length (s_views s1)) by (apply nth_error_Some; congruence). lia.
  - apply nth_error_None in L1. assert (p < length (s_views s2)) by (apply nth_error_Some; congruence). lia.
  - split; auto.
Qed.
Lemma alike_calls l s1 s2 : alike s1 s2 -> alike (fold_left call l s1) (fold_left (execute mul eye) (flat_map log_of l) s2).
Proof.
  revert s1 s2. induction l as [|c l IH]; intros s1 s2 A; cbn [fold_left flat_map]; [exact A|]. rewrite fold_left_app. apply IH.
  destruct c as [|p|v p]; cbn [Scene.call log_of fold_left Scene.execute].
  - destruct A as [A1 A2 A3 A4 A5]. split; auto.
  - destruct A as [A1 A2 A3 A4 A5]. split; cbn [update s_visuals s_axes s_callbacks s_views]; rewrite ?upd_length; auto.
  - now apply alike_render.
Qed.
Lemma log_render s v p a b c : render s v p a b c = s \/ s_log (render s v p a b c) = s_log s ++ [LRender v p a b c].
Proof.
  unfold Scene.render. destruct (nth_error (s_visuals s) v); [|now left]. destruct (nth_error (s_views s) p); [|now left]. destruct (nth_error (s_axes s) p); [|now left]. now right.
Qed.
Theorem replayed sz sz' h : alike (run (start sz) h) (replay mul eye sz' (s_log (run (start sz) h))).
Proof.
  induction h as [|e h IH] using rev_ind; [split; auto|]. rewrite run_snoc. pose proof (run_inv sz h) as I. set (s := run (start sz) h) in *. unfold replay in *.
  destruct e as [|k|v p a b c|z|]; cbn [Scene.step].
  - cbn [new_viewport s_log]. rewrite fold_left_app. cbn [fold_left Scene.execute]. destruct IH as [A1 A2 A3 A4 A5]. split; cbn [new_viewport s_visuals s_axes s_callbacks s_views]; rewrite ?A1, ?A2, ?A3, ?A4, ?app_length; auto.
  - cbn [new_visual s_log]. rewrite fold_left_app. cbn [fold_left Scene.execute]. destruct IH as [A1 A2 A3 A4 A5]. split; cbn [new_visual s_visuals s_axes s_callbacks s_views]; rewrite ?A1, ?A2, ?A3, ?A4; auto.
  - destruct (log_render s v p a b c) as [E|E]; rewrite E; [exact IH|]. rewrite fold_left_app. cbn [fold_left Scene.execute]. now apply alike_render.
  - pose proof (c_log _ _ _ (resized s z I)) as L. cbn [sized s_log] in L. rewrite L, fold_left_app. unfold Scene.resize. fold (sized s z). apply alike_calls.
    destruct IH as [A1 A2 A3 A4 A5]. split; auto.
  - destruct IH as [A1 A2 A3 A4 A5]. split; auto.
Qed.
Theorem resize_records sz h z : exists l, s_log (run (start sz) (h ++ [EResize z])) = s_log (run (start sz) h) ++ l /\ NoDup l /\
  forall e, In e l <-> exists v p, performed h v p /\ e = LRender v p None None None.
Proof.
  rewrite run_snoc. pose proof (run_inv sz h) as I. pose proof (history_kept sz h) as K. set (s := run (start sz) h) in *. cbn [Scene.step].
  exists (flat_map log_of (s_callbacks s)). split; [|split].
  - apply (c_log _ _ _ (resized s z I)).
  - pose proof (i_once s I) as O. revert O. induction (s_callbacks s) as [|c l IH]; intros O; cbn [flat_map]; [constructor|].
    assert (ND : NoDup (flat_map log_of l)).
    { apply IH. intros l1 v p l2 E N. apply (O (c :: l1) v p l2); [rewrite E; reflexivity|]. now right. }
    destruct c as [|p|v p]; cbn [log_of app]; auto. constructor; [|exact ND]. intros N. apply in_flat_map in N. destruct N as (c & C & N).
    destruct c as [|p'|v' p']; cbn in N; try tauto. destruct N as [N|[]]. injection N as -> ->. apply (O [] v p l eq_refl). exact C.
  - intros e. rewrite in_flat_map. split.
    + intros (c & C & N). destruct c as [|p|v p]; cbn in N; try tauto. destruct N as [<-|[]]. exists v, p. split; [|reflexivity]. apply (k_on _ _ _ K), (i_render s I), C.
    + intros (v & p & P & ->). exists (CRender v p). split; [|now left]. apply (i_render s I), (k_on _ _ _ K), P.
Qed.
Theorem replay_alike sz sz' h :
  let s := run (start sz) h in let s' := replay mul eye sz' (s_log s) in
  s_visuals s' = s_visuals s /\ s_axes s' = s_axes s /\ s_callbacks s' = s_callbacks s /\
  forall v p, shown_transform s' v p = shown_transform s v p.
Proof. intros s s'. destruct (replayed sz sz' h) as [A1 A2 A3 A4 A5]. fold s in A1, A2, A3, A5. fold s' in A1, A2, A3, A5. auto. Qed.
End Facts.
