(** Proofs about the events of the camera. *)
From Verif Require Import Base Camera CameraSpec.
Local Open Scope list_scope.

Section Firsts.
  Context {F : Type} `{EqB F}.
  Lemma filter_twice {A} (p q : A -> bool) l : filter p (filter q l) = filter (fun x => q x && p x) l.
  Proof. induction l as [|x l IH]; cbn; [reflexivity|]. destruct (q x); cbn; rewrite ?IH; reflexivity. Qed.
  Lemma eqb_sym_F (x y : F) : Base.eqb x y = Base.eqb y x.
  Proof. destruct (Base.eqb_spec x y), (Base.eqb_spec y x); congruence. Qed.
  Lemma mem_in (x : F) l : existsb (Base.eqb x) l = true <-> In x l.
  Proof.
    rewrite existsb_exists. split.
    - intros (y & I & E). destruct (Base.eqb_spec x y); [now subst|discriminate].
    - intros I. exists x. split; [exact I|]. destruct (Base.eqb_spec x x); congruence.
  Qed.
  Lemma firsts_in l (x : F) : In x (firsts l) <-> In x l.
  Proof.
    induction l as [|y l IH]; cbn; [tauto|]. rewrite filter_In, IH, negb_true_iff.
    destruct (Base.eqb_spec y x); intuition congruence.
  Qed.
  Lemma firsts_nodup (l : list F) : NoDup (firsts l).
  Proof.
    induction l as [|y l IH]; cbn; constructor; [|now apply NoDup_filter].
    rewrite filter_In, negb_true_iff. intros (_ & E). destruct (Base.eqb_spec y y); congruence.
  Qed.
  Lemma filter_snoc {A} (p : A -> bool) l x : filter p (l ++ [x]) = filter p l ++ (if p x then [x] else []).
  Proof. induction l as [|y l IH]; cbn; [destruct (p x); reflexivity|]. rewrite IH. destruct (p y); reflexivity. Qed.
  Lemma firsts_snoc l (x : F) : firsts (l ++ [x]) = if existsb (Base.eqb x) (firsts l) then firsts l else firsts l ++ [x].
  Proof.
    induction l as [|y l IH]; cbn; [reflexivity|]. rewrite IH. rewrite (eqb_sym_F x y).
    destruct (Base.eqb_spec y x) as [->|N]; cbn [orb].
    - destruct (existsb (Base.eqb x) (firsts l)); [reflexivity|]. rewrite filter_snoc.
      destruct (Base.eqb_spec x x); [|congruence]. now rewrite app_nil_r.
    - assert (E : existsb (Base.eqb x) (filter (fun z => negb (Base.eqb y z)) (firsts l)) = existsb (Base.eqb x) (firsts l)).
      { apply eq_true_iff_eq. rewrite !mem_in, filter_In, negb_true_iff. destruct (Base.eqb_spec y x); intuition congruence. }
      rewrite E. destruct (existsb (Base.eqb x) (firsts l)); [reflexivity|]. rewrite filter_snoc.
      destruct (Base.eqb_spec y x); [congruence|]. reflexivity.
  Qed.
End Firsts.

Section Camera.
  Context {F M T : Type} `{EqB F} (drag_to : T -> Qc -> Qc -> Qc -> Qc -> T) (model : T -> M) (figure : nat -> nat).
  Notation camera := (@camera F M T).
  Notation op := (@op F).
  Notation step := (step drag_to model figure).
  Notation steps := (steps drag_to model figure).
  Lemma steps_app (c : camera) h h' : steps c (h ++ h') = steps (steps c h) h'.
  Proof. apply fold_left_app. Qed.
  Lemma steps_snoc (c : camera) h o : steps c (h ++ [o]) = fst (step (steps c h) o).
  Proof. now rewrite steps_app. Qed.

  Definition kind_name (k : kind) : string := match k with Motion => "motion" | Scroll => "scroll" | Press => "press" | Release => "release" end.
  Lemma kind_of_name name k : kind_of name = Some k <-> name = kind_name k.
  Proof.
    unfold kind_of. destruct (String.eqb_spec name "motion") as [->|A].
    { destruct k; cbn; split; intros E; congruence. }
    destruct (String.eqb_spec name "scroll") as [->|B]. { destruct k; cbn; split; intros E; congruence. }
    destruct (String.eqb_spec name "press") as [->|C]. { destruct k; cbn; split; intros E; congruence. }
    destruct (String.eqb_spec name "release") as [->|D]. { destruct k; cbn; split; intros E; congruence. }
    split; [discriminate|]. intros ->. destruct k; cbn in *; congruence.
  Qed.
  Lemma valid_kind name : valid name <-> exists k, kind_of name = Some k.
  Proof.
    split.
    - intros [<-|[<-|[<-|[<-|[]]]]]; eexists; reflexivity.
    - intros (k & E). apply kind_of_name in E. subst. destruct k; cbn; auto.
  Qed.
  (** What one step leaves. *)
  Definition same_but_ball_mouse (c c' : camera) : Prop :=
    c_view c' = c_view c /\ c_proj c' = c_proj c /\ c_updates c' = c_updates c /\ c_viewport c' = c_viewport c /\
    c_cids c' = c_cids c /\ c_figures c' = c_figures c.
  Lemma event_same (c : camera) e : same_but_ball_mouse c (fst (on_event drag_to model figure c e)).
  Proof.
    unfold on_event, same_but_ball_mouse. destruct (m_kind e); cbn.
    - destruct (c_mouse c) as [[x y]|]; [|cbn; auto 10]. destruct (over c e); [|cbn; auto 10]. destruct (c_ball c); cbn; auto 10.
    - destruct (over c e); cbn; auto 10.
    - destruct (over c e); cbn; auto 10.
    - auto 10.
  Qed.
  Lemma mouse_same (c : camera) e : same_but_ball_mouse c (fst (step c (Mouse e))).
  Proof.
    cbn. destruct (mem_nat _ _); [apply event_same|]. cbn. unfold same_but_ball_mouse. auto 10.
  Qed.
  Lemma disconnect_same (c : camera) : let c' := fst (disconnect figure c) in
    c_view c' = c_view c /\ c_proj c' = c_proj c /\ c_updates c' = c_updates c /\ c_viewport c' = c_viewport c /\
    c_cids c' = c_cids c /\ c_mouse c' = c_mouse c /\ c_ball c' = c_ball c /\ c_model c' = c_model c.
  Proof.
    cbv zeta. unfold disconnect. destruct (c_viewport c) eqn:V, (c_cids c) eqn:C; cbn; rewrite ?V, ?C; auto 10.
    destruct (Nat.eqb _ _); cbn; rewrite ?V, ?C; auto 10.
  Qed.
  Lemma updates_ok (ball : option T) (eye view proj : M) k h :
    c_updates (steps (new_camera model ball eye view proj) h) k = firsts (connected k h).
  Proof.
    induction h as [|o h IH] using rev_ind; [reflexivity|].
    rewrite steps_snoc. unfold connected. rewrite flat_map_app. cbn [flat_map]. rewrite app_nil_r.
    set (c := steps _ h) in *. destruct o as [v name f|e| |].
    - cbn. unfold connect. fold (connected k h). change (match k with Motion => _ | Scroll => _ | Press => _ | Release => _ end) with (kind_name k).
      destruct (kind_of name) as [k'|] eqn:K; cbn [fst c_updates].
      + apply kind_of_name in K. subst name.
        destruct (kind_eqb k k') eqn:E.
        * assert (k = k') by (destruct k, k'; discriminate E || reflexivity). subst k'. rewrite String.eqb_refl, IH. symmetry. apply firsts_snoc.
        * destruct (String.eqb_spec (kind_name k') (kind_name k)) as [Q|_]; [destruct k, k'; discriminate|]. now rewrite app_nil_r.
      + destruct (String.eqb_spec name (kind_name k)) as [Q|_]; [|now rewrite app_nil_r].
        apply kind_of_name in Q. congruence.
    - destruct (mouse_same c e) as (_ & _ & -> & _). now rewrite app_nil_r.
    - cbn. now rewrite app_nil_r.
    - cbn. rewrite app_nil_r. destruct (disconnect_same c) as (_ & _ & -> & _). exact IH.
  Qed.
  Lemma last_viewport_snoc (h : list op) o : last_viewport (h ++ [o]) = match o with Connect v _ _ => Some v | _ => last_viewport h end.
  Proof.
    induction h as [|p h IH]; cbn; [destruct o; reflexivity|]. rewrite IH.
    destruct o as [v name f|e| |]; [reflexivity| | |]; reflexivity.
  Qed.
  Lemma viewport_ok (ball : option T) (eye view proj : M) h :
    c_viewport (steps (new_camera model ball eye view proj) h) = last_viewport h.
  Proof.
    induction h as [|o h IH] using rev_ind; [reflexivity|]. rewrite steps_snoc, last_viewport_snoc.
    set (c := steps _ h) in *. destruct o as [v name f|e| |].
    - cbn. unfold connect. destruct (kind_of name); reflexivity.
    - destruct (mouse_same c e) as (_ & _ & _ & -> & _). exact IH.
    - exact IH.
    - cbn. destruct (disconnect_same c) as (_ & _ & _ & -> & _). exact IH.
  Qed.
  (** View and projection never change. *)
  Lemma matrices_step (c : camera) o : c_view (fst (step c o)) = c_view c /\ c_proj (fst (step c o)) = c_proj c.
  Proof.
    destruct o as [v name f|e| |].
    - cbn. unfold connect. destruct (kind_of name); auto.
    - destruct (mouse_same c e) as (-> & -> & _). auto.
    - auto.
    - cbn. destruct (disconnect_same c) as (S1 & S2 & S3 & S4 & S5 & S6 & S7 & S8). rewrite ?S1, ?S2, ?S6, ?S7, ?S8. auto.
  Qed.
  Lemma matrices_kept (c : camera) h : c_view (steps c h) = c_view c /\ c_proj (steps c h) = c_proj c.
  Proof.
    induction h as [|o h IH] using rev_ind; [auto|]. rewrite steps_snoc. destruct (matrices_step (steps c h) o) as (-> & ->). exact IH.
  Qed.
  (** The model matrix is the trackball's, or stays. *)
  Definition in_step (c : camera) : Prop := match c_ball c with Some t => c_model c = model t | None => True end.
  Lemma in_step_step (c : camera) o : in_step c -> in_step (fst (step c o)).
  Proof.
    unfold in_step. intros I. destruct o as [v name f|e| |].
    - cbn. unfold connect. destruct (kind_of name); exact I.
    - cbn. destruct (mem_nat _ _); [|exact I]. unfold on_event. destruct (m_kind e).
      + destruct (c_mouse c) as [[x y]|]; [|exact I]. destruct (over c e); [|exact I]. destruct (c_ball c) eqn:B; cbn; [reflexivity|]. now rewrite B.
      + destruct (over c e); exact I.
      + destruct (over c e); exact I.
      + exact I.
    - exact I.
    - cbn. destruct (disconnect_same c) as (_ & _ & _ & _ & _ & _ & -> & ->). exact I.
  Qed.
  Lemma model_ok (ball : option T) (eye view proj : M) h : in_step (steps (new_camera model ball eye view proj) h).
  Proof.
    induction h as [|o h IH] using rev_ind; [unfold in_step; cbn; destruct ball; auto|]. rewrite steps_snoc. now apply in_step_step.
  Qed.
  Lemma ortho_step (c : camera) o : c_ball c = None -> c_ball (fst (step c o)) = None /\ c_model (fst (step c o)) = c_model c.
  Proof.
    intros B. destruct o as [v name f|e| |].
    - cbn. unfold connect. destruct (kind_of name); auto.
    - cbn. destruct (mem_nat _ _); [|auto]. unfold on_event. destruct (m_kind e).
      + destruct (c_mouse c) as [[x y]|]; [|auto]. destruct (over c e); [|auto]. rewrite B. auto.
      + destruct (over c e); auto.
      + destruct (over c e); auto.
      + auto.
    - auto.
    - cbn. destruct (disconnect_same c) as (S1 & S2 & S3 & S4 & S5 & S6 & S7 & S8). rewrite ?S1, ?S2, ?S6, ?S7, ?S8. auto.
  Qed.
  Lemma ortho_kept (eye view proj : M) h :
    c_ball (steps (new_camera model None eye view proj) h) = None /\ c_model (steps (new_camera model None eye view proj) h) = eye.
  Proof.
    induction h as [|o h IH] using rev_ind; [auto|]. rewrite steps_snoc. destruct IH as (A & B).
    destruct (ortho_step (steps (new_camera model None eye view proj) h) o A) as (C & D). split; [exact C|congruence].
  Qed.
  (** Which figures call the camera. *)
  Lemma mem_nat_in n l : mem_nat n l = true <-> In n l.
  Proof. unfold mem_nat. rewrite existsb_exists. split; [intros (m & I & E); apply Nat.eqb_eq in E; now subst|]. intros I. exists n. now rewrite Nat.eqb_refl. Qed.
  Lemma figures_plain (ball : option T) (eye view proj : M) h g : plain h ->
    (In g (c_figures (steps (new_camera model ball eye view proj) h)) <-> exists v name f, In (Connect v name f) h /\ figure v = g).
  Proof.
    induction h as [|o h IH] using rev_ind; intros P.
    - cbn. split; [tauto|]. intros (? & ? & ? & [] & _).
    - unfold plain in P. rewrite Forall_app in P. destruct P as (P & Q). specialize (IH P). apply Forall_inv in Q. rewrite steps_snoc.
      set (c := steps _ h) in *. destruct o as [v name f|e| |].
      + apply valid_kind in Q. destruct Q as (k & K). cbn. unfold connect. rewrite K. cbn [fst c_figures].
        assert (E : In g (if mem_nat (figure v) (c_figures c) then c_figures c else c_figures c ++ [figure v]) <-> In g (c_figures c) \/ figure v = g).
        { destruct (mem_nat (figure v) (c_figures c)) eqn:Y; [|rewrite in_app_iff; cbn; tauto].
          apply mem_nat_in in Y. split; [auto|]. intros [A| <-]; auto. }
        rewrite E, IH. clear E. split.
        * intros [(v' & n' & f' & I & J)|<-]; [exists v', n', f'; rewrite in_app_iff; auto|]. exists v, name, f. rewrite in_app_iff. cbn. auto.
        * intros (v' & n' & f' & I & J). apply in_app_iff in I. destruct I as [I|[I|[]]]; [left; eauto|]. injection I as <- <- <-. auto.
      + destruct (mouse_same c e) as (_ & _ & _ & _ & _ & ->). rewrite IH. split; intros (v' & n' & f' & I & J); exists v', n', f'; (split; [|exact J]).
        * apply in_app_iff; auto.
        * apply in_app_iff in I. destruct I as [I|[I|[]]]; [exact I|discriminate].
      + cbn. rewrite IH. split; intros (v' & n' & f' & I & J); exists v', n', f'; (split; [|exact J]).
        * apply in_app_iff; auto.
        * apply in_app_iff in I. destruct I as [I|[I|[]]]; [exact I|discriminate].
      + destruct Q.
  Qed.
  Lemma last_viewport_in (h : list op) v : last_viewport h = Some v -> exists name f, In (Connect v name f) h.
  Proof.
    induction h as [|o h IH] using rev_ind; [discriminate|]. rewrite last_viewport_snoc. destruct o as [v' name f|e| |]; intros E.
    - injection E as ->. exists name, f. apply in_app_iff. cbn. auto.
    - destruct (IH E) as (n & f & I). exists n, f. apply in_app_iff. auto.
    - destruct (IH E) as (n & f & I). exists n, f. apply in_app_iff. auto.
    - destruct (IH E) as (n & f & I). exists n, f. apply in_app_iff. auto.
  Qed.
  Lemma listens (ball : option T) (eye view proj : M) h v : plain h -> last_viewport h = Some v ->
    mem_nat (figure v) (c_figures (steps (new_camera model ball eye view proj) h)) = true.
  Proof.
    intros P L. apply mem_nat_in. apply figures_plain; [exact P|]. destruct (last_viewport_in h v L) as (n & f & I). eauto 6.
  Qed.
  Lemma heard_ok (ball : option T) (eye view proj : M) h g : plain h ->
    mem_nat g (c_figures (steps (new_camera model ball eye view proj) h)) = heard figure g (rev h).
  Proof.
    intros P. apply eq_true_iff_eq. rewrite mem_nat_in, figures_plain by exact P. unfold heard. rewrite existsb_exists. split.
    - intros (v & n & f & I & J). exists (Connect v n f). rewrite <- in_rev. split; [exact I|]. now apply Nat.eqb_eq.
    - intros (o & I & J). rewrite <- in_rev in I. destruct o as [v n f|e| |]; try discriminate. exists v, n, f. split; [exact I|]. now apply Nat.eqb_eq.
  Qed.
  Lemma dragging_ok (ball : option T) (eye view proj : M) h : plain h ->
    match c_mouse (steps (new_camera model ball eye view proj) h) with Some _ => true | None => false end = dragging figure (rev h).
  Proof.
    induction h as [|o h IH] using rev_ind; intros P; [reflexivity|].
    assert (P' := P). unfold plain in P. rewrite Forall_app in P. destruct P as (P & Q). specialize (IH P). apply Forall_inv in Q.
    pose proof (heard_ok ball eye view proj h) as HO. specialize (fun g => HO g P) as HO'. clear HO.
    pose proof (viewport_ok ball eye view proj h) as V.
    rewrite steps_snoc, rev_app_distr. cbn [rev app]. set (c := steps _ h) in *. destruct o as [v name f|e| |].
    - apply valid_kind in Q. destruct Q as (k & K). cbn. unfold connect. rewrite K. reflexivity.
    - cbn [dragging Camera.step]. rewrite rev_involutive, <- HO', <- IH, <- V. destruct (mem_nat (m_figure e) (c_figures c)).
      + unfold on_event. assert (O : over c e = match c_viewport c with Some v => seen v e | None => false end).
        { unfold over, seen. destruct (m_inaxes e), (c_viewport c); reflexivity. }
        rewrite <- O. destruct (m_kind e); cbn [andb negb].
        * destruct (c_mouse c) as [[x y]|] eqn:D; cbn [fst]; [|rewrite D; reflexivity].
          destruct (over c e); cbn [fst]; [|now rewrite D]. destruct (c_ball c); cbn [fst c_mouse]; [reflexivity|now rewrite D].
        * destruct (over c e); reflexivity.
        * destruct (over c e); reflexivity.
        * reflexivity.
      + cbn [fst]. destruct (m_kind e); reflexivity.
    - exact IH.
    - destruct Q.
  Qed.
  Lemma update_draw_eq (c : camera) k v : c_viewport c = Some v ->
    update_draw figure c k = (map (fun f => Call f v (c_model c) (c_view c) (c_proj c)) (c_updates c k) ++ [Draw (figure v)], Ok tt).
  Proof. intros V. unfold update_draw, update. rewrite V. destruct (c_updates c k); reflexivity. Qed.
  (** The functions called when an event happens. *)
  Definition all_called (c c' : camera) (k : kind) (v : nat) (h : list op) : list action :=
    map (fun f => Call f v (c_model c') (c_view c) (c_proj c)) (firsts (connected k h)) ++ [Draw (figure v)].
  Lemma calls (ball : option T) (eye view proj : M) h v e : plain h -> last_viewport h = Some v -> m_figure e = figure v ->
    let c := steps (new_camera model ball eye view proj) h in
    let r := step c (Mouse e) in
    snd r = (if match m_kind e with
                | Scroll | Press => seen v e
                | Motion => seen v e && dragging figure (rev h) && match ball with Some _ => true | None => false end
                | Release => true
                end
             then map (fun f => Call f v (c_model (fst r)) view proj) (firsts (connected (m_kind e) h)) ++ [Draw (figure v)]
             else [], Ok tt).
  Proof.
    intros P L G c r. pose proof (listens ball eye view proj h v P L) as A. fold c in A. unfold r. cbn [Camera.step]. rewrite G, A.
    pose proof (viewport_ok ball eye view proj h) as V. fold c in V. rewrite L in V.
    assert (U : forall k, c_updates c k = firsts (connected k h)) by (intros k; apply updates_ok).
    destruct (matrices_kept (new_camera model ball eye view proj) h) as (W1 & W2). fold c in W1, W2. cbn in W1, W2.
    assert (O : over c e = seen v e) by (unfold over, seen; rewrite V; reflexivity).
    assert (B : match c_ball c with Some _ => true | None => false end = match ball with Some _ => true | None => false end).
    { unfold c. clear. induction h as [|o h IH] using rev_ind; [reflexivity|]. rewrite steps_snoc, <- IH. set (c := steps _ h).
      destruct o as [v name f|e| |].
      - cbn. unfold connect. destruct (kind_of name); reflexivity.
      - cbn. destruct (mem_nat _ _); [|reflexivity]. unfold on_event. destruct (m_kind e).
        + destruct (c_mouse c) as [[x y]|]; [|reflexivity]. destruct (over c e); [|reflexivity]. destruct (c_ball c) eqn:K; cbn; [reflexivity|]. now rewrite K.
        + destruct (over c e); reflexivity.
        + destruct (over c e); reflexivity.
        + reflexivity.
      - reflexivity.
      - cbn. destruct (disconnect_same c) as (_ & _ & _ & _ & _ & _ & -> & _). reflexivity. }
    unfold on_event. rewrite O. pose proof (dragging_ok ball eye view proj h P) as DR. fold c in DR. rewrite <- DR. destruct (m_kind e) eqn:K.
    - destruct (c_mouse c) as [[x y]|]; [|rewrite andb_false_r; reflexivity]. rewrite andb_true_r.
      destruct (seen v e); [|reflexivity]. cbn [andb]. rewrite <- B. destruct (c_ball c); [|reflexivity].
      cbn [snd fst]. rewrite (update_draw_eq _ _ v) by exact V. cbn [c_updates c_view c_proj c_model]. rewrite U, W1, W2. reflexivity.
    - destruct (seen v e); [|reflexivity]. cbn [snd fst]. rewrite (update_draw_eq _ _ v) by exact V. rewrite U, W1, W2. reflexivity.
    - destruct (seen v e); [|reflexivity]. cbn [snd fst]. rewrite (update_draw_eq _ _ v) by exact V. cbn [with_mouse c_updates c_view c_proj c_model]. rewrite U, W1, W2. reflexivity.
    - cbn [snd fst]. rewrite (update_draw_eq _ _ v) by exact V. cbn [with_mouse c_updates c_view c_proj c_model]. rewrite U, W1, W2. reflexivity.
  Qed.
  Lemma run_calls (ball : option T) (eye view proj : M) h v : last_viewport h = Some v ->
    let c := steps (new_camera model ball eye view proj) h in
    step c Run = (c, (map (fun f => Call f v (c_model c) view proj) (firsts (connected Motion h)), Ok tt)).
  Proof.
    intros L c. cbn. unfold update. pose proof (viewport_ok ball eye view proj h) as V. fold c in V. rewrite V, L.
    pose proof (updates_ok ball eye view proj Motion h) as U. fold c in U. rewrite U.
    destruct (matrices_kept (new_camera model ball eye view proj) h) as (W1 & W2). fold c in W1, W2. cbn in W1, W2.
    rewrite W1, W2. destruct (firsts _); reflexivity.
  Qed.
  Lemma other_figures (ball : option T) (eye view proj : M) h e :
    plain h -> (forall v name f, In (Connect v name f) h -> figure v <> m_figure e) ->
    let c := steps (new_camera model ball eye view proj) h in step c (Mouse e) = (c, ([], Ok tt)).
  Proof.
    intros P N c. cbn. destruct (mem_nat (m_figure e) (c_figures c)) eqn:E; [|reflexivity].
    apply mem_nat_in in E. apply figures_plain in E; [|exact P]. destruct E as (v & n & f & I & J). now apply N in I.
  Qed.
  (** After disconnecting. *)
  Definition quiet (o : op) : Prop := match o with Connect _ _ _ => False | _ => True end.
  Lemma one_figure_state (ball : option T) (eye view proj : M) g h : all_valid h -> one_figure figure g h ->
    let c := steps (new_camera model ball eye view proj) h in
    (forall g', In g' (c_figures c) -> g' = g) /\ (match c_cids c with Some g' => g' = g | None => c_figures c = [] end) /\
    (match c_viewport c with Some v => figure v = g /\ c_cids c <> None | None => c_cids c = None end).
  Proof.
    intros A O. induction h as [|o h IH] using rev_ind; [cbn; tauto|].
    unfold all_valid, one_figure in *. rewrite Forall_app in A, O. destruct A as (A & A'), O as (O & O').
    apply Forall_inv in A'. apply Forall_inv in O'. specialize (IH A O). cbv zeta in *. rewrite steps_snoc. set (c := steps _ h) in *.
    destruct IH as (I & C & V). destruct o as [v name f|e| |].
    - apply valid_kind in A'. destruct A' as (k & K). cbn. unfold connect. rewrite K. cbn. split; [|split; [exact O'|split; [exact O'|discriminate]]].
      intros g'. destruct (mem_nat _ _); [apply I|]. rewrite in_app_iff. intros [J|[<-|[]]]; [now apply I|exact O'].
    - destruct (mouse_same c e) as (_ & _ & _ & -> & -> & ->). auto.
    - cbn. auto.
    - cbn. unfold disconnect. destruct (c_viewport c) as [v|] eqn:E1; [|cbn; rewrite E1; auto]. destruct (c_cids c) as [g'|] eqn:E2; [|cbn; rewrite E1, E2; auto].
      destruct (Nat.eqb _ _); cbn; rewrite ?E1, ?E2; [|auto]. split; [|auto]. intros x J. apply filter_In in J. now apply I.
  Qed.
  Lemma disconnected (ball : option T) (eye view proj : M) g h v l e : all_valid h -> one_figure figure g h -> last_viewport h = Some v ->
    Forall quiet l ->
    let c := steps (new_camera model ball eye view proj) (h ++ Disconnect :: l) in step c (Mouse e) = (c, ([], Ok tt)).
  Proof.
    intros A O L Q c.
    assert (N : c_figures c = []).
    { unfold c. rewrite steps_app. destruct (one_figure_state ball eye view proj g h A O) as (I & C & V). cbv zeta in *.
      pose proof (viewport_ok ball eye view proj h) as W. set (b := steps _ h) in *. rewrite W, L in V. destruct V as (V & D).
      assert (S : c_figures (fst (step b Disconnect)) = []).
      { cbn. unfold disconnect. rewrite W, L. destruct (c_cids b) as [g'|]; [|congruence]. subst. rewrite Nat.eqb_refl. cbn.
        clear - I. induction (c_figures b) as [|x m IH]; [reflexivity|]. cbn. rewrite (I x) by (now left). rewrite Nat.eqb_refl. cbn. apply IH. intros y Y. apply I. now right. }
      change (steps b (Disconnect :: l)) with (steps (fst (step b Disconnect)) l). revert S. generalize (fst (step b Disconnect)). clear - Q.
      induction Q as [|o l Q _ IH]; intros c S; [exact S|]. change (steps c (o :: l)) with (steps (fst (step c o)) l). apply IH.
      destruct o as [v name f|e| |]; [destruct Q| | |].
      - cbn. rewrite S. exact S.
      - exact S.
      - cbn. unfold disconnect. destruct (c_viewport c), (c_cids c); try exact S. destruct (Nat.eqb _ _); [|exact S]. cbn. now rewrite S. }
    cbn. rewrite N. reflexivity.
  Qed.
  (** Dragging. *)
  Lemma follow_ok (c : camera) v t x y l : c_viewport c = Some v -> mem_nat (figure v) (c_figures c) = true ->
    c_ball c = Some t -> c_mouse c = Some (x, y) -> Forall (fun e => m_kind e = Motion /\ m_figure e = figure v) l ->
    c_ball (steps c (map Mouse l)) = Some (follow drag_to v t x y l).
  Proof.
    revert c t x y. induction l as [|e l IH]; intros c t x y V G B S Q; [exact B|].
    inversion Q as [|? ? (K & E) Q']; subst. cbn [map]. change (steps c (Mouse e :: map Mouse l)) with (steps (fst (step c (Mouse e))) (map Mouse l)).
    cbn [Camera.step follow]. rewrite E, G. unfold on_event. rewrite K, S.
    assert (O : over c e = seen v e) by (unfold over, seen; rewrite V; reflexivity). rewrite O. destruct (seen v e).
    - rewrite B. apply IH; auto.
    - apply IH; auto.
  Qed.
  Lemma drag_ok (t0 : T) (eye view proj : M) h v p l t : plain h -> last_viewport h = Some v ->
    m_kind p = Press -> m_figure p = figure v -> seen v p = true ->
    Forall (fun e => m_kind e = Motion /\ m_figure e = figure v) l ->
    let c0 := new_camera model (Some t0) eye view proj in
    c_ball (steps c0 h) = Some t ->
    let c := steps c0 (h ++ Mouse p :: map Mouse l) in
    c_ball c = Some (follow drag_to v t (m_x p) (m_y p) l) /\ c_model c = model (follow drag_to v t (m_x p) (m_y p) l).
  Proof.
    intros P L K E S Q c0 B c.
    assert (X : c_ball c = Some (follow drag_to v t (m_x p) (m_y p) l)).
    { unfold c. rewrite steps_app. change (steps ?b (Mouse p :: map Mouse l)) with (steps (fst (step b (Mouse p))) (map Mouse l)).
      pose proof (listens (Some t0) eye view proj h v P L) as A. fold c0 in A.
      pose proof (viewport_ok (Some t0) eye view proj h) as V. fold c0 in V. rewrite L in V.
      cbn [Camera.step]. rewrite E, A. unfold on_event. rewrite K.
      assert (O : over (steps c0 h) p = seen v p) by (unfold over, seen; rewrite V; reflexivity). rewrite O, S. cbn [fst].
      apply (follow_ok _ v t (m_x p) (m_y p) l); auto. }
    split; [exact X|]. pose proof (model_ok (Some t0) eye view proj (h ++ Mouse p :: map Mouse l)) as I. fold c0 in I. fold c in I.
    unfold in_step in I. now rewrite X in I.
  Qed.
  Lemma moves_sum v l : forall x y,
    let at_end := fold_left (fun q e => if seen v e then (m_x e, m_y e) else q) l (x, y) in
    (fold_right Qcplus 0 (map fst (moves v x y l)) = fst at_end - x /\ fold_right Qcplus 0 (map snd (moves v x y l)) = snd at_end - y)%Qc.
  Proof.
    induction l as [|e l IH]; intros x y; cbn.
    - split; ring.
    - destruct (seen v e); [|apply IH]. cbn. destruct (IH (m_x e) (m_y e)) as (-> & ->). split; ring.
  Qed.
  Definition no_press (o : op) : Prop := match o with Mouse e => m_kind e <> Press | _ => True end.
  Lemma still (c : camera) l : c_mouse c = None -> Forall no_press l ->
    c_mouse (steps c l) = None /\ c_ball (steps c l) = c_ball c /\ c_model (steps c l) = c_model c.
  Proof.
    intros S Q. revert c S. induction Q as [|o l Q _ IH]; intros c S; [auto|].
    change (steps c (o :: l)) with (steps (fst (step c o)) l).
    assert (K : c_mouse (fst (step c o)) = None /\ c_ball (fst (step c o)) = c_ball c /\ c_model (fst (step c o)) = c_model c).
    { destruct o as [v name f|e| |].
      - cbn. unfold connect. destruct (kind_of name); auto.
      - cbn. destruct (mem_nat _ _); [|auto]. unfold on_event. cbn in Q. destruct (m_kind e); [rewrite S; auto| |congruence|auto]. destruct (over c e); auto.
      - auto.
      - cbn. destruct (disconnect_same c) as (S1 & S2 & S3 & S4 & S5 & S6 & S7 & S8). rewrite ?S1, ?S2, ?S6, ?S7, ?S8. auto. }
    destruct K as (K1 & K2 & K3). destruct (IH _ K1) as (J1 & J2 & J3). rewrite J2, J3. auto.
  Qed.
  Lemma no_drag (ball : option T) (eye view proj : M) h v e l : plain h -> last_viewport h = Some v ->
    m_kind e = Release -> m_figure e = figure v -> Forall no_press l ->
    let c0 := new_camera model ball eye view proj in
    c_ball (steps c0 (h ++ Mouse e :: l)) = c_ball (steps c0 h) /\ c_model (steps c0 (h ++ Mouse e :: l)) = c_model (steps c0 h).
  Proof.
    intros P L K E Q c0. rewrite steps_app. change (steps ?b (Mouse e :: l)) with (steps (fst (step b (Mouse e))) l).
    pose proof (listens ball eye view proj h v P L) as A. fold c0 in A. cbn [Camera.step]. rewrite E, A. unfold on_event. rewrite K. cbn [fst].
    destruct (still (with_mouse (steps c0 h) None) l eq_refl Q) as (_ & X & Y). auto.
  Qed.
  Lemma never_dragged (ball : option T) (eye view proj : M) l : Forall no_press l ->
    let c0 := new_camera model ball eye view proj in c_ball (steps c0 l) = ball /\ c_model (steps c0 l) = c_model c0.
  Proof. intros Q c0. destruct (still c0 l eq_refl Q) as (_ & X & Y). auto. Qed.
  (** Connecting under a wrong name. *)
  Lemma wrong_name (c : camera) v name f : ~ valid name ->
    snd (step c (Connect v name f)) = ([], Err KeyError) /\ c_viewport (fst (step c (Connect v name f))) = Some v /\
    c_updates (fst (step c (Connect v name f))) = c_updates c /\ c_figures (fst (step c (Connect v name f))) = c_figures c.
  Proof.
    intros N. cbn. unfold connect. destruct (kind_of name) as [k|] eqn:K; [|cbn; auto].
    exfalso. apply N, valid_kind. eauto.
  Qed.
End Camera.
