(** Proofs about examples run with the camera. *)
From Verif Require Import Base Scene SceneSpec SceneFacts Launcher.

Section Launcher.
Context {M : Type}.
Variable mul : M -> M -> option M.
Variable eye : M.
Notation run := (Scene.run mul eye).
Notation launch := (Launcher.launch mul eye).

Definition sweeps (visuals : list nat) (p : nat) (us : list (M * M * M)) : list (event M) := concat (map (sweep visuals p) us).
Lemma launch_run s p ps visuals us : launch s (p :: ps) visuals us = Ok (run s (sweeps visuals p us)).
Proof.
  unfold launch. f_equal. revert s. induction us as [|u us IH]; intros s; [reflexivity|]. cbn [fold_left]. rewrite IH. unfold sweeps. cbn [map concat]. unfold Scene.run. now rewrite fold_left_app.
Qed.
Lemma run_app' s (h1 h2 : list (event M)) : run (run s h1) h2 = run s (h1 ++ h2).
Proof. unfold Scene.run. now rewrite fold_left_app. Qed.
(** Nothing but renders in viewport [p]. *)
Definition only (p : nat) (l : list (event M)) : Prop := Forall (fun e => exists v a b c, e = ERender v p a b c) l.
Lemma sweep_only visuals p m : only p (sweep visuals p m).
Proof. destruct m as [[m w] r]. unfold only, sweep. apply Forall_map, Forall_forall. intros v _. eauto. Qed.
Lemma sweeps_only visuals p us : only p (sweeps visuals p us).
Proof. unfold sweeps. induction us as [|u us IH]; cbn; [constructor|]. apply Forall_app. split; [apply sweep_only|exact IH]. Qed.
Lemma only_static p l : only p l -> kinds l = [] /\ viewports l = 0 /\ forall z, last_size l z = z.
Proof. induction 1 as [|e l (v & a & b & c & ->) F (I1 & I2 & I3)]; cbn; auto. Qed.
Lemma only_others sz h p l : only p l -> forall v' p', p' <> p ->
  s_shown (run (start sz) (h ++ l)) v' p' = s_shown (run (start sz) h) v' p' /\ times (run (start sz) (h ++ l)) v' p' = times (run (start sz) h) v' p' /\
  s_views (run (start sz) (h ++ l)) = s_views (run (start sz) h).
Proof.
  intros O v' p' D. induction l as [|e l IH] using rev_ind; [rewrite app_nil_r; auto|]. apply Forall_app in O. destruct O as [O1 O2]. destruct (IH O1) as (I1 & I2 & I3).
  inversion O2 as [|? ? (v & a & b & c & ->) _]; subst. rewrite app_assoc. destruct (render_others mul eye sz (h ++ l) v p a b c v' p') as (R1 & R2 & R3 & _); [congruence|]. rewrite R1, R2, R3. auto.
Qed.
Lemma full_given (h : list (event M)) v p m w r ms : v < length (kinds h) -> p < viewports h -> last_given 0 0 (h ++ [ERender v p (Some m) (Some w) (Some r)]) v ms = (m, w, r).
Proof.
  intros V P. rewrite last_given_app. cbn [last_given]. rewrite Nat.eqb_refl, !Nat.add_0_l. apply Nat.ltb_lt in V, P. rewrite V, P. cbn [andb]. now destruct (last_given 0 0 h v ms) as [[? ?] ?].
Qed.
Lemma sweep_shows sz h p m w r t vs : p < viewports h -> transform mul (m, w, r) = Some t -> forall v, In v vs -> v < length (kinds h) ->
  s_shown (run (start sz) (h ++ sweep vs p (m, w, r))) v p = Some (t, last_size h sz).
Proof.
  intros P T v. induction vs as [|v0 vs IH] using rev_ind; [contradiction|]. intros I V. unfold sweep in *. rewrite map_app, app_assoc. cbn [map].
  destruct (only_static p (map (fun v => ERender v p (Some m) (Some w) (Some r)) vs)) as (S1 & S2 & S3); [apply (sweep_only vs p (m, w, r))|].
  set (h' := h ++ map (fun v => ERender v p (Some m) (Some w) (Some r)) vs) in *.
  assert (V' : length (kinds h') = length (kinds h)) by (unfold h'; rewrite kinds_app, S1, app_nil_r; reflexivity).
  assert (P' : viewports h' = viewports h) by (unfold h'; rewrite viewports_app, S2; lia).
  assert (L' : last_size h' sz = last_size h sz) by (unfold h'; rewrite last_size_app, S3; reflexivity).
  destruct (Nat.eq_dec v0 v) as [->|D].
  - rewrite <- L'. apply render_shows; [lia|lia|]. rewrite full_given by lia. exact T.
  - destruct (render_others mul eye sz h' v0 p (Some m) (Some w) (Some r) v p) as (R1 & _); [congruence|]. rewrite R1. apply in_app_or in I. destruct I as [I|[I|[]]]; [|congruence]. apply IH; assumption.
Qed.
Theorem synced sz h p ps visuals us m w r t v : p < viewports h -> In v visuals -> v < length (kinds h) -> transform mul (m, w, r) = Some t ->
  exists s, launch (run (start sz) h) (p :: ps) visuals (us ++ [(m, w, r)]) = Ok s /\ s_shown s v p = Some (t, last_size h sz).
Proof.
  intros P I V T. eexists. split; [apply launch_run|]. rewrite run_app'. unfold sweeps. rewrite map_app, concat_app. cbn [map concat]. rewrite app_nil_r, app_assoc.
  destruct (only_static p _ (sweeps_only visuals p us)) as (S1 & S2 & S3). fold (sweeps visuals p us).
  rewrite (sweep_shows sz (h ++ sweeps visuals p us) p m w r t visuals).
  - now rewrite last_size_app, S3.
  - rewrite viewports_app, S2. lia.
  - exact T.
  - exact I.
  - rewrite kinds_app, S1, app_nil_r. exact V.
Qed.
Theorem others_kept sz h p ps visuals us s v q : launch (run (start sz) h) (p :: ps) visuals us = Ok s -> q <> p ->
  s_shown s v q = s_shown (run (start sz) h) v q /\ times s v q = times (run (start sz) h) v q.
Proof.
  rewrite launch_run. intros [= <-] D. rewrite run_app'. destruct (only_others sz h p _ (sweeps_only visuals p us) v q D) as (A & B & _). auto.
Qed.
Lemma sweep_performed (h : list (event M)) p m vs : p < viewports h -> forall v, In v vs -> v < length (kinds h) -> performed (h ++ sweep vs p m) v p.
Proof.
  destruct m as [[m w] r]. intros P v I V. apply in_split in I. destruct I as (v1 & v2 & ->). unfold sweep. rewrite map_app. cbn [map].
  exists (h ++ map (fun v => ERender v p (Some m) (Some w) (Some r)) v1), (map (fun v => ERender v p (Some m) (Some w) (Some r)) v2), (Some m), (Some w), (Some r).
  destruct (only_static p _ (sweep_only v1 p (m, w, r))) as (S1 & S2 & _). unfold sweep in *. split; [now rewrite <- app_assoc|]. rewrite kinds_app, viewports_app, S1, S2, app_nil_r. lia.
Qed.
(** A visual meant for another viewport is drawn in the first as well. *)
Theorem moved sz h p ps visuals u us v : p < viewports h -> In v visuals -> v < length (kinds h) -> ~ performed h v p ->
  exists s, launch (run (start sz) h) (p :: ps) visuals (u :: us) = Ok s /\ times (run (start sz) h) v p = 0 /\ times s v p <> 0.
Proof.
  intros P I V N. eexists. split; [apply launch_run|]. split; [apply (not_drawn mul eye sz h v p N)|]. rewrite run_app'. unfold sweeps. cbn [map concat].
  destruct (only_static p _ (sweep_only visuals p u)) as (S1 & S2 & _). destruct (only_static p _ (sweeps_only visuals p us)) as (S3 & S4 & _). fold (sweeps visuals p us).
  assert (K : kinds (h ++ sweep visuals p u ++ sweeps visuals p us) = kinds h) by (rewrite !kinds_app, S1, S3, !app_nil_r; reflexivity).
  destruct (nth_error (kinds h) v) as [k|] eqn:E; [|apply nth_error_None in E; lia].
  rewrite (times_drawn mul eye sz _ v p k); [destruct k; discriminate|now rewrite K|].
  destruct (sweep_performed h p u visuals P v I V) as (h1 & h2 & a & b & c & E2 & B). rewrite app_assoc, E2. exists h1, (h2 ++ sweeps visuals p us), a, b, c. split; [now rewrite <- app_assoc|exact B].
Qed.
End Launcher.

Lemma needs_viewport {M} mul (eye : M) s viewports visuals us : launch mul eye s viewports visuals us = Err AttributeError <-> viewports = [].
Proof. destruct viewports; split; intros H; try discriminate; reflexivity. Qed.
Lemma words a p e : choose a = Some (p, e) <->
  In (a, p, e) [(None, Gsp_matplotlib, RunCamera); (Some "commands"%string, Gsp, SaveCommands);
                (Some "matplotlib_image"%string, Gsp_matplotlib, SaveImage); (Some "matplotlib_camera"%string, Gsp_matplotlib, RunCamera)].
Proof.
  split.
  - destruct a as [a|]; cbn [choose]; [|intros H; injection H as <- <-; now left].
    destruct (String.eqb a "commands") eqn:A; [apply String.eqb_eq in A as ->; intros H; injection H as <- <-; cbn; tauto|].
    destruct (String.eqb a "matplotlib_image") eqn:B; [apply String.eqb_eq in B as ->; intros H; injection H as <- <-; cbn; tauto|].
    destruct (String.eqb a "matplotlib_camera") eqn:C; [apply String.eqb_eq in C as ->; intros H; injection H as <- <-; cbn; tauto|discriminate].
  - intros [H|[H|[H|[H|[]]]]]; injection H as <- <- <-; reflexivity.
Qed.
