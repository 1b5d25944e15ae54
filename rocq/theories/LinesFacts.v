(** Proofs about caps, joins and styles. *)
From Verif Require Import Base Lines LinesSpec.

Lemma run_app k s h1 h2 : run k s (h1 ++ h2) = run k (run k s h1) h2.
Proof. apply fold_left_app. Qed.
Lemma caps_kept k h : forall s, g_caps (run k s h) = last_caps (g_caps s) h.
Proof.
  induction h as [|e h IH]; intros s; [reflexivity|]. cbn. change (fold_left _ h (fst (step k s e))) with (run k (fst (step k s e)) h). rewrite IH. f_equal.
  destruct e; cbn; try reflexivity. destruct (dget (shown s) v); [reflexivity|]. now destruct (new_look k s).
Qed.
Lemma shown_step k s e v l : dget (shown s) v = Some l -> dget (shown (fst (step k s e))) v = Some l.
Proof.
  intros D. destruct e as [a|a|a|w]; cbn; try exact D. destruct (dget (shown s) w) eqn:W; [exact D|]. destruct (new_look k s); cbn; [|exact D].
  rewrite dget_dset_other; [exact D|]. intros ->. congruence.
Qed.
Theorem shown_kept k h : forall s v l, dget (shown s) v = Some l -> dget (shown (run k s h)) v = Some l.
Proof. induction h as [|e h IH]; intros s v l D; [exact D|]. cbn. apply IH. now apply shown_step. Qed.
Lemma not_shown k h : forall s v, dget (shown s) v = None -> ~ In (Render v) h -> dget (shown (run k s h)) v = None.
Proof.
  induction h as [|e h IH]; intros s v D N; [exact D|]. cbn. apply IH; [|firstorder]. destruct e as [a|a|a|w]; cbn; try exact D.
  destruct (dget (shown s) w) eqn:W; [exact D|]. destruct (new_look k s); cbn; [|exact D]. rewrite dget_dset_other; [exact D|]. intros ->. apply N. now left.
Qed.
(** Paths: the first rendering in a viewport fixes the cap. *)
Theorem first_render c j t h1 h2 v z k : ~ In (Render v) h1 -> last_caps c h1 = Number z -> stands z k ->
  cap_in (run Paths (start c j t) (h1 ++ Render v :: h2)) v = Some k.
Proof.
  intros N L S. rewrite run_app. cbn. change (fold_left _ h2 ?x) with (run Paths x h2). rewrite (not_shown Paths h1 (start c j t) v) by (auto; reflexivity).
  rewrite caps_kept. cbn [g_caps start]. rewrite L. unfold cap_in.
  destruct S; cbn; (erewrite shown_kept; [|cbn; apply dget_dset_same]; reflexivity).
Qed.
Theorem first_error c j t h1 v : ~ In (Render v) h1 ->
  (last_caps c h1 = Many -> step Paths (run Paths (start c j t) h1) (Render v) = (run Paths (start c j t) h1, Err TypeError)) /\
  (forall z, last_caps c h1 = Number z -> (forall k, ~ stands z k) -> step Paths (run Paths (start c j t) h1) (Render v) = (run Paths (start c j t) h1, Err KeyError)).
Proof.
  intros N. cbn. rewrite (not_shown Paths h1 (start c j t) v) by (auto; reflexivity). rewrite caps_kept. cbn [g_caps start]. split.
  - intros ->. reflexivity.
  - intros z -> S. unfold cap_of. destruct z as [|p|p]; try reflexivity. destruct p as [[p|p|]|[p|p|]|]; try reflexivity; exfalso; eapply S; constructor.
Qed.
(** Later changes are not seen. *)
Theorem change_unseen c j t h v a l : dget (shown (run Paths (start c j t) h)) v = Some l ->
  dget (shown (run Paths (start c j t) (h ++ [Caps a; Render v]))) v = Some l.
Proof. intros D. rewrite run_app. now apply shown_kept. Qed.
(** Joins and styles of nothing, caps of segments. *)
Lemma all_shown k (P : look -> Prop) h : (forall s l, new_look k s = Ok l -> P l) -> forall s, (forall v l, dget (shown s) v = Some l -> P l) ->
  forall v l, dget (shown (run k s h)) v = Some l -> P l.
Proof.
  intros N. induction h as [|e h IH]; intros s H; [exact H|]. cbn. apply IH. intros v l. destruct e as [a|a|a|w]; cbn; try apply H.
  destruct (dget (shown s) w) eqn:W; [apply H|]. destruct (new_look k s) eqn:E; cbn; [|apply H]. 
  destruct (Nat.eq_dec v w) as [->|D]; [rewrite dget_dset_same; intros [= <-]; eauto|]. rewrite dget_dset_other by congruence. apply H.
Qed.
Theorem ignored k c j t h v l : dget (shown (run k (start c j t) h)) v = Some l -> l_join l = None /\ l_style l = None.
Proof.
  apply (all_shown k (fun l => l_join l = None /\ l_style l = None)).
  - intros s l0. destruct k; cbn; try (intros [= <-]; auto). destruct (cap_of (g_caps s)); cbn; [intros [= <-]; auto|discriminate].
  - intros v0 l0 H. discriminate H.
Qed.
Theorem segments_round c j t h v l : dget (shown (run Segments (start c j t) h)) v = Some l -> l_cap l = Some Round.
Proof.
  apply (all_shown Segments (fun l => l_cap l = Some Round)).
  - intros s l0 [= <-]. reflexivity.
  - intros v0 l0 H. discriminate H.
Qed.
