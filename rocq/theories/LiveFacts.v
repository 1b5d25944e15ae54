(** Proofs about examples running with their camera. *)
From Coq Require Import Reals Lra.
From Verif Require Import Base Slice RaggedFacts Measure Viewport ViewportSpec ViewportFacts Camera CameraSpec CameraFacts Glm GlmSpec Vec VecSpec Render RenderSpec RenderFacts Trackball TrackballSpec Picture PictureSpec PictureFacts
  Outline OutlineSpec OutlineFacts Drag DragSpec DragFacts Live LiveSpec.

Section Live.
Context {D : Type}.
Variables (visuals : list (D -> vis)) (on_render : Qc -> mat -> mat -> mat -> D -> res D) (port : nat) (figure : nat -> nat).
Notation live_step := (live_step visuals on_render port figure). Notation lives := (lives visuals on_render port figure).
Notation launched := (launched visuals on_render port figure).
Notation cam_step := (Camera.step drag_event Drag.shown figure).

Definition good (s : live D) : Prop :=
  c_updates (l_cam s) Camera.Motion = [0%nat] /\ c_updates (l_cam s) Camera.Scroll = [0%nat] /\
  c_updates (l_cam s) Camera.Press = [] /\ c_updates (l_cam s) Camera.Release = [] /\
  c_viewport (l_cam s) = Some port /\ c_figures (l_cam s) = [figure port] /\ s_connected (l_view s) = true /\
  l_mats s = Some (c_model (l_cam s), c_view (l_cam s), c_proj (l_cam s)) /\
  render_all visuals (l_data s) (s_view (l_view s)) (c_model (l_cam s)) (c_view (l_cam s)) (c_proj (l_cam s)) = Ok (l_shown s) /\ told on_render s.
Definition fresh (s : live D) : Prop := l_screen s = Some (s_view (l_view s), l_shown s).

Lemma step_good s e s' : good s -> live_step s e = Ok s' ->
  good s' /\
  l_cam s' = match e with Moved m _ => fst (cam_step (l_cam s) (Camera.Mouse m)) | Resized _ | Redrawn => l_cam s end /\
  Viewport.run (l_view s) (scrolls_of port figure [e]) = Ok (l_view s') /\
  (fresh s -> is_resized e = false -> fresh s') /\
  (forall m b, e = Moved m b -> clicks port figure m = true -> fresh s').
Proof.
  intros (UM & US & UP & UR & CV & CF & SC & LM & RA & TO) E. destruct e as [m b|i|].
  3:{ injection E as <-. split; [repeat split; assumption|]. split; [reflexivity|]. split; [reflexivity|]. split; [reflexivity|]. intros; discriminate. }
  - unfold Live.live_step in E. unfold wheel in E. rewrite CF in E. cbn [Camera.mem_nat existsb] in E. rewrite orb_false_r in E.
    unfold scrolls_of. cbn [flat_map]. rewrite app_nil_r. unfold camera_op, clicks, inside in *. cbn [Camera.step fst] in *. unfold with_view in E. cbn [l_cam l_view l_mats l_shown l_screen l_data] in E.
    rewrite CF in E |- *. cbn [Camera.mem_nat existsb] in E |- *. rewrite orb_false_r in E |- *.
    assert (OV : Camera.over (l_cam s) m = match Camera.m_inaxes m with Some a => Nat.eqb a port | None => false end).
    { unfold Camera.over. rewrite CV. reflexivity. }
    set (ov := match Camera.m_inaxes m with Some a => Nat.eqb a port | None => false end) in *. clearbody ov.
    destruct (Nat.eqb (Camera.m_figure m) (figure port)) eqn:G; cbn [andb] in *.
    + unfold Camera.on_event in E |- *. destruct (Camera.m_kind m) eqn:K.
      * (* motion *) destruct (c_mouse (l_cam s)) as [[x0 y0]|].
        2:{ cbn in E. injection E as <-. split; [repeat split; assumption|]. split; [now rewrite ?CV|]. split; [reflexivity|]. split; [auto|]. intros ? ? X. injection X as <- <-. rewrite K. discriminate. }
        rewrite OV in E |- *. destruct ov.
        2:{ cbn in E. injection E as <-. split; [repeat split; assumption|]. split; [now rewrite ?CV|]. split; [reflexivity|]. split; [auto|]. intros ? ? X. injection X as <- <-. rewrite K. discriminate. }
        destruct (c_ball (l_cam s)) as [t|].
        2:{ cbn in E. injection E as <-. split; [repeat split; assumption|]. split; [now rewrite ?CV|]. split; [reflexivity|]. split; [auto|]. intros ? ? X. injection X as <- <-. rewrite K. discriminate. }
        cbn [fst]. unfold Camera.update_draw, Camera.update in E. cbn [c_updates c_viewport c_model c_view c_proj] in E. rewrite UM, CV in E.
        cbn [map app acts_all act bind] in E. set (t' := drag_event _ _ _ _ _) in *. cbn [l_cam l_view l_mats l_shown l_screen l_data] in E.
        destruct (on_render (s_zoom (l_view s)) (Drag.shown t') (c_view (l_cam s)) (c_proj (l_cam s)) (l_data s)) as [d|] eqn:OR; [|discriminate]. cbn [bind] in E.
        destruct (render_all visuals d (s_view (l_view s)) (Drag.shown t') (c_view (l_cam s)) (c_proj (l_cam s))) as [l|] eqn:R; [|discriminate]. cbn [bind] in E.
        rewrite Nat.eqb_refl in E. cbn [bind] in E. injection E as <-. cbn [l_cam l_view l_screen l_shown].
        split; [repeat split; try assumption; eexists; exact OR|]. split; [now rewrite ?CV|]. split; [reflexivity|]. split; [reflexivity|]. intros ? ? X. injection X as <- <-. rewrite K. discriminate.
      * (* scroll *) rewrite OV in E |- *. destruct ov; cbn [andb] in E.
        -- destruct (Viewport.step (l_view s) (Viewport.Scroll true b)) as [v'|] eqn:VS; [|discriminate]. cbn [bind] in E.
           unfold Camera.update_draw, Camera.update in E. rewrite US, CV in E. cbn [map app acts_all act bind l_cam l_view l_mats l_shown l_screen l_data] in E.
           destruct (on_render (s_zoom v') (c_model (l_cam s)) (c_view (l_cam s)) (c_proj (l_cam s)) (l_data s)) as [d|] eqn:OR; [|discriminate]. cbn [bind] in E.
           destruct (render_all visuals d (s_view v') (c_model (l_cam s)) (c_view (l_cam s)) (c_proj (l_cam s))) as [l|] eqn:R; [|discriminate].
           cbn [bind l_cam l_view l_mats l_shown l_screen l_data] in E. rewrite Nat.eqb_refl in E. cbn [bind] in E. injection E as <-. cbn [fst l_cam l_view l_screen l_shown].
           assert (SC' : s_connected v' = true).
           { cbn in VS. rewrite SC in VS. cbn [negb] in VS. destruct (show_zoom _ _); [|discriminate]. cbn in VS. injection VS as <-. reflexivity. }
           split; [repeat split; try assumption; eexists; exact OR|]. split; [now rewrite ?CV|]. split; [cbn [Viewport.run]; rewrite VS; reflexivity|]. split; reflexivity.
        -- cbn in E. injection E as <-. cbn [fst l_cam l_view l_screen l_shown]. split; [repeat split; assumption|]. split; [now rewrite ?CV|].
           split; [cbn; rewrite SC; cbn; destruct (l_view s); reflexivity|]. split; [auto|]. intros ? ? X. injection X as <- <-. rewrite K, G. cbn. intros Q. exfalso.
           revert Q. unfold Camera.over in OV. rewrite CV in OV. rewrite OV. discriminate.
      * (* press *) rewrite OV in E |- *. destruct ov.
        -- cbn [fst andb bind] in E |- *. unfold Camera.update_draw, Camera.update, Camera.with_mouse in E |- *. cbn [c_updates c_viewport c_model c_view c_proj] in E. rewrite UP, CV in E.
           cbn [map app acts_all act bind l_cam l_view l_mats l_shown l_screen l_data] in E. rewrite Nat.eqb_refl in E. cbn [bind] in E. injection E as <-. cbn [fst l_cam l_view l_screen l_shown].
           split; [repeat split; assumption|]. split; [now rewrite ?CV|]. split; [reflexivity|]. split; reflexivity.
        -- cbn in E. injection E as <-. cbn [fst l_cam l_view l_screen l_shown]. split; [repeat split; assumption|]. split; [now rewrite ?CV|]. split; [reflexivity|]. split; [auto|].
           intros ? ? X. injection X as <- <-. rewrite K, G. cbn. intros Q. exfalso. revert Q. unfold Camera.over in OV. rewrite CV in OV. rewrite OV. discriminate.
      * (* release *) cbn [fst andb bind] in E |- *. unfold Camera.update_draw, Camera.update, Camera.with_mouse in E |- *. cbn [c_updates c_viewport c_model c_view c_proj] in E. rewrite UR, CV in E.
        cbn [map app acts_all act bind l_cam l_view l_mats l_shown l_screen l_data] in E. rewrite Nat.eqb_refl in E. cbn [bind] in E. injection E as <-. cbn [fst l_cam l_view l_screen l_shown].
        split; [repeat split; assumption|]. split; [now rewrite ?CV|]. split; [reflexivity|]. split; reflexivity.
    + cbn in E. injection E as <-. cbn [fst l_cam l_view l_screen l_shown]. split; [repeat split; assumption|]. split; [now rewrite ?CV|].
      split; [destruct (Camera.m_kind m); try reflexivity; cbn; rewrite SC; cbn; destruct (l_view s); reflexivity|]. split; [auto|].
      intros ? ? X. injection X as <- <-. rewrite G. destruct (Camera.m_kind m); discriminate.
  - cbn [Live.live_step] in E. destruct (Viewport.step (l_view s) (Viewport.Resize i)) as [v'|] eqn:VS; [|discriminate]. cbn [bind] in E.
    rewrite LM in E. destruct (render_all visuals (l_data s) (s_view v') _ _ _) as [l|] eqn:R in E; [|discriminate]. cbn [bind] in E. injection E as <-. cbn [l_cam l_view l_screen l_shown].
    assert (SC' : s_connected v' = true /\ s_zoom v' = s_zoom (l_view s)).
    { cbn in VS. destruct (resize _ _); [|discriminate]. cbn in VS. injection VS as <-. split; [exact SC|reflexivity]. }
    destruct SC' as [SC' ZS]. assert (TO' : told on_render (mkLive (l_cam s) v' (l_mats s) l (Some (stretched (s_view (l_view s)) i, l_shown s)) (l_data s))).
    { unfold told. cbn [l_view l_cam l_data]. rewrite ZS. exact TO. }
    rewrite LM in TO'. split; [repeat split; assumption|]. split; [now rewrite ?CV|]. split; [cbn [scrolls_of flat_map app Viewport.run]; rewrite VS; reflexivity|]. split; [discriminate|discriminate].
Qed.

Lemma launched_good ball eye view proj v z d0 s : let c := new_camera Drag.shown ball eye view proj in launched c v z d0 = Ok s ->
  good s /\ fresh s /\ l_cam s = camera_steps figure c (start_of port) /\ Viewport.run (new_scene v z) [Viewport.Connect; Viewport.Connect] = Ok (l_view s).
Proof.
  intros c E. unfold Live.launched, connect_to in E. cbn [l_view Viewport.step] in E.
  destruct (show_zoom (s_view (new_scene v z)) (s_zoom (new_scene v z))) as [v1|] eqn:Z1; [|discriminate]. cbn [bind] in E.
  unfold camera_op at 1 in E. cbn [with_view l_cam l_view l_mats l_shown l_screen l_data Camera.step] in E.
  unfold Camera.connect at 1 in E. change (Camera.kind_of "motion") with (Some Camera.Motion) in E. cbv iota beta zeta in E.
  cbn [acts_all act] in E. rewrite Nat.eqb_refl in E. cbn [bind l_cam l_view l_mats l_shown l_screen l_data Viewport.step] in E.
  destruct (show_zoom _ _) as [v2|] eqn:Z2 in E; [|discriminate]. cbn [bind] in E.
  unfold camera_op at 1 in E. cbn [with_view l_cam l_view l_mats l_shown l_screen l_data Camera.step] in E.
  unfold Camera.connect at 1 in E. change (Camera.kind_of "scroll") with (Some Camera.Scroll) in E. cbv iota beta zeta in E.
  cbn [acts_all act] in E. rewrite Nat.eqb_refl in E. cbn [bind l_cam l_view l_mats l_shown l_screen l_data] in E.
  unfold camera_op at 1 in E. cbn [with_view l_cam l_view l_mats l_shown l_screen l_data Camera.step] in E.
  unfold Camera.update in E.
  cbn [c_updates c_viewport c_model c_view c_proj c Camera.new_camera Camera.kind_eqb existsb app map acts_all act bind l_cam l_view l_mats l_shown l_screen l_data] in E.
  destruct (on_render _ _ view proj d0) as [d|] eqn:OR in E; [|discriminate]. cbn [bind] in E.
  destruct (render_all visuals d _ _ view proj) as [l|] eqn:R in E; [|discriminate]. cbn [bind] in E. injection E as <-.
  unfold show, good, fresh. cbn [l_cam l_view l_mats l_shown l_screen l_data c_updates c_viewport c_figures c_model c_view c_proj Camera.mem_nat existsb app orb s_connected].
  split; [repeat split|].
  - cbn. now rewrite Nat.eqb_refl.
  - exact R.
  - eexists. exact OR.
  - split; [reflexivity|]. split; [reflexivity|]. cbn [Viewport.run Viewport.step]. rewrite Z1. cbn [bind Viewport.step]. rewrite Z2. reflexivity.
Qed.
Lemma run_app l1 : forall s l2, Viewport.run s (l1 ++ l2) = let* s' := Viewport.run s l1 in Viewport.run s' l2.
Proof.
  induction l1 as [|e r IH]; intros s l2; cbn [app Viewport.run bind]; [reflexivity|]. destruct (Viewport.step s e); cbn [bind]; [apply IH|reflexivity].
Qed.
Lemma lives_snoc h e : forall s, lives s (h ++ [e]) = let* s' := lives s h in live_step s' e.
Proof.
  induction h as [|x h IH]; intros s; cbn [app Live.lives bind].
  - destruct (live_step s e); reflexivity.
  - destruct (live_step s x); cbn [bind]; [apply IH|reflexivity].
Qed.
Lemma lives_good h : forall s0 s, good s0 -> lives s0 h = Ok s ->
  good s /\ l_cam s = camera_steps figure (l_cam s0) (mouse_of h) /\ Viewport.run (l_view s0) (scrolls_of port figure h) = Ok (l_view s).
Proof.
  induction h as [|e h IH]; intros s0 s G E; cbn [Live.lives] in E; [injection E as <-; auto|].
  destruct (live_step s0 e) as [s1|] eqn:E1; [|discriminate]. cbn [bind] in E. destruct (step_good _ _ _ G E1) as (G1 & C1 & V1 & _).
  destruct (IH _ _ G1 E) as (G2 & C2 & V2). split; [exact G2|]. split.
  - rewrite C2, C1. destruct e; reflexivity.
  - change (scrolls_of port figure (e :: h)) with (scrolls_of port figure ([e] ++ h)). unfold scrolls_of. rewrite flat_map_app, run_app. fold (scrolls_of port figure [e]). rewrite V1. exact V2.
Qed.
Lemma lives_fresh h : forall s0 s, good s0 -> lives s0 h = Ok s -> existsb is_resized h = false -> fresh s0 -> fresh s.
Proof.
  induction h as [|e h IH]; intros s0 s G E N F; cbn [Live.lives] in E; [injection E as <-; exact F|].
  destruct (live_step s0 e) as [s1|] eqn:E1; [|discriminate]. cbn [bind] in E. destruct (step_good _ _ _ G E1) as (G1 & C1 & V1 & F1 & _).
  cbn [existsb] in N. apply orb_false_iff in N. destruct N as [N1 N2]. apply (IH s1 s G1 E N2). auto.
Qed.
Lemma lives_app h1 h2 : forall s, lives s (h1 ++ h2) = let* s' := lives s h1 in lives s' h2.
Proof. induction h1 as [|e r IH]; intros s; cbn [app Live.lives bind]; [reflexivity|]. destruct (live_step s e); cbn [bind]; [apply IH|reflexivity]. Qed.
Lemma lives_settled h s0 s : good s0 -> fresh s0 -> lives s0 h = Ok s -> settled port figure h -> fresh s.
Proof.
  intros G F E [N|(h1 & e & h2 & -> & N & C)]; [exact (lives_fresh h s0 s G E N F)|].
  rewrite lives_app in E. destruct (lives s0 h1) as [s1|] eqn:E1; [|discriminate]. cbn [bind Live.lives] in E.
  destruct (live_step s1 e) as [s2|] eqn:E2; [|discriminate]. cbn [bind] in E. destruct (lives_good _ _ _ G E1) as (G1 & _).
  destruct (step_good _ _ _ G1 E2) as (G2 & _ & _ & _ & F2). apply (lives_fresh h2 s2 s G2 E N).
  destruct C as [->|(m & b & -> & C)]; [injection E2 as <-; reflexivity|exact (F2 m b eq_refl C)].
Qed.
Variable sound : D -> Prop.
Notation never_fail := (never_fail sound visuals).
Lemma render_all_ok d w m v p : never_fail -> sound d -> ViewportSpec.positive w -> exists l, render_all visuals d w m v p = Ok l.
Proof.
  intros NF SO PO. revert NF. unfold LiveSpec.never_fail. generalize visuals. induction 1 as [|f r F _ IH]; [exists []; reflexivity|]. destruct IH as (t & IH), (F d w m v p SO PO) as (l & E).
  exists (l :: t). cbn. rewrite E. cbn. rewrite IH. reflexivity.
Qed.
Lemma zoom_step t e t' : Viewport.step t e = Ok t' -> exists turns, s_zoom t' = fold_left zoomed turns (s_zoom t).
Proof.
  destruct e as [i| |inn b]; cbn [Viewport.step]; intros E.
  - destruct (resize _ _); [|discriminate]. cbn [bind] in E. injection E as <-. exists []. reflexivity.
  - destruct (show_zoom _ _); [|discriminate]. cbn [bind] in E. injection E as <-. exists []. reflexivity.
  - destruct (negb (s_connected t)); [injection E as <-; exists []; reflexivity|]. destruct (negb inn); [injection E as <-; exists []; reflexivity|]. cbv zeta in E. destruct (show_zoom _ _); [|discriminate]. cbn [bind] in E. injection E as <-. exists [b]. reflexivity.
Qed.
Lemma zoom_run l : forall t t', Viewport.run t l = Ok t' -> exists turns, s_zoom t' = fold_left zoomed turns (s_zoom t).
Proof.
  induction l as [|e l IH]; intros t t' E; [injection E as <-; exists []; reflexivity|]. cbn [Viewport.run] in E. destruct (Viewport.step t e) as [t1|] eqn:E1; [|discriminate]. cbn [bind] in E.
  destruct (zoom_step _ _ _ E1) as (b1 & Z1), (IH _ _ E) as (b2 & Z2). exists (b1 ++ b2). now rewrite fold_left_app, <- Z1.
Qed.
(** The viewport stays larger than nothing. *)
Definition kept (t : Viewport.scene) : Prop := exists x y w h, p_extent (s_view t) = (x, y, w, h) /\ ViewportSpec.plain x /\ ViewportSpec.plain y /\ some_length w /\ some_length h /\
  (0 < f_dpi (p_fig (s_view t)))%Qc /\ ViewportSpec.positive (s_view t).
Lemma pos_mult a b : (0 < a)%Qc -> (0 < b)%Qc -> (0 < a * b)%Qc.
Proof. intros A B. rewrite <- (Qcmult_0_l b). now apply Qcmult_lt_compat_r. Qed.
Lemma kept_zoom v z v' : show_zoom v z = Ok v' -> p_extent v' = p_extent v /\ f_dpi (p_fig v') = f_dpi (p_fig v) /\ (ViewportSpec.positive v -> ViewportSpec.positive v').
Proof.
  intros E. apply show_ok in E. destruct E as (A & B & C & _). rewrite A, B. split; [reflexivity|]. split; [reflexivity|]. unfold ViewportSpec.positive, wide, high, canvas_w, canvas_h. now rewrite A, C.
Qed.
Lemma kept_step t e t' : Viewport.step t e = Ok t' -> ViewportSpec.proper e -> kept t -> kept t'.
Proof.
  intros E P (x & y & w & h & K & X & Y & W & H & DP & PO). exists x, y, w, h.
  assert (SH : forall z v', show_zoom (s_view t) z = Ok v' -> p_extent v' = (x, y, w, h) /\ ViewportSpec.plain x /\ ViewportSpec.plain y /\ some_length w /\ some_length h /\ (0 < f_dpi (p_fig v'))%Qc /\ ViewportSpec.positive v').
  { intros z v' S. destruct (kept_zoom _ _ _ S) as (A & B & C). rewrite A, B. auto 10. }
  destruct e as [i| |inn b]; cbn [Viewport.step] in E.
  - destruct (resize _ _) as [v'|] eqn:R; [|discriminate]. cbn [bind] in E. injection E as <-. cbn [s_view]. unfold resize in R. destruct i as [a b].
    cbv zeta in R. match type of R with Viewport.update ?u = _ => set (u0 := u) in R end. destruct (update_total u0 x y w h) as (v1 & U & PO1); try assumption.
    + exact (pos_mult _ _ (proj1 P) DP).
    + exact (pos_mult _ _ (proj2 P) DP).
    + rewrite R in U. injection U as <-. destruct (update_ok _ _ R) as (F & EX & _). rewrite EX, F. auto 10.
  - destruct (show_zoom _ _) as [v'|] eqn:S; [|discriminate]. cbn [bind] in E. injection E as <-. exact (SH _ _ S).
  - destruct (negb (s_connected t)); [injection E as <-; auto 10|]. destruct (negb inn); [injection E as <-; auto 10|]. cbv zeta in E.
    destruct (show_zoom _ _) as [v'|] eqn:S; [|discriminate]. cbn [bind] in E. injection E as <-. exact (SH _ _ S).
Qed.
Lemma kept_run l : forall t t', Viewport.run t l = Ok t' -> Forall ViewportSpec.proper l -> kept t -> kept t'.
Proof.
  induction l as [|e l IH]; intros t t' E P K; [injection E as <-; exact K|]. cbn [Viewport.run] in E. destruct (Viewport.step t e) as [t1|] eqn:E1; [|discriminate]. cbn [bind] in E.
  inversion P; subst. apply (IH t1); [exact E|assumption|]. now apply (kept_step t e).
Qed.
Lemma kept_positive t : kept t -> ViewportSpec.positive (s_view t).
Proof. intros (x & y & w & h & _ & _ & _ & _ & _ & _ & P). exact P. Qed.
Lemma raises_later z turns : never_raises sound on_render z -> never_raises sound on_render (fold_left zoomed turns z).
Proof. intros NR l m v p d. rewrite <- fold_left_app. apply NR. Qed.
Lemma step_goes_on s e v : never_raises sound on_render (s_zoom (l_view s)) -> never_fail -> good s -> kept (l_view s) -> Forall ViewportSpec.proper (scrolls_of port figure [e]) -> Viewport.run (l_view s) (scrolls_of port figure [e]) = Ok v -> exists s', live_step s e = Ok s'.
Proof.
  intros NR NF (UM & US & UP & UR & CV & CF & SC & LM & RA & TO) KE PR V. destruct e as [m b|i|]; [| |eexists; reflexivity].
  - unfold Live.live_step, wheel. rewrite CF. cbn [Camera.mem_nat existsb]. rewrite orb_false_r.
    unfold scrolls_of, inside in V. cbn [flat_map] in V. rewrite app_nil_r in V.
    assert (OV : Camera.over (l_cam s) m = match Camera.m_inaxes m with Some a => Nat.eqb a port | None => false end).
    { unfold Camera.over. rewrite CV. reflexivity. }
    rewrite <- OV in V.
    assert (W : exists w, (if Nat.eqb (Camera.m_figure m) (figure port) && match Camera.m_kind m with Camera.Scroll => Camera.over (l_cam s) m | _ => false end
      then Viewport.step (l_view s) (Viewport.Scroll true b) else Ok (l_view s)) = Ok w).
    { destruct (Nat.eqb _ _); cbn [andb] in *; [|eauto]. destruct (Camera.m_kind m); eauto. destruct (Camera.over (l_cam s) m); [|eauto].
      cbn [Viewport.run] in V. destruct (Viewport.step (l_view s) (Viewport.Scroll true b)); [eauto|discriminate]. }
    destruct W as (w & W).
    assert (ZW : exists turns, s_zoom w = fold_left zoomed turns (s_zoom (l_view s))) by (destruct (_ && _)%bool in W; [exact (zoom_step _ _ _ W)|injection W as <-; exists []; reflexivity]).
    assert (PW : ViewportSpec.positive (s_view w)) by (apply kept_positive; destruct (_ && _)%bool in W; [exact (kept_step _ _ _ W Logic.I KE)|injection W as <-; exact KE]).
    destruct ZW as (turns & ZW). rewrite W. cbn [bind]. unfold camera_op, with_view. cbn [Camera.step l_cam l_view l_mats l_shown l_screen l_data].
    rewrite CF. cbn [Camera.mem_nat existsb]. rewrite orb_false_r. destruct (Nat.eqb (Camera.m_figure m) (figure port)); [|eexists; reflexivity].
    unfold Camera.on_event. destruct (Camera.m_kind m).
    + destruct (c_mouse (l_cam s)) as [[x0 y0]|]; [|eexists; reflexivity]. destruct (Camera.over (l_cam s) m); [|eexists; reflexivity].
      destruct (c_ball (l_cam s)) as [t|]; [|eexists; reflexivity].
      unfold Camera.update_draw, Camera.update. cbn [c_updates c_viewport c_model c_view c_proj]. rewrite UM, CV. cbn [map app acts_all act].
      set (t' := drag_event _ _ _ _ _). cbn [l_cam l_view l_data]. rewrite ZW. destruct (NR turns (Drag.shown t') (c_view (l_cam s)) (c_proj (l_cam s)) (l_data s)) as (d & -> & SD). cbn [bind].
      destruct (render_all_ok d (s_view w) (Drag.shown t') (c_view (l_cam s)) (c_proj (l_cam s)) NF SD PW) as (l & ->).
      cbn [bind]. rewrite Nat.eqb_refl. eexists. reflexivity.
    + destruct (Camera.over (l_cam s) m); [|eexists; reflexivity]. unfold Camera.update_draw, Camera.update. rewrite US, CV. cbn [map app acts_all act l_cam l_view l_data].
      rewrite ZW. destruct (NR turns (c_model (l_cam s)) (c_view (l_cam s)) (c_proj (l_cam s)) (l_data s)) as (d & -> & SD). cbn [bind].
      destruct (render_all_ok d (s_view w) (c_model (l_cam s)) (c_view (l_cam s)) (c_proj (l_cam s)) NF SD PW) as (l & ->). cbn [bind].
      rewrite Nat.eqb_refl. eexists. reflexivity.
    + destruct (Camera.over (l_cam s) m); [|eexists; reflexivity]. unfold Camera.update_draw, Camera.update, Camera.with_mouse. cbn [c_updates c_viewport]. rewrite UP, CV. cbn [map app acts_all act].
      rewrite Nat.eqb_refl. eexists. reflexivity.
    + unfold Camera.update_draw, Camera.update, Camera.with_mouse. cbn [c_updates c_viewport]. rewrite UR, CV. cbn [map app acts_all act]. rewrite Nat.eqb_refl. eexists. reflexivity.
  - cbn [Live.live_step]. cbn [scrolls_of flat_map app Viewport.run] in V. destruct (Viewport.step (l_view s) (Viewport.Resize i)) as [w|] eqn:SW; [|discriminate]. cbn [bind].
    assert (PW : ViewportSpec.positive (s_view w)) by (apply kept_positive; apply (kept_step _ _ _ SW); [exact (Forall_inv PR)|exact KE]).
    rewrite LM. assert (SD : sound (l_data s)) by (destruct TO as (d & TO); destruct (NR [] (c_model (l_cam s)) (c_view (l_cam s)) (c_proj (l_cam s)) d) as (d' & T1 & T2); cbn [fold_left] in T1; rewrite TO in T1; injection T1 as ->; exact T2).
    destruct (render_all_ok (l_data s) (s_view w) (c_model (l_cam s)) (c_view (l_cam s)) (c_proj (l_cam s)) NF SD PW) as (l & ->). eexists. reflexivity.
Qed.
Lemma lives_go_on h : never_fail -> forall s v, never_raises sound on_render (s_zoom (l_view s)) -> good s -> kept (l_view s) -> Forall ViewportSpec.proper (scrolls_of port figure h) -> Viewport.run (l_view s) (scrolls_of port figure h) = Ok v -> exists s', lives s h = Ok s'.
Proof.
  intros NF. induction h as [|e h IH]; intros s v NR G KE PR V; [eexists; reflexivity|].
  change (scrolls_of port figure (e :: h)) with (scrolls_of port figure ([e] ++ h)) in PR. unfold scrolls_of in PR. rewrite flat_map_app in PR. apply Forall_app in PR. destruct PR as [P1 P2].
  change (scrolls_of port figure (e :: h)) with (scrolls_of port figure ([e] ++ h)) in V. unfold scrolls_of in V. rewrite flat_map_app, run_app in V.
  fold (scrolls_of port figure [e]) in V. destruct (Viewport.run (l_view s) (scrolls_of port figure [e])) as [v1|] eqn:V1; [|discriminate]. cbn [bind] in V.
  destruct (step_goes_on s e v1 NR NF G KE P1 V1) as (s1 & E1). cbn [Live.lives]. rewrite E1. cbn [bind].
  destruct (step_good _ _ _ G E1) as (G1 & _ & V2 & _). destruct (zoom_run _ _ _ V2) as (turns & ZT). pose proof (kept_run _ _ _ V2 P1 KE) as K1. rewrite V1 in V2. injection V2 as ->.
  apply (IH s1 v); [rewrite ZT; now apply raises_later|exact G1|exact K1|exact P2|exact V].
Qed.
Lemma launched_ok ball eye view proj v z d0 w : let c := new_camera Drag.shown ball eye view proj in never_raises sound on_render z -> never_fail -> kept (new_scene v z) ->
  Viewport.run (new_scene v z) [Viewport.Connect; Viewport.Connect] = Ok w -> exists s, launched c v z d0 = Ok s.
Proof.
  intros c NR NF KE V. pose proof (kept_positive _ (kept_run _ _ _ V (ltac:(repeat constructor)) KE)) as PW. cbn [Viewport.run Viewport.step] in V. destruct (show_zoom (s_view (new_scene v z)) (s_zoom (new_scene v z))) as [v1|] eqn:Z1; [|discriminate]. cbn [bind Viewport.step] in V.
  destruct (show_zoom _ _) as [v2|] eqn:Z2 in V; [|discriminate]. cbn [bind] in V. injection V as <-.
  unfold Live.launched, connect_to. cbn [l_view Viewport.step]. rewrite Z1. cbn [bind].
  unfold camera_op at 1. cbn [with_view l_cam l_view l_mats l_shown l_screen l_data Camera.step]. unfold Camera.connect at 1. change (Camera.kind_of "motion") with (Some Camera.Motion).
  cbv iota beta zeta. cbn [acts_all act]. rewrite Nat.eqb_refl. cbn [bind l_cam l_view l_mats l_shown l_screen l_data Viewport.step]. rewrite Z2. cbn [bind].
  unfold camera_op at 1. cbn [with_view l_cam l_view l_mats l_shown l_screen l_data Camera.step]. unfold Camera.connect at 1. change (Camera.kind_of "scroll") with (Some Camera.Scroll).
  cbv iota beta zeta. cbn [acts_all act]. rewrite Nat.eqb_refl. cbn [bind l_cam l_view l_mats l_shown l_screen l_data].
  unfold camera_op. cbn [with_view l_cam l_view l_mats l_shown l_screen l_data Camera.step]. unfold Camera.update.
  cbn [c_updates c_viewport c_model c_view c_proj c Camera.new_camera Camera.kind_eqb existsb app map acts_all act bind l_cam l_view l_mats l_shown l_screen l_data].
  match goal with |- context [on_render ?a ?b ?c ?d ?e] => destruct (NR [] b c d e) as (d' & NE & SD) end. cbn [fold_left] in NE. cbn [s_zoom new_scene]. rewrite NE. cbn [bind].
  match goal with |- context [render_all _ _ ?w ?m ?v ?p] => destruct (render_all_ok d' w m v p NF SD PW) as (l & ->) end. eexists. reflexivity.
Qed.
Lemma outside_nothing s e b : good s -> Camera.m_kind e <> Camera.Release -> inside port figure e = false -> live_step s (Moved e b) = Ok s.
Proof.
  intros (UM & US & UP & UR & CV & CF & SC & LM & RA & TO) K I. unfold Live.live_step, wheel, inside in *. rewrite CF. cbn [Camera.mem_nat existsb]. rewrite orb_false_r.
  assert (OV : Camera.over (l_cam s) e = match Camera.m_inaxes e with Some a => Nat.eqb a port | None => false end). { unfold Camera.over. rewrite CV. reflexivity. }
  rewrite <- OV in I. unfold camera_op, with_view. cbn [Camera.step l_cam l_view l_mats l_shown l_screen l_data]. rewrite CF. cbn [Camera.mem_nat existsb]. rewrite orb_false_r.
  destruct (Nat.eqb (Camera.m_figure e) (figure port)); cbn [andb] in *.
  - unfold Camera.on_event. rewrite I. destruct (Camera.m_kind e); [| | |congruence]; cbn [l_view bind].
    + destruct (c_mouse (l_cam s)) as [[? ?]|]; destruct s; reflexivity.
    + destruct s; reflexivity.
    + destruct s; reflexivity.
  - cbn [l_view bind]. destruct s; reflexivity.
Qed.
Lemma elsewhere_nothing s e b : good s -> Camera.m_figure e <> figure port -> live_step s (Moved e b) = Ok s.
Proof.
  intros (UM & US & UP & UR & CV & CF & SC & LM & RA & TO) K. apply Nat.eqb_neq in K. unfold Live.live_step, wheel, camera_op, with_view. cbn [Camera.step l_cam l_view l_mats l_shown l_screen l_data]. rewrite CF. cbn [Camera.mem_nat existsb].
  rewrite K. cbn. destruct s; reflexivity.
Qed.
Lemma resized_shows s i s' : live_step s (Resized i) = Ok s' -> l_screen s' = Some (stretched (s_view (l_view s)) i, l_shown s).
Proof.
  unfold Live.live_step. destruct (Viewport.step _ _); [|discriminate]. cbn [bind]. destruct (l_mats s) as [[[m w] p]|]; [destruct (render_all _ _ _ _ _ _); [|discriminate]|]; cbn [bind]; intros E; injection E as <-; reflexivity.
Qed.
End Live.

Lemma render_all_nth {D} (vs : list (D -> vis)) d v : forall m w p l k f, render_all vs d v m w p = Ok l -> nth_error vs k = Some f -> exists r, f d v m w p = Ok r /\ nth_error l k = Some r.
Proof.
  induction vs as [|g vs IH]; intros m w p l k f E K; [destruct k; discriminate|]. cbn [render_all] in E. destruct (g d v m w p) as [r|] eqn:G; [|discriminate]. cbn [bind] in E.
  destruct (render_all vs d v m w p) as [t|] eqn:T; [|discriminate]. cbn [bind] in E. injection E as <-. destruct k as [|k]; [injection K as <-; eauto|]. exact (IH _ _ _ _ _ _ T K).
Qed.
Lemma picture_collection {I} v (g : I -> list (option (R * R))) (f : I -> list (num * num)) l idx attrs :
  (forall r, map (fun '(x, y) => on_canvas v x y) (f r) = g r) ->
  picture v (collection (Slice.pick (map f l) idx) attrs) = collection (Slice.pick (map g l) idx) attrs.
Proof.
  intros H. unfold picture, collection. 
  assert (P : forall l', Slice.pick (map f l') idx = map f (Slice.pick l' idx) /\ Slice.pick (map g l') idx = map g (Slice.pick l' idx)) by (intros l'; split; apply pick_map).
  destruct (P l) as [-> ->]. rewrite !map_length. generalize (map (fun i => map (Render.shown i) attrs) (seq 0 (length (Slice.pick l idx)))). generalize (Slice.pick l idx).
  intros k. induction k as [|r k IH]; intros [|b bs]; cbn; try reflexivity. rewrite H, IH. reflexivity.
Qed.
Lemma collection_single {I J} (g : I -> J) l attrs : map (fun '(x, a) => (g x, a)) (collection l attrs) = collection (map g l) attrs.
Proof.
  unfold collection. rewrite map_length. generalize (map (fun i => map (Render.shown i) attrs) (seq 0 (length l))). 
  induction l as [|r k IH]; intros [|b bs]; cbn; try reflexivity. rewrite IH. reflexivity.
Qed.
Lemma points_picture argsort v V face edge width size model view proj :
  (let* l := points_vis argsort V face edge width size v model view proj in Ok (picture v l)) =
  (let* out := Picture.points argsort v V model view proj face edge width size in Ok (map (fun '(x, a) => ([x], a)) out)).
Proof.
  unfold points_vis, Picture.points. destruct (placed_points V (transform_of model view proj)) as [A|]; cbn [bind]; [|reflexivity]. destruct (rows_of A) as [l|]; cbn [bind]; [|reflexivity].
  destruct (attach_size _ _ size) as [sz|]; cbn [bind]; [|reflexivity]. f_equal.
  rewrite (picture_collection v (fun r => [on_canvas v (col r 0) (col r 1)])) by reflexivity. rewrite (collection_single (fun x => [x])).
  rewrite !pick_map, map_map. reflexivity.
Qed.
Lemma segments_picture argsort v V color width model view proj :
  (let* l := segments_vis argsort V color width v model view proj in Ok (picture v l)) = Outline.segments argsort v V model view proj color width.
Proof.
  unfold segments_vis, Outline.segments. destruct (placed_points V (transform_of model view proj)) as [A|]; cbn [bind]; [|reflexivity]. destruct (rows_of A) as [l|]; cbn [bind]; [|reflexivity].
  destruct (pairs l) as [gs|]; cbn [bind]; [|reflexivity]. f_equal. apply picture_collection. intros r. unfold corners. rewrite map_map. reflexivity.
Qed.
Lemma outlines_picture argsort v V i attrs model view proj :
  (let* l := outlines_vis argsort V i attrs v model view proj in Ok (picture v l)) = Outline.outlines argsort v V model view proj i attrs.
Proof.
  unfold outlines_vis, Outline.outlines. destruct (placed_points V (transform_of model view proj)) as [A|]; cbn [bind]; [|reflexivity]. destruct (rows_of A) as [l|]; cbn [bind]; [|reflexivity].
  destruct (group l i) as [gs|]; cbn [bind]; [|reflexivity]. destruct (attach_all _ _ _ attrs) as [bs|]; cbn [bind]; [|reflexivity]. f_equal. apply picture_collection. intros r. unfold corners. rewrite map_map. reflexivity.
Qed.

Section Whole.
Context {D : Type}.
Variables (visuals : list (D -> vis)) (on_render : Qc -> mat -> mat -> mat -> D -> res D) (port : nat) (figure : nat -> nat).
Notation live_step := (live_step visuals on_render port figure). Notation lives := (lives visuals on_render port figure). Notation launched := (launched visuals on_render port figure).
Lemma ball_made theta phi zdist sc c : ball_camera theta phi zdist sc = Ok c -> made c.
Proof. unfold ball_camera, made. destruct (camera_mats _ _ _) as [[[m w] p]|]; [|discriminate]. cbn. intros E. injection E as <-. eauto. Qed.
Lemma flat_made c : flat_camera = Ok c -> made c.
Proof. unfold flat_camera, made. destruct flat_mats as [[[m w] p]|]; [|discriminate]. cbn. intros E. injection E as <-. eauto. Qed.
Lemma steps_app l m : forall c : @Camera.camera nat mat trackball, camera_steps figure c (l ++ m) = camera_steps figure (camera_steps figure c l) m.
Proof. unfold camera_steps. induction l as [|o l IH]; intros c; [reflexivity|]. cbn. apply IH. Qed.
Lemma whole c v z d0 s0 h s : made c -> launched c v z d0 = Ok s0 -> lives s0 h = Ok s ->
  good visuals on_render port figure s0 /\ fresh s0 /\ good visuals on_render port figure s /\
  l_cam s = camera_steps figure c (start_of port ++ mouse_of h) /\
  Viewport.run (new_scene v z) ([Viewport.Connect; Viewport.Connect] ++ scrolls_of port figure h) = Ok (l_view s).
Proof.
  intros (ball & eye & view & proj & ->) L E. destruct (launched_good _ _ _ _ _ _ _ _ _ _ _ _ L) as (G & F & C & V). destruct (lives_good _ _ _ _ _ _ _ G E) as (G' & C' & V').
  split; [exact G|]. split; [exact F|]. split; [exact G'|]. split; [rewrite C', C, steps_app; reflexivity|]. rewrite run_app, V. exact V'.
Qed.
Lemma parts c v z d0 s0 h s : made c -> launched c v z d0 = Ok s0 -> lives s0 h = Ok s ->
  l_cam s = camera_steps figure c (start_of port ++ mouse_of h) /\
  Viewport.run (new_scene v z) ([Viewport.Connect; Viewport.Connect] ++ scrolls_of port figure h) = Ok (l_view s).
Proof. intros M L E. destruct (whole _ _ _ _ _ _ _ M L E) as (_ & _ & _ & C & V). auto. Qed.
Lemma screen_current c v z d0 s0 h s : made c -> launched c v z d0 = Ok s0 -> lives s0 h = Ok s -> settled port figure h -> current visuals s.
Proof.
  intros M L E S. destruct (whole _ _ _ _ _ _ _ M L E) as (G & F & G' & _). pose proof (lives_settled _ _ _ _ _ _ _ G F E S) as F'.
  destruct G' as (_ & _ & _ & _ & _ & _ & _ & _ & RA & _). exists (l_shown s). split; [exact RA|exact F'].
Qed.
Lemma new_kept f x y w h z v : (0 < f_dpi f)%Qc -> (0 < fst (Viewport.size f))%Qc -> (0 < snd (Viewport.size f))%Qc ->
  ViewportSpec.plain x -> ViewportSpec.plain y -> some_length w -> some_length h -> new_viewport f x y w h = Ok v -> kept (new_scene v z).
Proof.
  intros DP W H X Y PW PH N. 
  assert (EW : either w (f_width f) = w) by (apply either_nonzero; intros [K|K]; subst; cbn in PW; [lia|now apply Qclt_not_eq in PW]).
  assert (EH : either h (f_height f) = h) by (apply either_nonzero; intros [K|K]; subst; cbn in PH; [lia|now apply Qclt_not_eq in PH]).
  exists x, y, w, h. unfold new_viewport in N. rewrite EW, EH in N.
  match type of N with (let* _ := Viewport.update ?u in _) = _ => destruct (update_total u x y w h) as (u1 & U & PO); auto; rewrite U in N end. cbn [bind] in N.
  destruct (update_ok _ _ U) as (F & EX & _). cbn [p_fig p_extent] in F, EX.
  injection N as <-. cbn [new_scene s_view p_extent p_fig]. rewrite EX. unfold ViewportSpec.positive, wide, high, canvas_w, canvas_h in *. cbn [p_fig p_pos]. rewrite F in PO. auto 10.
Qed.
Lemma runs sound c f x y w h z d0 hist : made c -> never_raises sound on_render z -> never_fail sound visuals -> (0 < f_dpi f)%Qc -> (0 < fst (Viewport.size f))%Qc -> (0 < snd (Viewport.size f))%Qc ->
  ViewportSpec.plain x -> ViewportSpec.plain y -> some_length w -> some_length h -> sensible hist ->
  exists v s0 s, new_viewport f x y w h = Ok v /\ launched c v z d0 = Ok s0 /\ lives s0 hist = Ok s.
Proof.
  intros (ball & eye & view & proj & ->) NR NF DP W H X Y PW PH A.
  assert (PR : Forall ViewportSpec.proper (scrolls_of port figure hist)).
  { unfold scrolls_of. induction A as [|e r P _ IH]; [constructor|]. cbn [flat_map]. apply Forall_app. split; [|exact IH].
    destruct e as [m b|i|]; [destruct (Camera.m_kind m); repeat constructor| |constructor]. constructor; [exact P|constructor]. }
  destruct (never_fails f x y w h z ([Viewport.Connect; Viewport.Connect] ++ scrolls_of port figure hist) DP W H X Y PW PH) as (v & t & N & R).
  - cbn [app]. constructor; [exact Logic.I|]. constructor; [exact Logic.I|exact PR].
  - rewrite run_app in R. destruct (Viewport.run (new_scene v z) [Viewport.Connect; Viewport.Connect]) as [t0|] eqn:R0; [|discriminate]. cbn [bind] in R.
    pose proof (new_kept f x y w h z v DP W H X Y PW PH N) as KE.
    destruct (launched_ok visuals on_render port figure sound ball eye view proj v z d0 t0 NR NF KE R0) as (s0 & L). destruct (launched_good _ _ _ _ _ _ _ _ _ _ _ _ L) as (G & _ & _ & V).
    pose proof (kept_run _ _ _ R0 (ltac:(repeat constructor)) KE) as K0.
    rewrite R0 in V. injection V as ->. assert (NR1 : never_raises sound on_render (s_zoom (l_view s0))) by (destruct (zoom_run _ _ _ R0) as (tu & ->); exact (raises_later on_render sound _ tu NR)).
    destruct (lives_go_on visuals on_render port figure sound hist NF s0 t NR1 G K0 PR R) as (s & E). exists v, s0, s. auto.
Qed.
Lemma each c v z d0 s0 h s k f : made c -> launched c v z d0 = Ok s0 -> lives s0 h = Ok s -> settled port figure h -> nth_error visuals k = Some f ->
  let now := camera_steps figure c (start_of port ++ mouse_of h) in
  exists l items, l_screen s = Some (s_view (l_view s), l) /\ nth_error l k = Some items /\ f (l_data s) (s_view (l_view s)) (c_model now) (c_view now) (c_proj now) = Ok items.
Proof.
  intros M L E S K now. destruct (parts _ _ _ _ _ _ _ M L E) as (C & _). destruct (screen_current _ _ _ _ _ _ _ M L E S) as (l & R & Q). rewrite C in R. fold now in R.
  destruct (render_all_nth _ _ _ _ _ _ _ _ _ R K) as (items & I & N). eauto.
Qed.
Lemma points_end argsort theta phi zdist sc c f x y w h v z d0 s0 hist s k g V ps face edge width size :
  sorts_numbers argsort -> ball_camera theta phi zdist sc = Ok c -> new_viewport f x y w h = Ok v ->
  nth_error visuals k = Some g -> g (l_data s) = points_vis argsort V face edge width size -> holds V ps ->
  let n := length ps in
  fits n face -> clear n face -> fits n edge -> clear n edge -> fits n width -> clear n width -> fits_size n size ->
  launched c v z d0 = Ok s0 -> lives s0 hist = Ok s -> settled port figure hist ->
  let now := camera_steps figure c (start_of port ++ mouse_of hist) in
  exists port' l items order, l_screen s = Some (port', l) /\ nth_error l k = Some items /\
    Viewport.run (new_scene v z) ([Viewport.Connect; Viewport.Connect] ++ scrolls_of port figure hist) = Ok (l_view s) /\ port' = s_view (l_view s) /\
    visits n order /\ covers (depth_in (fun p => ahead (eye (c_model now) (c_view now) p)) ps) order /\
    map Some (picture port' items) = map (fun j => option_map (fun p => ([spot port' (clip (c_model now) (c_view now) (c_proj now) p)], [own face j; own edge j; own width j; own size j]))
                                                              (nth_error ps j)) order.
Proof.
  intros SO B N K GK Ho n F1 C1 F2 C2 F3 C3 F4 L E S now. pose proof (ball_made _ _ _ _ _ B) as M. destruct (each _ _ _ _ _ _ _ _ _ M L E S K) as (l & items & SC & NE & I). fold now in I. rewrite GK in I.
  destruct (parts _ _ _ _ _ _ _ M L E) as (_ & R). pose proof (always_usable _ _ _ _ _ _ _ _ _ N R) as U.
  destruct (ball_history figure theta phi zdist sc c (start_of port ++ mouse_of hist) B) as (dl & _ & CM). fold now in CM.
  destruct (camera_suits theta phi (drags dl) zdist sc) as (m' & w' & p' & CM' & A1 & A2 & P & _). rewrite CM in CM'. injection CM' as <- <- <-.
  destruct (points_perspective argsort SO (s_view (l_view s)) V _ _ _ ps face edge width size 35 1 1 100 U Ho A1 A2 ltac:(lra) ltac:(lra) ltac:(lra) P F1 C1 F2 C2 F3 C3 F4) as (order & out & PO & VI & CO & MO & _).
  exists (s_view (l_view s)), l, items, order. repeat (split; [first [assumption | reflexivity]|]).
  pose proof (points_picture argsort (s_view (l_view s)) V face edge width size (c_model now) (c_view now) (c_proj now)) as PP. rewrite I, PO in PP. cbn [bind] in PP. injection PP as ->.
  transitivity (map (option_map (fun '(x, a) => ([x], a))) (map Some out)).
  - rewrite !map_map. reflexivity.
  - rewrite MO, map_map. apply map_ext. intros j. destruct (nth_error ps j); reflexivity.
Qed.
(** Without changes of size both limits are the zoom. *)
Definition even (t : Viewport.scene) : Prop := p_xlim (s_view t) = lim (s_zoom t) /\ p_ylim (s_view t) = lim (s_zoom t).
Lemma show_even v a z v' : p_xlim v = lim a -> p_ylim v = lim a -> show_zoom v z = Ok v' -> p_xlim v' = lim z /\ p_ylim v' = lim z.
Proof.
  unfold show_zoom. intros -> ->. pose proof (lim_nonzero a) as NZ. destruct (Qc_eq_bool _ _); [discriminate|]. intros E. injection E as <-. cbn. split; [reflexivity|].
  f_equal. unfold Qcdiv. rewrite Qcmult_inv_r by exact NZ. apply Qcmult_1_r.
Qed.
Lemma run_even l : forall t t', (forall e, In e l -> is_resize e = false) -> (exists a, p_xlim (s_view t) = lim a /\ p_ylim (s_view t) = lim a) -> s_connected t = true -> even t -> Viewport.run t l = Ok t' -> even t'.
Proof.
  induction l as [|e l IH]; intros t t' NR A SC EV R; [injection R as <-; exact EV|]. cbn [Viewport.run] in R. destruct (Viewport.step t e) as [t1|] eqn:S1; [|discriminate]. cbn [bind] in R.
  assert (E1 : even t1 /\ s_connected t1 = true).
  { destruct EV as [X Y]. destruct e as [i| |inn b]; [discriminate (NR _ (or_introl eq_refl))| |].
    - cbn in S1. destruct (show_zoom (s_view t) (s_zoom t)) as [v'|] eqn:Z; [|discriminate]. injection S1 as <-. split; [exact (show_even _ _ _ _ X Y Z)|reflexivity].
    - cbn in S1. rewrite SC in S1. cbn [negb] in S1. destruct inn; cbn [negb] in S1; [|injection S1 as <-; split; [split; assumption|exact SC]].
      destruct (show_zoom (s_view t) (zoomed (s_zoom t) b)) as [v'|] eqn:Z; [|discriminate]. injection S1 as <-. split; [exact (show_even _ _ _ _ X Y Z)|reflexivity]. }
  destruct E1 as [E1 C1]. apply (IH t1 t' (fun e I => NR e (or_intror I)) (ex_intro _ (s_zoom t1) E1) C1 E1 R).
Qed.
Lemma start_even f x y w h v z l t : new_viewport f x y w h = Ok v -> (forall e, In e l -> is_resize e = false) ->
  Viewport.run (new_scene v z) ([Viewport.Connect; Viewport.Connect] ++ l) = Ok t -> even t.
Proof.
  intros N NR R. assert (X : p_xlim v = lim 1%Qc /\ p_ylim v = lim 1%Qc).
  { unfold new_viewport in N. destruct (Viewport.update _); [|discriminate]. injection N as <-. split; reflexivity. }
  destruct X as [X Y]. cbn [app Viewport.run Viewport.step new_scene s_view s_zoom] in R. destruct (show_zoom v z) as [v1|] eqn:Z1; [|discriminate]. cbn [bind] in R.
  destruct (show_even _ _ _ _ X Y Z1) as [X1 Y1]. apply (run_even (Viewport.Connect :: l) (mkScene v1 z true) t); [intros e [<-|I]; [reflexivity|exact (NR e I)]|exists z; auto|reflexivity|split; assumption|exact R].
Qed.
Lemma stays_in_view theta phi zdist sc c f x y w h v z d0 s0 hist s p : ball_camera theta phi zdist sc = Ok c -> new_viewport f x y w h = Ok v ->
  launched c v z d0 = Ok s0 -> lives s0 hist = Ok s -> existsb is_resized hist = false ->
  (0 < zdist)%R -> (Rabs sc * norm p <= zdist * sin half_angle)%R -> (1 <= s_zoom (l_view s))%Qc -> ViewportSpec.positive (s_view (l_view s)) ->
  let now := camera_steps figure c (start_of port ++ mouse_of hist) in
  in_viewport (s_view (l_view s)) (spot (s_view (l_view s)) (clip (c_model now) (c_view now) (c_proj now) p)).
Proof.
  intros B N L E NR ZD ND ZO PO now. pose proof (ball_made _ _ _ _ _ B) as M. destruct (parts _ _ _ _ _ _ _ M L E) as (_ & R).
  assert (EV : even (l_view s)).
  { apply (start_even _ _ _ _ _ _ _ _ _ N) with (2 := R). intros e I. unfold scrolls_of in I. apply in_flat_map in I. destruct I as (a & IA & I).
    destruct a as [m b|i|]; [destruct (Camera.m_kind m); [destruct I| |destruct I|destruct I]; destruct I as [<-|[]]; reflexivity| |destruct I].
    exfalso. assert (existsb is_resized hist = true) by (apply existsb_exists; exists (Resized i); auto). congruence. }
  destruct (ball_history figure theta phi zdist sc c (start_of port ++ mouse_of hist) B) as (dl & _ & CM). fold now in CM.
  set (q := s_view (l_view s)) in *. destruct EV as [X Y]. fold q in X, Y. set (zz := s_zoom (l_view s)) in *.
  assert (ZP : zz <> Q2Qc 0). { intros Q. rewrite Q in ZO. apply ZO. reflexivity. }
  assert (LZ : lim zz = (- zz, zz)%Qc) by (apply lim_of; exact ZP). rewrite LZ in X, Y.
  assert (Z1 : (1 <= inR zz)%R). { replace 1%R with (inR 1%Qc) by (unfold inR; cbn; unfold Q2R; cbn; lra). apply inR_le. exact ZO. }
  assert (SX : inR (span_x q) = (2 * inR zz)%R). { unfold span_x. rewrite X. cbn [fst snd]. rewrite inR_minus, inR_opp. lra. }
  assert (SY : inR (span_y q) = (2 * inR zz)%R). { unfold span_y. rewrite Y. cbn [fst snd]. rewrite inR_minus, inR_opp. lra. }
  destruct PO as [PX PY]. assert (SDX : (0 < side_x q)%R) by (unfold side_x; rewrite <- inR_0; apply inR_lt; exact PX). assert (SDY : (0 < side_y q)%R) by (unfold side_y; rewrite <- inR_0; apply inR_lt; exact PY).
  assert (HALF : forall sd, (0 < sd)%R -> (0 <= sd / (2 * inR zz) <= sd / 2)%R).
  { intros sd P. split; [apply Rmult_le_pos; [lra|]; apply Rlt_le, Rinv_0_lt_compat; lra|]. apply Rmult_le_compat_l; [lra|]. apply Rinv_le_contravar; lra. }
  assert (UX : (0 <= unit_x q <= side_x q / 2)%R) by (unfold unit_x; rewrite SX; apply HALF; exact SDX).
  assert (UY : (0 <= unit_y q <= side_y q / 2)%R) by (unfold unit_y; rewrite SY; apply HALF; exact SDY).
  destruct (camera_units theta phi (drags dl) zdist sc _ _ _ CM q p ZD (proj1 UX) (proj1 UY) ND) as (a & b & SP & XA & XB).
  exists a, b. split; [exact SP|]. apply Rabs_def2' in XA. apply Rabs_def2' in XB. unfold middle in XA, XB. cbn [fst snd] in XA, XB. split; lra.
Qed.
Lemma resized_whole c v z d0 s0 h s i s' : made c -> launched c v z d0 = Ok s0 -> lives s0 h = Ok s -> live_step s (Resized i) = Ok s' ->
  exists v' l, render_all visuals (l_data s) (s_view (l_view s)) (c_model (l_cam s)) (c_view (l_cam s)) (c_proj (l_cam s)) = Ok l /\ l_screen s' = Some (v', l) /\
    ViewportSpec.seen v' = ViewportSpec.seen (s_view (l_view s)) /\ f_inches (p_fig v') = i /\ f_dpi (p_fig v') = f_dpi (p_fig (s_view (l_view s))).
Proof.
  intros M L E R. destruct (whole _ _ _ _ _ _ _ M L E) as (_ & _ & G & _). exists (stretched (s_view (l_view s)) i), (l_shown s). split; [|split; [exact (resized_shows _ _ _ _ _ _ _ R)|repeat split]].
  destruct G as (_ & _ & _ & _ & _ & _ & _ & _ & RA & _). exact RA.
Qed.
Lemma outside_whole c v z d0 s0 h s e b : made c -> launched c v z d0 = Ok s0 -> lives s0 h = Ok s ->
  Camera.m_figure e <> figure port \/ (Camera.m_kind e <> Camera.Release /\ inside port figure e = false) -> live_step s (Moved e b) = Ok s.
Proof.
  intros M L E O. destruct (whole _ _ _ _ _ _ _ M L E) as (_ & _ & G & _). destruct O as [O|[K O]]; [exact (elsewhere_nothing _ _ _ _ _ _ _ G O)|exact (outside_nothing _ _ _ _ _ _ _ G K O)].
Qed.
Lemma data_told c v z d0 s0 h s : made c -> launched c v z d0 = Ok s0 -> lives s0 h = Ok s -> told on_render s.
Proof. intros M L E. destruct (whole _ _ _ _ _ _ _ M L E) as (_ & _ & G & _). destruct G as (_ & _ & _ & _ & _ & _ & _ & _ & _ & TO). exact TO. Qed.
End Whole.
Lemma cameras_made c : (exists theta phi zdist sc, ball_camera theta phi zdist sc = Ok c) \/ flat_camera = Ok c -> made c.
Proof. intros [(t & p & d & s & E)|E]; [exact (ball_made _ _ _ _ _ E)|exact (flat_made _ E)]. Qed.
Lemma pictures argsort v V model view proj :
  (forall face edge width size, (let* l := points_vis argsort V face edge width size v model view proj in Ok (picture v l)) =
    (let* out := Picture.points argsort v V model view proj face edge width size in Ok (map (fun '(x, a) => ([x], a)) out))) /\
  (forall color width, (let* l := segments_vis argsort V color width v model view proj in Ok (picture v l)) = Outline.segments argsort v V model view proj color width) /\
  (forall i attrs, (let* l := outlines_vis argsort V i attrs v model view proj in Ok (picture v l)) = Outline.outlines argsort v V model view proj i attrs).
Proof. split; [|split]; intros; [apply points_picture|apply segments_picture|apply outlines_picture]. Qed.

Lemma points_never_fail argsort V ps face edge width size : holds V ps -> fits_size (length ps) size -> forall w m v p, exists l, points_vis argsort V face edge width size w m v p = Ok l.
Proof.
  intros Ho F w m v p. destruct (placed_points_rows V (transform_of m v p) ps Ho) as (A & P & Rr). unfold points_vis. rewrite P. cbn [bind]. unfold rows_of. rewrite Rr. cbn [bind].
  rewrite map_length. unfold attach_size, fits_size in *. destruct size as [l| |]; [|destruct F|]; cbn [bind]; [|eauto]. rewrite F, Nat.eqb_refl. cbn [bind]. eauto.
Qed.
Lemma segments_never_fail argsort V ps gs color width : holds V ps -> in_pairs gs ps -> forall w m v p, exists l, segments_vis argsort V color width w m v p = Ok l.
Proof.
  intros Ho [<- F] w m v p. destruct (placed_points_rows V (transform_of m v p) _ Ho) as (A & P & Rr). unfold segments_vis. rewrite P. cbn [bind]. unfold rows_of. rewrite Rr. cbn [bind].
  rewrite pairs_map, pairs_ok by exact F. cbn [bind]. eauto.
Qed.
Lemma outlines_never_fail argsort V ps i gs attrs : sorts_numbers argsort -> holds V ps -> group ps i = Ok gs -> Forall (fun a => fits (length gs) a /\ clear_path (length gs) (length ps) a) attrs ->
  forall w m v p, exists l, outlines_vis argsort V i attrs w m v p = Ok l.
Proof.
  intros SO Ho G F w m v p. destruct (placed_points_rows V (transform_of m v p) _ Ho) as (A & P & Rr). unfold outlines_vis. rewrite P. cbn [bind]. unfold rows_of. rewrite Rr. cbn [bind].
  rewrite group_map, G. cbn [bind]. rewrite !map_length. set (key := map _ (map _ gs)).
  assert (Vi : visits (length gs) (argsort key)) by (unfold visits; replace (length gs) with (length key) by (unfold key; now rewrite !map_length); apply (proj1 (SO key))).
  destruct (attach_all_shown (length gs) (length ps) (argsort key) Vi attrs F) as (bs & -> & _). cbn [bind]. eauto.
Qed.
Lemma all_rendered {D} (sound : D -> Prop) argsort V ps : sorts_numbers argsort -> holds V ps ->
  (forall face edge width size, fits_size (length ps) size -> never_fail sound [fun _ : D => points_vis argsort V face edge width size]) /\
  (forall gs color width, in_pairs gs ps -> never_fail sound [fun _ : D => segments_vis argsort V color width]) /\
  (forall i gs attrs, group ps i = Ok gs -> Forall (fun a => fits (length gs) a /\ clear_path (length gs) (length ps) a) attrs -> never_fail sound [fun _ : D => outlines_vis argsort V i attrs]).
Proof.
  intros SO Ho. split; [|split].
  - intros face edge width size F. constructor; [|constructor]. intros d ? ? ? ? _ _. apply (points_never_fail argsort V ps face edge width size Ho F).
  - intros gs color width P. constructor; [|constructor]. intros d ? ? ? ? _ _. apply (segments_never_fail argsort V ps gs color width Ho P).
  - intros i gs attrs G F. constructor; [|constructor]. intros d ? ? ? ? _ _. apply (outlines_never_fail argsort V ps i gs attrs SO Ho G F).
Qed.

Lemma live_example (figure : nat -> nat) : let visuals := [fun _ : Datatypes.unit => points_vis sort_nums sample (Whole 1) (Whole 2) (Whole 3) (Whole 4)] in
  let h := [Moved (press figure 7 0%Qc 0%Qc) OtherButton; Moved (motion figure 7 tenth 0%Qc) OtherButton; Resized (zq 10, zq 5); Moved (Camera.mkMouse Camera.Scroll (figure 7%nat) (Some 7%nat) 0%Qc 0%Qc) Up] in
  settled 7 figure h /\ never_fail (fun _ => True) visuals /\ sensible h /\
  exists c f v s0 s, ball_camera 30 40 5 1 = Ok c /\ made c /\ new_canvas (CInt 512) (CInt 256) (zq 100) = Ok f /\ new_viewport f (CInt 0) (CInt 0) (CInt 512) (CInt 256) = Ok v /\
    launched visuals no_render 7 figure c v 1%Qc tt = Ok s0 /\ lives visuals no_render 7 figure s0 h = Ok s.
Proof.
  intros visuals h. assert (NF : never_fail (fun _ => True) visuals).
  { constructor; [|constructor]. intros d ? ? ? ? _ _. apply (points_never_fail _ _ [V3 0 0 1; V3 0 0 2]); [exact sample_holds|exact Logic.I]. }
  assert (SE : sensible h) by (repeat constructor; now vm_compute).
  split; [|split; [exact NF|split; [exact SE|]]].
  - right. exists [Moved (press figure 7 0%Qc 0%Qc) OtherButton; Moved (motion figure 7 tenth 0%Qc) OtherButton; Resized (zq 10, zq 5)], (Moved (Camera.mkMouse Camera.Scroll (figure 7%nat) (Some 7%nat) 0%Qc 0%Qc) Up), [].
    split; [reflexivity|]. split; [reflexivity|]. right. eexists. eexists. split; [reflexivity|]. unfold clicks, inside. cbn [Camera.m_kind Camera.m_figure Camera.m_inaxes]. rewrite Nat.eqb_refl. reflexivity.
  - destruct (ball_camera_ok (F := nat) 30 40 5 1) as (c & B). pose proof (ball_made _ _ _ _ _ B) as M.
    assert (T : match new_canvas (CInt 512) (CInt 256) (zq 100) with Ok f => qlt 0%Qc (f_dpi f) && qlt 0%Qc (fst (Viewport.size f)) && qlt 0%Qc (snd (Viewport.size f)) = true | Err _ => False end) by (vm_compute; reflexivity).
    destruct (new_canvas (CInt 512) (CInt 256) (zq 100)) as [f|]; [|destruct T]. apply andb_true_iff in T. destruct T as [T SH]. apply andb_true_iff in T. destruct T as [DP SW]. apply qlt_spec in DP, SW, SH.
    assert (NR : never_raises (fun _ => True) (@no_render Datatypes.unit) 1%Qc) by (intros ? ? ? ? d; exists d; split; [reflexivity|exact Logic.I]).
    destruct (runs visuals no_render 7 figure _ c f (CInt 0) (CInt 0) (CInt 512) (CInt 256) 1%Qc tt h M NR NF DP SW SH Logic.I Logic.I eq_refl eq_refl SE) as (v & s0 & s & N & L & E).
    exists c, f, v, s0, s. auto 7.
Qed.
Lemma trial_spans : match (let* f := new_canvas (CInt 512) (CInt 512) (zq 100) in
                           let* v := new_viewport f (CFloat 0%Qc) (CFloat 0%Qc) (CFloat 1%Qc) (CFloat 1%Qc) in
                           let* a := Viewport.run (new_scene v 1%Qc) [Viewport.Connect; Viewport.Connect] in
                           let* b := Viewport.run a [Viewport.Resize (zq 10, zq 5)] in Ok (f, a, b)) with
  | Ok (f, a, b) => qlt 0%Qc (f_dpi f) && qlt 0%Qc (fst (Viewport.size f)) && qlt 0%Qc (snd (Viewport.size f)) && negb (qeq (span_x (s_view a)) (span_x (s_view b))) = true
  | Err _ => False end.
Proof. vm_compute. reflexivity. Qed.
Lemma stale {D} (sound : D -> Prop) (visuals : list (D -> vis)) on_render port figure c d0 : made c -> never_raises sound on_render 1%Qc -> never_fail sound visuals ->
  exists f v s0 s, new_canvas (CInt 512) (CInt 512) (zq 100) = Ok f /\ new_viewport f (CFloat 0%Qc) (CFloat 0%Qc) (CFloat 1%Qc) (CFloat 1%Qc) = Ok v /\
    launched visuals on_render port figure c v 1%Qc d0 = Ok s0 /\ lives visuals on_render port figure s0 [Resized (zq 10, zq 5)] = Ok s /\ ~ current visuals s /\
    exists v' l, l_screen s = Some (v', l) /\ span_x v' <> span_x (s_view (l_view s)).
Proof.
  intros M NR NF. pose proof trial_spans as T. destruct (new_canvas (CInt 512) (CInt 512) (zq 100)) as [f|]; [|destruct T]. cbn [bind] in T.
  destruct (new_viewport f (CFloat 0%Qc) (CFloat 0%Qc) (CFloat 1%Qc) (CFloat 1%Qc)) as [v|] eqn:N; [|destruct T]. cbn [bind] in T.
  destruct (Viewport.run (new_scene v 1%Qc) [Viewport.Connect; Viewport.Connect]) as [a|] eqn:RA; [|destruct T]. cbn [bind] in T.
  destruct (Viewport.run a [Viewport.Resize (zq 10, zq 5)]) as [b|] eqn:RB; [|destruct T]. cbn [bind] in T.
  apply andb_true_iff in T. destruct T as [T DI]. apply andb_true_iff in T. destruct T as [T SH]. apply andb_true_iff in T. destruct T as [DP SW].
  apply qlt_spec in DP, SW, SH. assert (ONE : (0 < 1)%Qc) by now vm_compute. assert (SE : sensible [Resized (zq 10, zq 5)]) by (repeat constructor; now vm_compute).
  destruct (runs visuals on_render port figure sound c f (CFloat 0%Qc) (CFloat 0%Qc) (CFloat 1%Qc) (CFloat 1%Qc) 1%Qc d0 [Resized (zq 10, zq 5)] M NR NF DP SW SH Logic.I Logic.I ONE ONE SE) as (v' & s0 & s & N' & L & E).
  rewrite N in N'. injection N' as <-. destruct (parts _ _ _ _ _ _ _ _ _ _ _ M L (eq_refl : lives visuals on_render port figure s0 [] = Ok s0)) as [_ V0]. destruct (parts _ _ _ _ _ _ _ _ _ _ _ M L E) as [_ V1].
  cbn [scrolls_of flat_map app] in V0, V1. rewrite RA in V0. injection V0 as ->. change [Viewport.Connect; Viewport.Connect; Viewport.Resize (zq 10, zq 5)] with ([Viewport.Connect; Viewport.Connect] ++ [Viewport.Resize (zq 10, zq 5)]) in V1.
  rewrite run_app, RA in V1. cbn [bind] in V1. rewrite RB in V1. injection V1 as ->. cbn [lives] in E. destruct (live_step visuals on_render port figure s0 (Resized (zq 10, zq 5))) as [s1|] eqn:E1; [|discriminate]. cbn [bind] in E. injection E as ->.
  pose proof (resized_shows _ _ _ _ _ _ _ E1) as SC. assert (ND : span_x (stretched (s_view (l_view s0)) (zq 10, zq 5)) <> span_x (s_view (l_view s))).
  { change (span_x (stretched (s_view (l_view s0)) (zq 10, zq 5))) with (span_x (s_view (l_view s0))). intros Q. rewrite Q in DI. unfold qeq, Qcminus in DI. rewrite Qcplus_opp_r in DI. discriminate DI. }
  exists f, v, s0, s. repeat (split; [first [assumption | reflexivity]|]). split; [cbn [lives]; rewrite E1; reflexivity|]. split.
  - intros (l & _ & Q). rewrite SC in Q. apply ND. injection Q as Q _. now rewrite Q.
  - eauto.
Qed.
