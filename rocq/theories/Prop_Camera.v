(** C65, C66: the events of the camera. *)
From Verif Require Import Base Camera CameraSpec CameraFacts.
Local Open Scope list_scope.
Local Open Scope string_scope.

(** A camera to try: functions are numbered, a trackball is the list of its drags,
    viewports 0 and 1 are in figure 0, viewport 2 in figure 1. *)
#[global] Instance EqB_ex : EqB nat := { eqb := Nat.eqb; eqb_spec := Nat.eqb_spec }.
Definition ball := list (Qc * Qc).
Definition ex_drag (t : ball) (x y dx dy : Qc) : ball := (t ++ [(dx, dy)])%list.
Definition ex_figure (v : nat) : nat := if (v <? 2)%nat then 0%nat else 1%nat.
Definition q (z : Z) : Qc := Q2Qc (z # 1).
Definition ex_camera : @camera nat ball ball := new_camera (fun t => t) (Some []) [] [] [].
Definition ex_steps := steps (F := nat) ex_drag (fun t => t) ex_figure ex_camera.
Definition ex_step := step (F := nat) ex_drag (fun t => t) ex_figure.
Definition ex_mouse k v x : mouse := mkMouse k (ex_figure v) (Some v) (q x) (q 0).
Definition ex_outside k x : mouse := mkMouse k 0 None (q x) (q 0).

(** ** C65 *)
(** When an event happens over the viewport connected last, every function connected
    to that event, and no other, is called once, in the order of first connection,
    with that viewport and the matrices as they are after the event; then the
    figure is drawn.  Motion counts during a drag, with a trackball. *)
Theorem C65_calls {F M T} `{EqB F} drag_to (model : T -> M) figure ball (eye view proj : M) (h : list (@op F)) v e :
  plain h -> last_viewport h = Some v -> m_figure e = figure v ->
  let c := steps drag_to model figure (new_camera model ball eye view proj) h in
  let r := step drag_to model figure c (Mouse e) in
  snd r = (if match m_kind e with
              | Scroll | Press => seen v e
              | Motion => seen v e && dragging figure (rev h) && match ball with Some _ => true | None => false end
              | Release => true
              end
           then (map (fun f => Call f v (c_model (fst r)) view proj) (firsts (connected (m_kind e) h)) ++ [Draw (figure v)])%list
           else [], Ok tt).
Proof. exact (calls drag_to model figure ball eye view proj h v e). Qed.
Print Assumptions C65_calls.
(** The list of functions called has each connected function once. *)
Theorem C65_once {F} `{EqB F} (l : list F) : NoDup (firsts l) /\ (forall x, In x (firsts l) <-> In x l).
Proof. exact (conj (firsts_nodup l) (firsts_in l)). Qed.
Print Assumptions C65_once.
Example C65_example :
  plain [Connect 0 "press" 7; Connect 0 "motion" 8; Connect 0 "press" 9; Connect 0 "press" 7]%nat /\
  let c := ex_steps [Connect 0 "press" 7; Connect 0 "motion" 8; Connect 0 "press" 9; Connect 0 "press" 7]%nat in
  fst (snd (ex_step c (Mouse (ex_mouse Press 0 1)))) = [Call 7 0 [] [] []; Call 9 0 [] [] []; Draw 0]%nat /\
  fst (snd (ex_step c (Mouse (ex_mouse Motion 0 1)))) = [] /\
  fst (snd (ex_step (fst (ex_step c (Mouse (ex_mouse Press 0 1)))) (Mouse (ex_mouse Motion 0 3))))
  = [Call 8 0 [(q 2, q 0)] [] []; Draw 0]%nat.
Proof. split; [repeat constructor; cbn; tauto|]. repeat split. Qed.
(** Running or saving calls the functions connected to motion. *)
Theorem C65_run {F M T} `{EqB F} drag_to (model : T -> M) figure ball (eye view proj : M) (h : list (@op F)) v :
  last_viewport h = Some v ->
  let c := steps drag_to model figure (new_camera model ball eye view proj) h in
  step drag_to model figure c Run = (c, (map (fun f => Call f v (c_model c) view proj) (firsts (connected Motion h)), Ok tt)).
Proof. exact (run_calls drag_to model figure ball eye view proj h v). Qed.
Print Assumptions C65_run.
(** Figures the camera was never connected to have no effect. *)
Theorem C65_other_figures {F M T} `{EqB F} drag_to (model : T -> M) figure ball (eye view proj : M) (h : list (@op F)) e :
  plain h -> (forall v name f, In (Connect v name f) h -> figure v <> m_figure e) ->
  let c := steps drag_to model figure (new_camera model ball eye view proj) h in
  step drag_to model figure c (Mouse e) = (c, ([], Ok tt)).
Proof. exact (other_figures drag_to model figure ball eye view proj h e). Qed.
Print Assumptions C65_other_figures.
(** Nor, once disconnected, has the figure it was connected to. *)
Theorem C65_disconnected {F M T} `{EqB F} drag_to (model : T -> M) figure ball (eye view proj : M) g (h : list (@op F)) v l e :
  all_valid h -> one_figure figure g h -> last_viewport h = Some v -> Forall quiet l ->
  let c := steps drag_to model figure (new_camera model ball eye view proj) (h ++ Disconnect :: l) in
  step drag_to model figure c (Mouse e) = (c, ([], Ok tt)).
Proof. exact (disconnected drag_to model figure ball eye view proj g h v l e). Qed.
Print Assumptions C65_disconnected.
Example C65_example_disconnected :
  (one_figure ex_figure 0 [Connect 0 "press" 7; Connect 1 "motion" 8] /\
   let c := ex_steps [Connect 0 "press" 7; Connect 1 "motion" 8] in
   fst (snd (ex_step c (Mouse (ex_mouse Press 1 1)))) = [Call 7 1 [] [] []; Draw 0] /\
   fst (snd (ex_step (fst (ex_step c Disconnect)) (Mouse (ex_mouse Press 1 1)))) = [])%nat.
Proof. split; [repeat constructor|]. repeat split. Qed.
(** With two figures the first one is not let go. *)
Theorem C65_disconnect_refuted :
  (let c := ex_steps [Connect 0 "release" 7; Connect 2 "release" 7; Disconnect] in
   ex_step c (Mouse (ex_mouse Release 0 1)) = (c, ([Call 7 2 [] [] []; Draw 1], Ok tt)))%nat.
Proof. reflexivity. Qed.
Print Assumptions C65_disconnect_refuted.
(** Connected to two viewports, the camera forgets the first: its events are lost,
    and the function connected with it is called with the second. *)
Theorem C65_two_viewports_refuted :
  (let c := ex_steps [Connect 0 "press" 7; Connect 1 "press" 8] in
   ex_step c (Mouse (ex_mouse Press 0 1)) = (c, ([], Ok tt)) /\
   fst (snd (ex_step c (Mouse (ex_mouse Press 1 1)))) = [Call 7 1 [] [] []; Call 8 1 [] [] []; Draw 0])%nat.
Proof. split; reflexivity. Qed.
Print Assumptions C65_two_viewports_refuted.
(** A release is taken wherever it happens, drag or not. *)
Theorem C65_release_outside_refuted :
  (let c := ex_steps [Connect 0 "release" 7] in
   fst (snd (ex_step c (Mouse (ex_outside Release 1)))) = [Call 7 0 [] [] []; Draw 0])%nat.
Proof. reflexivity. Qed.
Print Assumptions C65_release_outside_refuted.
(** A connection refused for its name has moved the camera all the same. *)
Theorem C65_wrong_name_refuted {F M T} `{EqB F} drag_to (model : T -> M) figure (c : @camera F M T) v name f : ~ valid name ->
  snd (step drag_to model figure c (Connect v name f)) = ([], Err KeyError) /\
  c_viewport (fst (step drag_to model figure c (Connect v name f))) = Some v /\
  c_updates (fst (step drag_to model figure c (Connect v name f))) = c_updates c /\
  c_figures (fst (step drag_to model figure c (Connect v name f))) = c_figures c.
Proof. exact (wrong_name drag_to model figure c v name f). Qed.
Print Assumptions C65_wrong_name_refuted.
Example C65_example_wrong_name : ~ valid "drag" /\
  (let c := ex_steps [Connect 0 "press" 7; Connect 1 "drag" 8] in ex_step c (Mouse (ex_mouse Press 0 1)) = (c, ([], Ok tt)))%nat.
Proof. split; [cbn; intuition discriminate|reflexivity]. Qed.

(** ** C66 *)
(** A drag turns the trackball by each move over the viewport, from where the
    pointer was last seen there, and the model matrix is the trackball's. *)
Theorem C66_drag {F M T} `{EqB F} drag_to (model : T -> M) figure (t0 : T) (eye view proj : M) (h : list (@op F)) v p l t :
  plain h -> last_viewport h = Some v ->
  m_kind p = Press -> m_figure p = figure v -> seen v p = true ->
  Forall (fun e => m_kind e = Motion /\ m_figure e = figure v) l ->
  let c0 := new_camera model (Some t0) eye view proj in
  c_ball (steps drag_to model figure c0 h) = Some t ->
  let c := steps drag_to model figure c0 (h ++ Mouse p :: map Mouse l) in
  c_ball c = Some (follow drag_to v t (m_x p) (m_y p) l) /\ c_model c = model (follow drag_to v t (m_x p) (m_y p) l).
Proof. exact (drag_ok drag_to model figure t0 eye view proj h v p l t). Qed.
Print Assumptions C66_drag.
(** The moves add up to the way from the press to where the pointer was last seen,
    also when it left the viewport and came back. *)
Theorem C66_moves_add_up v l x y :
  let at_end := fold_left (fun q e => if seen v e then (m_x e, m_y e) else q) l (x, y) in
  (fold_right Qcplus 0 (map fst (moves v x y l)) = fst at_end - x /\ fold_right Qcplus 0 (map snd (moves v x y l)) = snd at_end - y)%Qc.
Proof. exact (moves_sum v l x y). Qed.
Print Assumptions C66_moves_add_up.
Example C66_example :
  c_ball (ex_steps [Connect 0 "motion" 7; Mouse (ex_mouse Press 0 1); Mouse (ex_mouse Motion 0 3);
                    Mouse (ex_outside Motion 9); Mouse (ex_mouse Motion 0 4); Mouse (ex_mouse Release 0 4); Mouse (ex_mouse Motion 0 8)]%nat)
  = Some [(q 2, q 0); (q 1, q 0)].
Proof. reflexivity. Qed.
(** Without a press since the release nothing turns, nor before any press. *)
Theorem C66_released {F M T} `{EqB F} drag_to (model : T -> M) figure ball (eye view proj : M) (h : list (@op F)) v e l :
  plain h -> last_viewport h = Some v -> m_kind e = Release -> m_figure e = figure v -> Forall no_press l ->
  let c0 := new_camera model ball eye view proj in
  c_ball (steps drag_to model figure c0 (h ++ Mouse e :: l)) = c_ball (steps drag_to model figure c0 h) /\
  c_model (steps drag_to model figure c0 (h ++ Mouse e :: l)) = c_model (steps drag_to model figure c0 h).
Proof. exact (no_drag drag_to model figure ball eye view proj h v e l). Qed.
Print Assumptions C66_released.
Theorem C66_not_pressed {F M T} `{EqB F} drag_to (model : T -> M) figure ball (eye view proj : M) (l : list (@op F)) :
  Forall no_press l ->
  let c0 := new_camera model ball eye view proj in
  c_ball (steps drag_to model figure c0 l) = ball /\ c_model (steps drag_to model figure c0 l) = c_model c0.
Proof. exact (never_dragged drag_to model figure ball eye view proj l). Qed.
Print Assumptions C66_not_pressed.
(** Whatever happens the view and the projection stay as they were made, and without
    a trackball so does the model matrix. *)
Theorem C66_view_kept {F M T} `{EqB F} drag_to (model : T -> M) figure (c : @camera F M T) (h : list (@op F)) :
  c_view (steps drag_to model figure c h) = c_view c /\ c_proj (steps drag_to model figure c h) = c_proj c.
Proof. exact (matrices_kept drag_to model figure c h). Qed.
Print Assumptions C66_view_kept.
Theorem C66_ortho_kept {F M T} `{EqB F} drag_to (model : T -> M) figure (eye view proj : M) (h : list (@op F)) :
  c_model (steps drag_to model figure (new_camera model None eye view proj) h) = eye.
Proof. exact (proj2 (ortho_kept drag_to model figure eye view proj h)). Qed.
Print Assumptions C66_ortho_kept.
(** Connecting during a drag ends it. *)
Theorem C66_connect_ends_drag_refuted :
  c_ball (ex_steps [Connect 0 "motion" 7; Mouse (ex_mouse Press 0 1); Connect 0 "scroll" 7; Mouse (ex_mouse Motion 0 3)]%nat) = Some [].
Proof. reflexivity. Qed.
Print Assumptions C66_connect_ends_drag_refuted.
