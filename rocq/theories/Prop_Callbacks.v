(** C119: functions connected to the camera that use it. *)
From Verif Require Import Base Camera CameraSpec CameraFacts Callbacks CallbacksSpec CallbacksFacts.
Local Open Scope string_scope.
Local Open Scope list_scope.

(** After any history of a program, an event the camera answers calls the functions of
    that event, those that other functions connect meanwhile included, each once, in the
    order of connection, with the matrices as they are after the event; then the figure of
    the viewport connected last is drawn.  If a function fails, the functions after it are not
    called and nothing is drawn, but the turn of the trackball stays.  The functions of that
    event do not run the camera; they may connect, disconnect and raise. *)
Theorem C119_calls {F M T} `{EqB F} drag_to (model : T -> M) figure body roster fuel ball (eye view proj : M) h c s e c' s' r :
  keeps_to roster body -> program_keeps roster h -> (forall f, In f (roster (m_kind e)) -> never_runs body f) ->
  live_steps drag_to model figure body fuel (new_camera model ball eye view proj) [] h = Some (c, s) -> answers c e ->
  live_step drag_to model figure body fuel c s (Mouse e) = Some (c', s', r) ->
  let turned := fst (Camera.step drag_to model figure c (Mouse e)) in
  c_ball c' = c_ball turned /\ c_model c' = c_model turned /\ c_view c' = view /\ c_proj c' = proj /\
  (forall k, starts_with (c_updates c k) (c_updates c' k) /\ NoDup (c_updates c' k)) /\
  exists out, Forall (given (c_model c') view proj) out /\
    match r with
    | Ok _ => called out = c_updates c' (m_kind e) /\ exists v, c_viewport c' = Some v /\ s' = s ++ out ++ [Draw (figure v)]
    | Err x => s' = s ++ out /\ starts_with (called out) (c_updates c' (m_kind e)) /\ exists before f, called out = before ++ [f] /\ blames body f x
    end.
Proof. exact (event_calls drag_to model figure body roster fuel ball eye view proj h c s e c' s' r). Qed.
Print Assumptions C119_calls.
(** Functions that neither connect nor run leave the lists, the viewport and the drag. *)
Theorem C119_keeps {F M T} `{EqB F} drag_to (model : T -> M) figure body fuel (c : camera) s e c' s' r :
  (forall f : F, In f (c_updates c (m_kind e)) -> never_runs body f /\ never_connects body f) ->
  live_step drag_to model figure body fuel c s (Mouse e) = Some (c', s', r) ->
  let turned := fst (Camera.step drag_to model figure c (Mouse e)) in
  c_updates c' = c_updates c /\ c_viewport c' = c_viewport c /\ c_mouse c' = c_mouse turned /\ incl (c_figures c') (c_figures c).
Proof. exact (event_keeps drag_to model figure body fuel c s e c' s' r). Qed.
Print Assumptions C119_keeps.
(** Functions that do nothing with the camera: every operation is that of C65 and C66. *)
Theorem C119_same {F M T} `{EqB F} drag_to (model : T -> M) figure body fuel (c : camera) s (o : @op F) :
  idle body -> (forall k, (length (c_updates c k) < fuel)%nat) ->
  live_step drag_to model figure body fuel c s o = (let '(c', (out, r)) := Camera.step drag_to model figure c o in Some (c', s ++ out, r)).
Proof. exact (idle_step drag_to model figure body fuel c s o). Qed.
Print Assumptions C119_same.
(** Every history ends, if the functions that can be connected are finitely many and those
    connected to motion do not run the camera. *)
Theorem C119_ends {F M T} `{EqB F} drag_to (model : T -> M) figure body roster ball (eye view proj : M) (h : list (@op F)) :
  keeps_to roster body -> program_keeps roster h -> (forall f, In f (roster Motion) -> never_runs body f) ->
  exists fuel0, forall fuel, (fuel0 <= fuel)%nat -> exists c s, live_steps drag_to model figure body fuel (new_camera model ball eye view proj) [] h = Some (c, s).
Proof. exact (histories_end drag_to model figure body roster ball eye view proj h). Qed.
Print Assumptions C119_ends.
(** What a history does is one thing. *)
Theorem C119_one {F M T} `{EqB F} drag_to (model : T -> M) figure body fuel fuel' (h : list (@op F)) : (fuel <= fuel')%nat ->
  forall (c : camera) s x, live_steps drag_to model figure body fuel c s h = Some x -> live_steps drag_to model figure body fuel' c s h = Some x.
Proof. exact (steps_more drag_to model figure body fuel fuel' h). Qed.
Print Assumptions C119_one.
(** A motion function that runs or saves the camera never ends. *)
Theorem C119_run_inside_refuted {F M T} `{EqB F} drag_to (model : T -> M) figure body fuel :
  forall (c : camera) s (f : F) l v, c_updates c Motion = f :: l -> c_viewport c = Some v -> (forall s, exists r, body f s = ARun :: r) ->
  live_step drag_to model figure body fuel c s Run = None.
Proof. exact (runs_endless drag_to model figure body fuel). Qed.
Print Assumptions C119_run_inside_refuted.
(** Neither do functions that each connect a new one. *)
Theorem C119_breeding_refuted fuel : exists c s,
  live_steps drag_ex model_ex figure_ex breeding fuel breeder [] [Connect 0 "motion" 0%nat] = Some (c, s) /\
  live_step drag_ex model_ex figure_ex breeding fuel c s Run = None.
Proof. exact (breeding_history fuel). Qed.
Print Assumptions C119_breeding_refuted.

Example C119_roster : keeps_to roster_ex body_ex /\ (forall f, In f (roster_ex Motion) -> never_runs body_ex f).
Proof. exact (conj roster_kept roster_calm). Qed.
Definition run_ex h := live_steps drag_ex model_ex figure_ex body_ex 20 camera_ex [] h.
(** A function that fails: the next one is not called, nothing is drawn, the model has turned. *)
Example C119_broken :
  let h := [Connect 0 "motion" "move"; Connect 0 "motion" "broken"; Connect 0 "motion" "leaver"; Mouse (mouse_ex Press 0); Mouse (mouse_ex Motion 0)] in
  option_map (fun x => (skipn 4 (snd x), c_model (fst x))) (run_ex h) = Some ([Call "move" 0 1 10 20; Call "broken" 0 1 10 20], 1)%nat.
Proof. vm_compute. reflexivity. Qed.
(** A function that connects another viewport: later functions get that viewport, that
    figure is drawn, and the drag has ended. *)
Example C119_mover :
  let h := [Connect 0 "motion" "mover"; Connect 0 "motion" "move"; Mouse (mouse_ex Press 0); Mouse (mouse_ex Motion 0)] in
  option_map (fun x => (skipn 3 (snd x), c_mouse (fst x))) (run_ex h) = Some ([Call "mover" 0 1 10 20; Draw 1; Call "move" 1 1 10 20; Draw 1]%nat, None).
Proof. vm_compute. reflexivity. Qed.
(** A function connected during the event is called in it, and an unknown event fails. *)
Example C119_adder :
  option_map (fun x => skipn 1 (snd x)) (run_ex [Connect 0 "press" "adder"; Mouse (mouse_ex Press 0)])
    = Some [Call "adder" 0 0 10 20; Draw 0; Call "move" 0 0 10 20; Draw 0]%nat /\
  option_map (fun x => skipn 2 (snd x)) (run_ex [Connect 0 "release" "wrong"; Connect 0 "release" "move"; Mouse (mouse_ex Release 0)])
    = Some [Call "wrong" 0 0 10 20]%nat.
Proof. vm_compute. split; reflexivity. Qed.
(** A press function that saves calls the functions of motion, once. *)
Example C119_saver :
  option_map (fun x => skipn 2 (snd x)) (run_ex [Connect 0 "press" "saver"; Connect 0 "motion" "move"; Mouse (mouse_ex Press 0)])
    = Some [Call "saver" 0 0 10 20; Call "move" 0 0 10 20; Draw 0]%nat.
Proof. vm_compute. reflexivity. Qed.
