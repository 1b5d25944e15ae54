(** C87: examples run with the camera. *)
From Verif Require Import Base Scene SceneSpec SceneFacts Launcher LauncherFacts.

(** After any history and any moves of the camera every visual listed is shown in the
    first viewport as the camera sees it now. *)
Theorem C87_synced {M} mul (eye : M) sz h p ps visuals us m w r t v : p < viewports h -> In v visuals -> v < length (kinds h) -> transform mul (m, w, r) = Some t ->
  exists s, launch mul eye (run mul eye (start sz) h) (p :: ps) visuals (us ++ [(m, w, r)]) = Ok s /\ s_shown s v p = Some (t, last_size h sz).
Proof. exact (synced mul eye sz h p ps visuals us m w r t v). Qed.
Print Assumptions C87_synced.
(** The other viewports given do not follow the camera. *)
Theorem C87_others_refuted {M} mul (eye : M) sz h p ps visuals us s v q : launch mul eye (run mul eye (start sz) h) (p :: ps) visuals us = Ok s -> q <> p ->
  s_shown s v q = s_shown (run mul eye (start sz) h) v q /\ times s v q = times (run mul eye (start sz) h) v q.
Proof. exact (others_kept mul eye sz h p ps visuals us s v q). Qed.
Print Assumptions C87_others_refuted.
(** A visual that was not in the first viewport is drawn there from then on. *)
Theorem C87_own_viewport_refuted {M} mul (eye : M) sz h p ps visuals u us v : p < viewports h -> In v visuals -> v < length (kinds h) -> ~ performed h v p ->
  exists s, launch mul eye (run mul eye (start sz) h) (p :: ps) visuals (u :: us) = Ok s /\ times (run mul eye (start sz) h) v p = 0 /\ times s v p <> 0.
Proof. exact (moved mul eye sz h p ps visuals u us v). Qed.
Print Assumptions C87_own_viewport_refuted.
(** It is an error to give no viewport, and nothing else is. *)
Theorem C87_viewport_needed {M} mul (eye : M) s viewports visuals us : launch mul eye s viewports visuals us = Err AttributeError <-> viewports = [].
Proof. exact (needs_viewport mul eye s viewports visuals us). Qed.
Print Assumptions C87_viewport_needed.
(** What each word of the command line does; no other word is accepted. *)
Theorem C87_words a p e : choose a = Some (p, e) <->
  In (a, p, e) [(None, Gsp_matplotlib, RunCamera); (Some "commands"%string, Gsp, SaveCommands);
                (Some "matplotlib_image"%string, Gsp_matplotlib, SaveImage); (Some "matplotlib_camera"%string, Gsp_matplotlib, RunCamera)].
Proof. exact (words a p e). Qed.
Print Assumptions C87_words.

(** Two viewports with a visual each: both visuals end up in the first. *)
Example C87_case : let h := [ENewViewport; ENewViewport; ENewVisual Plain; ENewVisual Plain; ERender 0 0 None None None; ERender 1 1 (Some 5%Z) None None] in
  let mul a b := Some (a * b)%Z in
  exists s, launch mul 1%Z (run mul 1%Z (start (4, 3)%Z) h) [0; 1] [0; 1] [(2, 1, 1); (3, 1, 7)]%Z = Ok s /\
    s_shown s 0 0 = Some (21, (4, 3))%Z /\ s_shown s 1 0 = Some (21, (4, 3))%Z /\ s_shown s 1 1 = Some (5, (4, 3))%Z /\ times s 1 0 = 1.
Proof. eexists. split; [reflexivity|]. repeat split. Qed.
