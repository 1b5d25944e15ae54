(** C77-C80: visuals in viewports, resizing, recording. *)
From Verif Require Import Base Scene SceneSpec SceneFacts.

(** ** C77: once per viewport *)
(** Segments, paths and polygons are drawn once in each viewport they have been
    rendered in, however often; points, markers and pixels twice. *)
Theorem C77_times_partial {M} mul (eye : M) sz h v p k : nth_error (kinds h) v = Some k -> performed h v p ->
  times (run mul eye (start sz) h) v p = match k with Scatter => 2 | Plain => 1 end.
Proof. exact (times_drawn mul eye sz h v p k). Qed.
Print Assumptions C77_times_partial.
Theorem C77_not_rendered {M} mul (eye : M) sz h v p : ~ performed h v p ->
  times (run mul eye (start sz) h) v p = 0 /\ s_shown (run mul eye (start sz) h) v p = None.
Proof. exact (not_drawn mul eye sz h v p). Qed.
Print Assumptions C77_not_rendered.
Theorem C77_once_refuted {M} mul (eye : M) sz h v p : nth_error (kinds h) v = Some Scatter -> performed h v p ->
  times (run mul eye (start sz) h) v p <> 1.
Proof. exact (fun K P E => O_S _ (eq_add_S _ _ (eq_trans (eq_sym E) (times_drawn mul eye sz h v p Scatter K P)))). Qed.
Print Assumptions C77_once_refuted.

(** ** C78: each viewport its own picture *)
(** A render shows projection * view * model, each the one given last to this
    visual, for the present size of the figure... *)
Theorem C78_render {M} mul (eye : M) sz h v p a b c t : v < length (kinds h) -> p < viewports h ->
  transform mul (last_given 0 0 (h ++ [ERender v p a b c]) v (eye, eye, eye)) = Some t ->
  s_shown (run mul eye (start sz) (h ++ [ERender v p a b c])) v p = Some (t, last_size h sz).
Proof. exact (render_shows mul eye sz h v p a b c t). Qed.
Print Assumptions C78_render.
(** ... and changes nothing else. *)
Theorem C78_others_kept {M} mul (eye : M) sz h v p a b c v' p' : (v', p') <> (v, p) ->
  let s := run mul eye (start sz) h in let s' := run mul eye (start sz) (h ++ [ERender v p a b c]) in
  s_shown s' v' p' = s_shown s v' p' /\ times s' v' p' = times s v' p' /\ s_views s' = s_views s /\ s_drawn s' = s_drawn s /\
  (v' <> v -> nth_error (s_visuals s') v' = nth_error (s_visuals s) v').
Proof. exact (render_others mul eye sz h v p a b c v' p'). Qed.
Print Assumptions C78_others_kept.
(** After a resize every viewport shows the matrices given last, whichever viewport
    they were given for. *)
Theorem C78_resize_partial {M} mul (eye : M) sz h v p z : performed h v p ->
  s_shown (run mul eye (start sz) (h ++ [EResize z])) v p =
  match transform mul (last_given 0 0 h v (eye, eye, eye)) with
  | Some t => Some (t, z)
  | None => s_shown (run mul eye (start sz) h) v p
  end.
Proof. exact (resize_shows mul eye sz h v p z). Qed.
Print Assumptions C78_resize_partial.
Theorem C78_one_viewport_partial {M} mul (eye : M) sz h v p z t : (forall q, performed h v q -> q = p) -> performed h v p ->
  transform mul (last_given 0 0 h v (eye, eye, eye)) = Some t ->
  shown_transform (run mul eye (start sz) (h ++ [EResize z])) v p = shown_transform (run mul eye (start sz) h) v p.
Proof. exact (alone_kept mul eye sz h v p z t). Qed.
Print Assumptions C78_one_viewport_partial.
Theorem C78_resize_refuted {M} mul (eye : M) sz h v p q m w r m' w' r' t t' z : v < length (kinds h) -> p < viewports h -> q < viewports h -> p <> q ->
  transform mul (m, w, r) = Some t -> transform mul (m', w', r') = Some t' ->
  let s := run mul eye (start sz) (h ++ [ERender v p (Some m) (Some w) (Some r); ERender v q (Some m') (Some w') (Some r')]) in
  let s' := run mul eye (start sz) (h ++ [ERender v p (Some m) (Some w) (Some r); ERender v q (Some m') (Some w') (Some r'); EResize z]) in
  shown_transform s v p = Some t /\ shown_transform s' v p = Some t'.
Proof. exact (resize_mixes mul eye sz h v p q m w r m' w' r' t t' z). Qed.
Print Assumptions C78_resize_refuted.

(** ** C79: a resize lays out, then renders, then draws *)
Theorem C79_laid_out {M} mul (eye : M) sz h p z : p < viewports h -> nth_error (s_views (run mul eye (start sz) (h ++ [EResize z]))) p = Some z.
Proof. exact (resize_lays_out mul eye sz h p z). Qed.
Print Assumptions C79_laid_out.
(** What the resize event draws is the layout and the contents from before it. *)
Theorem C79_drawn_refuted {M} mul (eye : M) sz h z p : p < viewports h ->
  exists sizes c, s_drawn (run mul eye (start sz) (h ++ [EResize z])) = Some (sizes, c) /\
    nth_error sizes p = Some (last_size h sz) /\ c = s_shown (run mul eye (start sz) h).
Proof. exact (drawn_old mul eye sz h z p). Qed.
Print Assumptions C79_drawn_refuted.

(** ** C80: recording what is rendered *)
(** Replaying the commands recorded during any history, on a canvas of any size,
    gives the same visuals in the same viewports with the same transforms. *)
Theorem C80_replay {M} mul (eye : M) sz sz' h : 
  let s := run mul eye (start sz) h in let s' := replay mul eye sz' (s_log s) in
  s_visuals s' = s_visuals s /\ s_axes s' = s_axes s /\ s_callbacks s' = s_callbacks s /\
  forall v p, shown_transform s' v p = shown_transform s v p.
Proof. exact (replay_alike mul eye sz sz' h). Qed.
Print Assumptions C80_replay.
(** A resize records one render for every visual and viewport. *)
Theorem C80_resize_records_refuted {M} mul (eye : M) sz h z : exists l, s_log (run mul eye (start sz) (h ++ [EResize z])) = s_log (run mul eye (start sz) h) ++ l /\ NoDup l /\
  forall e, In e l <-> exists v p, performed h v p /\ e = LRender v p None None None.
Proof. exact (resize_records mul eye sz h z). Qed.
Print Assumptions C80_resize_records_refuted.

(** A history with two viewports, two visuals, resizing and repeated rendering;
    matrices are numbers, and 0 times anything fails. *)
Definition times_or_fail (a b : Z) : option Z := if (a =? 0)%Z || (b =? 0)%Z then None else Some (a * b)%Z.
Definition story : list (event Z) :=
  [ENewViewport; ENewViewport; ENewVisual Scatter; ENewVisual Plain;
   ERender 0 0 None None (Some 2%Z); ERender 0 1 (Some 5%Z) None (Some 3%Z); EResize (8, 6)%Z;
   ERender 1 0 (Some 7%Z) None None; ERender 1 0 None (Some 11%Z) None; ESave].
Example C77_case : nth_error (kinds story) 0 = Some Scatter /\ performed story 0 0 /\ ~ performed story 1 1 /\
  let s := run times_or_fail 1%Z (start (4, 3)%Z) story in times s 0 0 = 2 /\ times s 1 0 = 1 /\ times s 1 1 = 0.
Proof.
  repeat split.
  - exists [ENewViewport; ENewViewport; ENewVisual Scatter; ENewVisual Plain]. do 4 eexists. split; [reflexivity|]. cbn. lia.
  - intros (h1 & h2 & a & b & c & E & _). repeat (destruct h1 as [|? h1]; cbn in E; [discriminate E|discriminate E || injection E as _ E]).
Qed.
Example C78_case : let s := run times_or_fail 1%Z (start (4, 3)%Z) story in
  s_shown s 0 0 = Some (15, (8, 6))%Z /\ s_shown s 0 1 = Some (15, (8, 6))%Z /\ s_shown s 1 0 = Some (77, (8, 6))%Z /\
  shown_transform (run times_or_fail 1%Z (start (4, 3)%Z) (firstn 6 story)) 0 0 = Some 2%Z /\
  (forall q, performed story 1 q -> q = 0) /\ performed story 1 0 /\ transform times_or_fail (last_given 0 0 story 1 (1, 1, 1)%Z) = Some 77%Z.
Proof.
  repeat split.
  - intros q (h1 & h2 & a & b & c & E & _). repeat (destruct h1 as [|? h1]; cbn in E; [discriminate E || now injection E|discriminate E || injection E as _ E]).
  - exists (firstn 7 story). do 4 eexists. split; [reflexivity|]. cbn. lia.
Qed.
Example C80_case : let s := run times_or_fail 1%Z (start (4, 3)%Z) story in length (s_log s) = 10 /\ 
  s_log s = [LViewport; LViewport; LVisual Scatter; LVisual Plain; LRender 0 0 None None (Some 2%Z); LRender 0 1 (Some 5%Z) None (Some 3%Z);
             LRender 0 0 None None None; LRender 0 1 None None None; LRender 1 0 (Some 7%Z) None None; LRender 1 0 None (Some 11%Z) None].
Proof. split; reflexivity. Qed.
