(** C115: a session saved to a file shows the same canvases and viewports elsewhere. *)
From Verif Require Import Base Registry Convert Command CommandSpec Queue QueueSpec Base64 Execute Json Session SessionSpec
  JsonText JsonTextSpec JsonFile JsonFileSpec JsonFileFacts AnyFile AnyFileSpec SessionFile SessionFileSpec SessionFileFacts
  Measure Viewport ViewportSpec Panes PanesSpec Remote RemoteSpec RemoteFacts.
Open Scope string_scope.

(** C115.  A program is saved to a session file; the file is loaded and run by a
    backend.  The canvases of the backend, with their viewports, are those the program
    would have on its own screen: as many, in the same order, of the same size, with
    the same viewports at the same places in the same colours (and the same error, if
    there is one).  If a class of the backend raises, they are those of the steps
    before. *)
Theorem C115_elsewhere_partial {C} num (hue : value -> C) E d ftok fval stamp code : float_texts ftok fval stamp ->
  forall txt pure c l sS rsS B ap apS calls fuel can_open fs format name,
  starting c -> fine_session txt pure E d c l -> l <> [] -> SessionSpec.ready sS -> recording rsS = true ->
  offers B c l E d -> in_step B c (Session.acts E d c l) rsS l ->
  (forall f v, apS f v = ([], pure f v)) -> (length l <= fuel)%nat -> can_open name = true -> json_file format name ->
  Forall (plain_lengths E d) l -> Forall (plain_colors txt pure hue) l -> Forall real_canvas l ->
  let c' := Session.acts E d c l in
  exists x, gsp_save ftok stamp txt apS (oid_in (cl_reg c')) fuel can_open fs (cl_sys c') format name = (dset fs name x, cl_sys c', Ok tt) /\
  forall s' rs' cls outs o, play_file fval code B ap calls rsS sS (dset fs name x) format name = (s', (rs', cls, outs), o) ->
    (o = Ok tt -> seen_in (repainted num hue [] outs) = seen_in (painted num hue [] (map fst (cl_made c')) l)) /\
    (forall e, o = Err e -> exists l1 a l2, l = (l1 ++ a :: l2)%list /\
       seen_in (repainted num hue [] outs) = seen_in (painted num hue [] (map fst (cl_made (Session.acts E d c l1))) l1)).
Proof. exact (fun FT => shown_elsewhere num hue E d ftok fval stamp code FT). Qed.
Print Assumptions C115_elsewhere_partial.

(** What a program shows is what it asks for: one canvas for each it makes, of the
    size it gives, with the viewports it makes on that canvas and no other. *)
Theorem C115_asked {C} num (hue : value -> C) l refs t : painted num hue [] refs l = Ok t -> NoDup refs ->
  length t = length (canvases refs l) /\
  forall n r b, nth_error (canvases refs l) n = Some (r, b) -> exists dk, nth_error t n = Some (r, dk) /\ as_asked num hue l r b dk.
Proof. exact (painted_asked num hue l refs t). Qed.
Print Assumptions C115_asked.

(** So at each point of each canvas of the backend is the colour of the last viewport
    the program asked to cover it there. *)
Theorem C115_points {C} num (hue : value -> C) l refs t outs :
  seen_in (repainted num hue [] outs) = seen_in (painted num hue [] refs l) -> painted num hue [] refs l = Ok t -> NoDup refs ->
  exists t', repainted num hue [] outs = Ok t' /\ length t' = length (canvases refs l) /\
    forall n r b, nth_error (canvases refs l) n = Some (r, b) -> exists R dk, nth_error t' n = Some (R, dk) /\ as_asked num hue l r b dk /\
      (Forall not_zero (made (viewports_on num hue r l)) -> fst (size (d_fig dk)) <> 0%Qc -> snd (size (d_fig dk)) <> 0%Qc ->
       forall px py color, color_at dk px py = Some color <->
         exists i m, on_top (d_fig dk) (made (viewports_on num hue r l)) px py i /\ nth_error (made (viewports_on num hue r l)) i = Some m /\ color_of m = color).
Proof. exact (fun S => points_elsewhere num hue l refs t (repainted num hue [] outs) S). Qed.
Print Assumptions C115_points.
(** The objects of a program are all different. *)
Theorem C115_objects E d c l : starting c -> NoDup (map fst (cl_made (Session.acts E d c l))).
Proof. exact (refs_nodup E d c l). Qed.
Print Assumptions C115_objects.

(** Two canvases with three viewports, saved as s.json and loaded in a new process. *)
Example C115_case :
  let c' := Session.acts two_classes str_to_color new_process two_canvases in
  float_texts whole_tok whole_val noon /\ json_file None "s.json" /\
  starting new_process /\ fine_session no_text as_text two_classes str_to_color new_process two_canvases /\ SessionSpec.ready sinit /\
  offers willing new_process two_canvases two_classes str_to_color /\ in_step willing new_process c' rinit two_canvases /\
  Forall (plain_lengths two_classes str_to_color) two_canvases /\ Forall (plain_colors no_text as_text named) two_canvases /\ Forall real_canvas two_canvases /\
  match gsp_save whole_tok noon no_text saving (oid_in (cl_reg c')) 6 yes [] (cl_sys c') None "s.json" with
  | ([("s.json", x)], _, Ok tt) =>
      match play_file whole_val (fun _ => 0%Z) willing as_text (fun _ => []) rinit sinit [("s.json", x)] None "s.json" with
      | (_, (_, _, outs), o) => o = Ok tt /\
          match repainted zq named [] outs with
          | Ok [(_, d1); (_, d2)] => color_at d1 (zq 50) (zq 10) = Some "red" /\ color_at d1 (zq 150) (zq 10) = Some "green" /\
              color_at d2 (zq 50) (zq 10) = Some "blue" /\ color_at d2 (zq 150) (zq 10) = None
          | _ => False
          end
      end
  | _ => False
  end.
Proof.
  cbv zeta. split; [exact whole_texts|]. split; [apply json_iff; reflexivity|].
  destruct elsewhere_case as (A1 & A2 & A3 & A4 & A5 & A6 & A7 & A8).
  do 8 (split; [assumption|]). vm_compute. auto.
Qed.
