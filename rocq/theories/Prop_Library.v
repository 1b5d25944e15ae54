(** C91: whole sessions with the classes of the library and the matplotlib backend. *)
From Verif Require Import Base Registry RegistrySpec Convert Command CommandSpec Queue QueueSpec Base64 Execute Json JsonSpec
  Session SessionSpec Protocol ProtocolSpec LibrarySpec LibraryFacts.
Open Scope string_scope.
Open Scope nat_scope.

(** C91.  A program that uses the classes of gsp.core and gsp.visual (all but Data)
    is saved, loaded and run by the matplotlib backend.  Nothing is assumed about
    which classes the backend has nor about their parameters: the file is written,
    and either everything is done (as in C88) or the first step not done is one
    where the body of a constructor or a method of the backend raised, having
    received every argument under its name.  [body] and [call] are any behaviour of
    these bodies. *)
Theorem C91_library_partial body meth call E d txt pure c l sS rsS ap apS calls fuel s' rs' cls outs o :
  starting c -> fine_session txt pure E d c l -> l <> [] -> Forall library_step l ->
  ready sS -> recording rsS = true ->
  (forall r cl m sg args kw path, In (Call r cl m sg args kw) l -> In (r, path) (cl_made (acts E d c l)) -> meth path m = true) ->
  body_in_step body c (acts E d c l) rsS l ->
  (forall f v, apS f v = ([], pure f v)) -> length l <= fuel ->
  let c' := acts E d c l in
  let B := backend_of matplotlib body meth call in
  exists file, save_queue txt apS (oid_in (cl_reg c')) fuel (cl_sys c') None = (cl_sys c', Ok file) /\
    (playback B ap calls rsS sS file = (s', (rs', cls, outs), o) ->
     (o = Ok tt ->
        Forall2 (done txt pure (oid_in (cl_reg c')) E d (cl_made c') (built outs)) l outs /\
        NoDup (built outs) /\ length (built outs) = length (cl_made c') /\
        forall r path R, stands_for (cl_made c') (built outs) r path R ->
          lookup rs' (oid_in (cl_reg c') r) = Some R /\ id_of rs' R = Some (oid_in (cl_reg c') r)) /\
     (forall e, o = Err e -> exists l1 a l2, l = (l1 ++ a :: l2)%list /\
        Forall2 (done txt pure (oid_in (cl_reg c')) E d (cl_made (acts E d c l1)) (built outs)) l1 outs /\
        NoDup (built outs) /\ length (built outs) = length (cl_made (acts E d c l1)) /\
        (forall r path R, stands_for (cl_made (acts E d c l1)) (built outs) r path R ->
          lookup rs' (oid_in (cl_reg (acts E d c l1)) r) = Some R /\ id_of rs' R = Some (oid_in (cl_reg (acts E d c l1)) r)) /\
        body_refused txt pure (oid_in (cl_reg c')) E d (cl_made (acts E d c l1)) (built outs) body call a e)).
Proof. exact (library_session_thm body meth call E d txt pure c l sS rsS ap apS calls fuel s' rs' cls outs o). Qed.
Print Assumptions C91_library_partial.

(** With a unit of length it fails: a program may create a Pixel, its commands are
    saved, and the backend, though nothing in it raises, stops there: it has no
    transforms.  The viewport is never made. *)
Theorem C91_unit_refuted :
  let c := new_process in let l := pixel_session in
  let B := backend_of matplotlib quiet_body (fun _ _ => true) quiet_call in
  starting c /\ fine_session no_text as_text two_classes str_to_color c l /\
  (exists k, In k protocol /\ k_path k = "transform.Pixel" /\ p_names (k_sig k) = []) /\
  exists file s' w, save_queue no_text saving (oid_in (cl_reg (acts two_classes str_to_color c l))) 3 (cl_sys (acts two_classes str_to_color c l)) None
    = (cl_sys (acts two_classes str_to_color c l), Ok file) /\
  playback B as_text (fun _ => []) rinit sinit file = (s', w, Err AttributeError) /\
  snd w = [Built 0 "core.Canvas" [("width", VInt 512); ("height", VInt 256); ("dpi", VFloat 100)]].
Proof. exact pixel_lost. Qed.
Print Assumptions C91_unit_refuted.

(** A canvas, a viewport on it and a rendering meet the hypotheses. *)
Example C91_case :
  let c := new_process in let l := library_session in
  let B := backend_of matplotlib quiet_body (fun _ _ => true) quiet_call in
  starting c /\ fine_session no_text as_text two_classes str_to_color c l /\ Forall library_step l /\ ready sinit /\
  body_in_step quiet_body c (acts two_classes str_to_color c l) rinit l /\
  exists file s' w, save_queue no_text saving (oid_in (cl_reg (acts two_classes str_to_color c l))) 3 (cl_sys (acts two_classes str_to_color c l)) None
    = (cl_sys (acts two_classes str_to_color c l), Ok file) /\
  playback B as_text (fun _ => []) rinit sinit file = (s', w, Ok tt) /\
  snd w = [Built 0 "core.Canvas" [("width", VInt 512); ("height", VInt 256); ("dpi", VFloat 100)];
           Built 1 "core.Viewport" [("canvas", VObj "core.Canvas" 0); ("x", VInt 0); ("y", VInt 0); ("width", VInt 512); ("height", VInt 256);
                                    ("color", VSeq [VStr "red"; VFloat 3])];
           Called 0 "render" [("target", VStr "out.png")] VNone].
Proof. exact library_case. Qed.
