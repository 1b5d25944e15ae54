(** C88: whole sessions. *)
From Verif Require Import Base Registry RegistrySpec Convert Command CommandSpec Queue QueueSpec Base64 Execute Json JsonSpec
  Session SessionSpec SessionFacts.
Open Scope string_scope.
Open Scope nat_scope.

(** C88.  A program makes objects and calls methods on them; its commands are saved;
    the file is loaded and run by a backend.  The file is written, saving leaves
    the program's queues as they were, and the backend does what the program did,
    step by step: the same classes and methods, the arguments under the same
    names, objects as the objects standing for them.  Each object is registered
    under the identifier it had in the program.  The only errors are those the
    backend's own classes raise; before, everything was done. *)
Theorem C88_session_partial E d txt pure c l sS rsS B ap apS calls fuel s' rs' cls outs o :
  starting c -> fine_session txt pure E d c l -> l <> [] ->
  ready sS -> recording rsS = true ->
  offers B c l E d -> in_step B c (acts E d c l) rsS l ->
  (forall f v, apS f v = ([], pure f v)) -> length l <= fuel ->
  let c' := acts E d c l in
  exists file, save_queue txt apS (oid_in (cl_reg c')) fuel (cl_sys c') None = (cl_sys c', Ok file) /\
    (playback B ap calls rsS sS file = (s', (rs', cls, outs), o) ->
     (o = Ok tt ->
        Forall2 (done txt pure (oid_in (cl_reg c')) E d (cl_made c') (built outs)) l outs /\
        NoDup (built outs) /\ length (built outs) = length (cl_made c') /\
        forall r path R, stands_for (cl_made c') (built outs) r path R ->
          lookup rs' (oid_in (cl_reg c') r) = Some R /\ id_of rs' R = Some (oid_in (cl_reg c') r)) /\
     (forall e, o = Err e -> exists l1 a l2, l = (l1 ++ a :: l2)%list /\
        Forall2 (done txt pure (oid_in (cl_reg c')) E d (cl_made (acts E d c l1)) (built outs)) l1 outs /\
        NoDup (built outs) /\ length (built outs) = length (cl_made (acts E d c l1)) /\
        (forall r path R, stands_for (cl_made (acts E d c l1)) (built outs) r path R ->
          lookup rs' (oid_in (cl_reg (acts E d c l1)) r) = Some R /\ id_of rs' R = Some (oid_in (cl_reg (acts E d c l1)) r)) /\
        refused txt pure (oid_in (cl_reg c')) E d (cl_made (acts E d c l1)) (built outs) B a e)).
Proof. exact (session E d txt pure c l sS rsS B ap apS calls fuel s' rs' cls outs o). Qed.
Print Assumptions C88_session_partial.

(** Out of step it fails: a program that made an object while recording was off,
    played back in a new process by a backend in which nothing raises, ends with
    an error: the canvas was replaced by the viewport. *)
Theorem C88_out_of_step_refuted : exists c l file s' w,
  starting c /\ fine_session no_text as_text two_classes str_to_color c l /\ ready sinit /\ recording rinit = true /\
  offers willing c l two_classes str_to_color /\
  save_queue no_text saving (oid_in (cl_reg (acts two_classes str_to_color c l))) 3 (cl_sys (acts two_classes str_to_color c l)) None
    = (cl_sys (acts two_classes str_to_color c l), Ok file) /\
  playback willing as_text (fun _ => []) rinit sinit file = (s', w, Err KeyError).
Proof. exact out_of_step. Qed.
Print Assumptions C88_out_of_step_refuted.

(** A file with a command that has no identifier is refused, and the backend has
    done nothing. *)
Theorem C88_unreadable B ap calls rs s file e : In e file -> ~ has_id e ->
  exists s' rs' cls, playback B ap calls rs s file = (s', (rs', cls, []), Err ValueError).
Proof. exact (playback_no_id B ap calls rs s file e). Qed.
Print Assumptions C88_unreadable.
Example C88_unreadable_case : ~ has_id (mkEntry "core.Canvas" 1 [("width", JInt 4)]).
Proof. discriminate. Qed.

(** The same program in a new process meets the hypotheses, and is redone. *)
Example C88_case :
  let c := new_process in let l := a_session in
  starting c /\ fine_session no_text as_text two_classes str_to_color c l /\ ready sinit /\
  offers willing c l two_classes str_to_color /\ in_step willing c (acts two_classes str_to_color c l) rinit l /\
  exists file s' w, save_queue no_text saving (oid_in (cl_reg (acts two_classes str_to_color c l))) 3 (cl_sys (acts two_classes str_to_color c l)) None
    = (cl_sys (acts two_classes str_to_color c l), Ok file) /\
  playback willing as_text (fun _ => []) rinit sinit file = (s', w, Ok tt) /\
  snd w = [Built 0 "core.Canvas" [("width", VInt 512); ("height", VInt 256); ("dpi", VFloat 100)];
           Built 1 "core.Viewport" [("canvas", VObj "core.Canvas" 0); ("x", VInt 0); ("color", VSeq [VStr "red"; VFloat 3])];
           Called 0 "render" [("target", VStr "out.png")] VNone].
Proof. exact in_step_case. Qed.
(** So is a program with an array, converted when the session is saved to the buffer
    made before: the backend is given the buffer standing for it. *)
Example C88_array_case :
  let c := new_process in let l := array_session in
  starting c /\ fine_session no_text its_buffer two_classes array_to_buffer c l /\ ready sinit /\
  offers willing c l two_classes array_to_buffer /\ in_step willing c (acts two_classes array_to_buffer c l) rinit l /\
  exists file s' w, save_queue no_text finding (oid_in (cl_reg (acts two_classes array_to_buffer c l))) 2 (cl_sys (acts two_classes array_to_buffer c l)) None
    = (cl_sys (acts two_classes array_to_buffer c l), Ok file) /\
  playback willing its_buffer (fun _ => []) rinit sinit file = (s', w, Ok tt) /\
  snd w = [Built 0 "core.Buffer" [("count", VInt 2); ("dtype", VStr "float32"); ("data", VStr "AAECAwQFBgc=")];
           Built 1 "visual.Points" [("positions", VObj "core.Buffer" 0); ("sizes", VFloat 25)]].
Proof. exact array_case. Qed.
