(** C102: saving and loading by file name, stopped anywhere. *)
From Verif Require Import Base Registry Convert Command CommandSpec Queue QueueSpec Base64 Execute Json
  Session SessionSpec SessionFacts JsonText JsonTextSpec JsonFile JsonFileSpec JsonFileFacts AnyFile AnyFileSpec SessionFile SessionFileSpec SessionFileFacts.
Open Scope string_scope.

(** A program saves its session under a name; the program is stopped somewhere while it
    writes, or not at all; another process loads the file by that name and runs it.  If
    the whole file is there, the backend does what the program did, as in C88; if not,
    loading raises ValueError and the backend does nothing. *)
Theorem C102_redone_partial ftok fval stamp code : float_texts ftok fval stamp ->
  forall E d txt pure c l sS rsS B ap apS calls fuel can_open fs format name,
  starting c -> fine_session txt pure E d c l -> l <> [] -> ready sS -> recording rsS = true ->
  offers B c l E d -> in_step B c (acts E d c l) rsS l ->
  (forall f v, apS f v = ([], pure f v)) -> (length l <= fuel)%nat -> can_open name = true -> json_file format name ->
  let c' := acts E d c l in
  exists x, gsp_save ftok stamp txt apS (oid_in (cl_reg c')) fuel can_open fs (cl_sys c') format name = (dset fs name x, cl_sys c', Ok tt) /\
  forall p, beginning p x -> forall s' rs' cls outs o, play_file fval code B ap calls rsS sS (dset fs name p) format name = (s', (rs', cls, outs), o) ->
    (p = x ->
      (o = Ok tt ->
        Forall2 (done txt pure (oid_in (cl_reg c')) E d (cl_made c') (built outs)) l outs /\
        NoDup (built outs) /\ length (built outs) = length (cl_made c') /\
        forall r path R, stands_for (cl_made c') (built outs) r path R ->
          lookup rs' (oid_in (cl_reg c') r) = Some R /\ id_of rs' R = Some (oid_in (cl_reg c') r)) /\
      (forall e, o = Err e -> exists l1 a l2, l = (l1 ++ a :: l2)%list /\
        Forall2 (done txt pure (oid_in (cl_reg c')) E d (cl_made (acts E d c l1)) (built outs)) l1 outs /\
        NoDup (built outs) /\ length (built outs) = length (cl_made (acts E d c l1)) /\
        (forall r path R, stands_for (cl_made (acts E d c l1)) (built outs) r path R ->
          lookup rs' (oid_in (cl_reg (acts E d c l1)) r) = Some R /\ id_of rs' R = Some (oid_in (cl_reg (acts E d c l1)) r)) /\
        SessionSpec.refused txt pure (oid_in (cl_reg c')) E d (cl_made (acts E d c l1)) (built outs) B a e)) /\
    (p <> x -> o = Err ValueError /\ outs = [] /\ exists s1 q1, chosen sS None s1 q1 /\ commands s' q1 = [] /\ only_queue q1 s1 s').
Proof. exact (fun H E d txt pure c l => sessions_redone ftok fval stamp code H E d txt pure c l). Qed.
Print Assumptions C102_redone_partial.

(** The format is the one given, or what follows the last dot of the last component. *)
Theorem C102_format p f : f <> "" -> (suffix p = f <-> exists c, names_file p c /\ with_suffix c f).
Proof. exact (suffix_iff p f). Qed.
Print Assumptions C102_format.

(** Under other names nothing is saved and nothing changes ... *)
Theorem C102_unknown_format ftok stamp txt ap oidf fuel can_open fs s format name : ~ json_file format name ->
  gsp_save ftok stamp txt ap oidf fuel can_open fs s format name = (fs, s, Err ValueError).
Proof. exact (not_saved ftok stamp txt ap oidf fuel can_open fs s format name). Qed.
Print Assumptions C102_unknown_format.
(** ... and session files are written as C96 says. *)
Theorem C102_saved ftok stamp txt ap oidf fuel can_open fs s format name : json_file format name ->
  gsp_save ftok stamp txt ap oidf fuel can_open fs s format name = save_file ftok stamp txt ap oidf fuel can_open fs s None name.
Proof. exact (saved_as ftok stamp txt ap oidf fuel can_open fs s format name). Qed.
Print Assumptions C102_saved.

(** A file that is not there, or of another format, is not run; but the objects are no
    longer registered and the active queue is empty. *)
Theorem C102_not_loaded fval code B ap calls rs h fs format name s' rs' cls outs o :
  ~ json_file format name \/ dget fs name = None -> play_file fval code B ap calls rs (history h) fs format name = (s', (rs', cls, outs), o) ->
  (exists e, o = Err e /\ (e = ValueError \/ e = os_error)) /\ outs = [] /\ objects rs' = [] /\ counter rs' = counter rs /\ heap rs' = heap rs /\
  exists s1 q1, chosen (history h) None s1 q1 /\ commands s' q1 = [] /\ only_queue q1 s1 s'.
Proof. exact (not_played fval code B ap calls rs h fs format name s' rs' cls outs o). Qed.
Print Assumptions C102_not_loaded.

(** Every name ending in .json will do: false, a name that is only that has no format. *)
Theorem C102_ending_refuted : ~ forall name stem, name = stem ++ ".json" -> json_file None name.
Proof. exact ends_in_json. Qed.
Print Assumptions C102_ending_refuted.

Example C102_names : map suffix ["a.json"; "out/a.json"; "a.json/"; "a.json/."; "a.tar.json"; ".json"; "out/.json"; "a.json."; "a.JSON"; "a"; ".."; "a.b/c"; ""] =
  ["json"; "json"; "json"; "json"; "json"; ""; ""; ""; "JSON"; ""; ""; ""; ""].
Proof. vm_compute. reflexivity. Qed.
(** The session of C88, saved as s.json and loaded in a new process; cut after 40
    characters. *)
Example C102_case :
  let c' := acts two_classes str_to_color new_process a_session in
  float_texts whole_tok whole_val noon /\ json_file None "s.json" /\
  starting new_process /\ fine_session no_text as_text two_classes str_to_color new_process a_session /\ ready sinit /\
  offers willing new_process a_session two_classes str_to_color /\ in_step willing new_process c' rinit a_session /\
  match gsp_save whole_tok noon no_text saving (oid_in (cl_reg c')) 3 yes [] (cl_sys c') None "s.json" with
  | ([("s.json", x)], _, Ok tt) =>
      (match play_file whole_val (fun _ => 0%Z) willing as_text (fun _ => []) rinit sinit [("s.json", x)] None "s.json" with
       | (_, (_, _, outs), o) => o = Ok tt /\ length outs = 3%nat /\ built outs = [0; 1]%nat
       end) /\
      (match play_file whole_val (fun _ => 0%Z) willing as_text (fun _ => []) rinit sinit [("s.json", firstn 40 x)] None "s.json" with
       | (_, (_, _, outs), o) => o = Err ValueError /\ outs = []
       end)
  | _ => False
  end.
Proof.
  cbv zeta. split; [exact whole_texts|]. split; [apply json_iff; reflexivity|].
  destruct in_step_case as (A & B & C & D & F & _). repeat (split; [assumption|]). vm_compute. auto.
Qed.
