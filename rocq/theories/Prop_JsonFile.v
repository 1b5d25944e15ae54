(** C96: session files on disk. *)
From Verif Require Import Base Registry Convert Command Queue Execute Json JsonText JsonTextSpec JsonFile JsonFileSpec JsonFileFacts JsonGrammarSpec JsonFileFacts2.
Open Scope string_scope.

(** A session that was saved is read back as the commands that were collected
    ([save_queue]); no other file changes; and had the program died while writing,
    what there was of the file would be refused. *)
Theorem C96_saved : forall ftok fval stamp, float_texts ftok fval stamp ->
  forall txt ap oidf fuel can_open fs s q name fs' s' s2 es,
  can_open name = true ->
  save_file ftok stamp txt ap oidf fuel can_open fs s q name = (fs', s', Ok tt) ->
  save_queue txt ap oidf fuel s q = (s2, Ok es) ->
  s' = s2 /\ read_file fval fs' name = Ok es /\ (forall other, other <> name -> dget fs' other = dget fs other) /\
  exists x, dget fs' name = Some x /\ forall p, cut_short p x -> read_text fval p = Err ValueError.
Proof. exact save_reads_back. Qed.
Print Assumptions C96_saved.

Theorem C96_succeeds : forall ftok fval stamp, float_texts ftok fval stamp ->
  forall txt ap oidf fuel can_open fs s q name,
  is_ok (snd (save_file ftok stamp txt ap oidf fuel can_open fs s q name)) = true <->
  can_open name = true /\ is_ok (snd (save_queue txt ap oidf fuel s q)) = true.
Proof. exact save_succeeds. Qed.
Print Assumptions C96_succeeds.

(** The file is a JSON document with the version and, in order, the commands that were
    collected ([session_layout]); so is the text [dump] returns without a file. *)
Theorem C96_layout : forall ftok fval stamp, float_texts ftok fval stamp ->
  forall txt ap oidf fuel can_open fs s q name fs' s' s2 es,
  save_file ftok stamp txt ap oidf fuel can_open fs s q name = (fs', s', Ok tt) ->
  save_queue txt ap oidf fuel s q = (s2, Ok es) ->
  exists x v, dget fs' name = Some x /\ document v x /\ session_layout ftok stamp es v.
Proof. exact save_layout. Qed.
Print Assumptions C96_layout.
Theorem C96_dump_layout : forall ftok fval stamp, float_texts ftok fval stamp ->
  forall txt ap oidf fuel s q s1 x s2 es, commands s q <> [] ->
  dump_text ftok stamp txt ap oidf fuel s (Some q) = (s1, Ok x) ->
  save_queue txt ap oidf fuel s (Some q) = (s2, Ok es) ->
  exists v, document v x /\ session_layout ftok stamp es v.
Proof. exact dump_layout. Qed.
Print Assumptions C96_dump_layout.

(** A file that is not there is not read. *)
Theorem C96_missing : forall fval fs name, dget fs name = None -> read_file fval fs name = Err os_error.
Proof. exact missing_file. Qed.
Print Assumptions C96_missing.

(** A save that fails does not leave the file as it was. *)
Theorem C96_failed_save_refuted : ~ forall ftok fval stamp, float_texts ftok fval stamp ->
  forall txt ap oidf fuel can_open fs s q name fs' s' e,
  save_file ftok stamp txt ap oidf fuel can_open fs s q name = (fs', s', Err e) -> dget fs' name = dget fs name.
Proof. exact failed_save_loses. Qed.
Print Assumptions C96_failed_save_refuted.

(** It leaves every file as it was, or, when a value cannot be written, the beginning of
    a text that no load accepts. *)
Theorem C96_failed_save : forall ftok fval stamp, float_texts ftok fval stamp ->
  forall txt ap oidf fuel can_open fs s q name fs' s' e,
  save_file ftok stamp txt ap oidf fuel can_open fs s q name = (fs', s', Err e) ->
  (forall other, other <> name -> dget fs' other = dget fs other) /\
  (fs' = fs \/ e = TypeError /\ can_open name = true /\ (exists x, dget fs' name = Some x) /\ read_file fval fs' name = Err ValueError /\
               snd (save_queue txt ap oidf fuel s q) = Err TypeError).
Proof. exact save_fails. Qed.
Print Assumptions C96_failed_save.

(** A conversion that fails leaves every file as it was. *)
Theorem C96_failed_conversion : forall ftok stamp txt ap oidf fuel can_open fs s q name s0 q0 s1 q1 e s2,
  queue_or_active s q = (s0, q0) -> queue_or_active s0 (Some q0) = (s1, q1) -> dump_loop ap oidf fuel s1 q1 0 = (s2, Err e) ->
  save_file ftok stamp txt ap oidf fuel can_open fs s q name = (fs, s2, Err e).
Proof. exact conversion_fails. Qed.
Print Assumptions C96_failed_conversion.

(** The text [dump] returns without a file says the same. *)
Theorem C96_dump_text : forall ftok fval stamp, float_texts ftok fval stamp ->
  forall txt ap oidf fuel s q, commands s q <> [] ->
  match dump_text ftok stamp txt ap oidf fuel s (Some q), save_queue txt ap oidf fuel s (Some q) with
  | (s1, o), (s2, r) => s1 = s2 /\ match r with Ok es => exists x, o = Ok x /\ read_text fval x = Ok es | Err e => o = Err e end
  end.
Proof. exact (fun ftok fval stamp H txt ap oidf fuel => dump_text_cases ftok fval stamp (proj1 H) (proj2 H) txt ap oidf fuel). Qed.
Print Assumptions C96_dump_text.

Example C96_case : float_texts whole_tok whole_val noon /\
  dget disk "s.json" = Some (t "{""gsp_version"": ""1.0"", ""commands"": [{""method"": ""core.Buffer"", ""id"": 1, ""timestamp"": 1700000000.0, ""parameters"": {""id"": 1, ""count"": 12, ""scale"": 3.0, ""data"": ""AQID""}}]}") /\
  read_file whole_val disk "s.json" = Ok [mkEntry "core.Buffer" 1 [("id", JInt 1); ("count", JInt 12); ("scale", JFloat 3); ("data", JStr "AQID")]].
Proof. split; [exact whole_texts|]. split; vm_compute; reflexivity. Qed.
Example C96_case_failed :
  let '(fs', _, o) := save_file whole_tok noon (fun _ _ => None) no_conv Z.of_nat 5%nat yes disk second_session (Some 0%nat) "s.json" in
  o = Err TypeError /\
  dget fs' "s.json" = Some (t "{""gsp_version"": ""1.0"", ""commands"": [{""method"": ""core.Canvas"", ""id"": 1, ""timestamp"": 1700000000.0, ""parameters"": {""id"": 1}}, {""method"": ""visual.Points"", ""id"": 2, ""timestamp"": 1700000000.0, ""parameters"": {""id"": 2, ""sizes"": [1, ") /\
  read_file whole_val fs' "s.json" = Err ValueError.
Proof. vm_compute. repeat split; reflexivity. Qed.
