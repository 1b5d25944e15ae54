(** C101: loading files that are not sessions. *)
From Verif Require Import Base Registry Convert Command Queue QueueSpec Base64 Execute Json JsonText JsonFile AnyFile AnyFileSpec AnyFileFacts.
Open Scope string_scope.

(** Text that is not JSON: ValueError, and nothing has changed.  The result of reading any
    text is a value or a ValueError. *)
Theorem C101_not_json fval code s q x : (forall v, loads x <> Ok v) -> load_text fval code s q x = (s, Err ValueError).
Proof. exact (not_json fval code s q x). Qed.
Print Assumptions C101_not_json.
Example C101_not_json_ex : (forall v, loads (t "{""commands"": [}") <> Ok v) /\ (forall v, loads (t "") <> Ok v).
Proof. split; intros v; vm_compute; discriminate. Qed.

(** A file without "commands": nothing has changed either. *)
Theorem C101_no_commands fval code s q x v : loads x = Ok v ->
  (~ a_dict v -> load_text fval code s q x = (s, Err TypeError)) /\
  (lacks v "commands" -> load_text fval code s q x = (s, Err KeyError)).
Proof. exact (no_commands fval code s q x v). Qed.
Print Assumptions C101_no_commands.
Example C101_no_commands_ex : exists v w, loads (t "[1, 2]") = Ok v /\ ~ a_dict v /\ loads (t "{""command"": []}") = Ok w /\ lacks w "commands".
Proof.
  exists (TList [TInt 1; TInt 2]), (TDict [(of_string "command", TList [])]). split; [reflexivity|]. split; [intros (d & H); discriminate H|].
  split; [reflexivity|]. eexists. split; [reflexivity|]. vm_compute. discriminate.
Qed.

(** An entry either makes a command or is refused by one exception. *)
Theorem C101_cases j : (entry_ok j \/ exists e, refused j e) /\ (forall e e', refused j e -> refused j e' -> e = e') /\ (forall e, refused j e -> ~ entry_ok j).
Proof. exact (cases_lemma j). Qed.
Print Assumptions C101_cases.

(** All entries good: the queue holds their commands, numbered from the next number on;
    the other queues are as before. *)
Theorem C101_session fval code h q s1 q1 x l : file_commands x (TList l) -> Forall entry_ok l -> chosen (history h) q s1 q1 -> readonly s1 q1 = false ->
  exists s2, load_text fval code (history h) q x = (s2, Ok q1) /\ made_all fval code (cids s1) l (commands s2 q1) /\ only_queue q1 s1 s2.
Proof. exact (loads_session fval code h q s1 q1 x l). Qed.
Print Assumptions C101_session.
Example C101_session_ex : exists l s1 q1, file_commands tomorrow (TList l) /\ Forall entry_ok l /\ l <> [] /\ chosen before (Some 0%nat) s1 q1 /\ readonly s1 q1 = false.
Proof.
  exists [TDict [(of_string "method", TStr (of_string "core.Data")); (of_string "parameters", TDict [(of_string "id", TInt 7)])]], before, 0%nat.
  split; [eexists; split; [vm_compute; reflexivity|eexists; split; reflexivity]|]. split; [|split; [discriminate|split; [left; repeat split; discriminate|reflexivity]]].
  constructor; [|constructor]. exists (of_string "core.Data"), [(of_string "id", TInt 7)]. split; [eexists; split; reflexivity|].
  split; [eexists; split; reflexivity|]. now left.
Qed.

(** The first bad entry ends the load: the commands before it are in the queue, what the
    queue held is gone, and the exception is that of the entry. *)
Theorem C101_stops fval code h q s1 q1 x good bad rest e : file_commands x (TList (good ++ bad :: rest)) -> Forall entry_ok good -> refused bad e ->
  chosen (history h) q s1 q1 -> readonly s1 q1 = false ->
  exists s2, load_text fval code (history h) q x = (s2, Err e) /\ made_all fval code (cids s1) good (commands s2 q1) /\ only_queue q1 s1 s2.
Proof. exact (stops_at fval code h q s1 q1 x good bad rest e). Qed.
Print Assumptions C101_stops.
Example C101_stops_ex : exists good bad, file_commands broken (TList (good ++ [bad])) /\ length good = 1%nat /\ Forall entry_ok good /\ refused bad ValueError.
Proof.
  destruct reads_broken as (d & L & R). eexists [_], d. split; [eexists; split; [exact L|eexists; split; reflexivity]|]. split; [reflexivity|]. split; [|exact R].
  constructor; [|constructor]. exists (of_string "core.Data"), [(of_string "id", TInt 7)]. split; [eexists; split; reflexivity|].
  split; [eexists; split; reflexivity|]. now left.
Qed.

(** A failed load leaves the queue as it was: false. *)
Theorem C101_failed_load_refuted : ~ forall fval code h q x s' e, load_text fval code (history h) (Some q) x = (s', Err e) -> commands s' q = commands (history h) q.
Proof. exact failed_load_refuted. Qed.
Print Assumptions C101_failed_load_refuted.

(** "commands" that is no list: the queue is emptied first; then empty text and an empty
    dictionary pass for a session without commands, the others are a TypeError. *)
Theorem C101_odd_commands fval code h q s1 q1 x c : file_commands x c -> chosen (history h) q s1 q1 ->
  (forall l, c <> TList l) -> exists s2, commands s2 q1 = [] /\ only_queue q1 s1 s2 /\ cids s2 = cids s1 /\
    load_text fval code (history h) q x = (s2, if match c with TStr [] | TDict [] => true | _ => false end then Ok q1 else Err TypeError).
Proof. exact (other_commands fval code h q s1 q1 x c). Qed.
Print Assumptions C101_odd_commands.
Example C101_odd_commands_ex : file_commands absent TNull /\ file_commands a_word (TStr []).
Proof. split; (eexists; split; [vm_compute; reflexivity|eexists; split; reflexivity]). Qed.

(** Only files with a list of commands are loaded: false. *)
Theorem C101_only_sessions_refuted : ~ forall fval code h q x s' q', load_text fval code (history h) q x = (s', Ok q') -> exists l, file_commands x (TList l).
Proof. exact only_sessions_refuted. Qed.
Print Assumptions C101_only_sessions_refuted.

(** A read-only queue is emptied and stays empty, without an error if the entries are good. *)
Theorem C101_readonly fval code h q s1 q1 x l : file_commands x (TList l) -> chosen (history h) q s1 q1 -> readonly s1 q1 = true ->
  exists s2 o, load_text fval code (history h) q x = (s2, o) /\ commands s2 q1 = [] /\ only_queue q1 s1 s2 /\ (Forall entry_ok l -> o = Ok q1).
Proof. exact (readonly_load fval code h q s1 q1 x l). Qed.
Print Assumptions C101_readonly.
Example C101_readonly_ex : exists s1, chosen (history [EGet (Some "q"); EPush 0%nat Z.of_nat "Canvas" "core.Canvas" [("id", VOid 1)]; ERo 0%nat true]) (Some 0%nat) s1 0%nat /\
  readonly s1 0%nat = true /\ commands s1 0%nat <> [].
Proof. eexists. split; [left; repeat split; vm_compute; discriminate|]. split; [reflexivity|vm_compute; discriminate]. Qed.

(** Nothing but "commands" is looked at: not the version. *)
Theorem C101_only_commands fval code s q x y c : file_commands x c -> file_commands y c -> load_text fval code s q x = load_text fval code s q y.
Proof. exact (same_commands fval code s q x y c). Qed.
Print Assumptions C101_only_commands.
Example C101_only_commands_ex : exists c, file_commands absent c /\ file_commands (t "{""commands"": null, ""gsp_version"": 2}") c /\ absent <> t "{""commands"": null, ""gsp_version"": 2}".
Proof. exists TNull. split; [|split; [|discriminate]]; (eexists; split; [vm_compute; reflexivity|eexists; split; reflexivity]). Qed.

(** For files with entries as [save] writes them this is the load of C20 and C96. *)
Theorem C101_agrees fval code s q x es : read_text fval x = Ok es -> load_text fval code s q x = load_queue s q (Ok es).
Proof. exact (text_agrees fval code s q x es). Qed.
Print Assumptions C101_agrees.
Example C101_agrees_ex : exists es, read_text (fun _ => 0%Z) (t "{""commands"": [{""method"": ""core.Data"", ""id"": 1, ""parameters"": {""id"": 7}}]}") = Ok es /\ es <> [].
Proof. eexists. split; [vm_compute; reflexivity|discriminate]. Qed.
