(** C13 - C18: recording switch, queues as logs, read-only queues, running a
    queue, named queues. *)
From Verif Require Import Base Registry Convert Command Queue QueueSpec QueueFacts.
Open Scope string_scope.
Open Scope nat_scope.

(** C13.  While recording is off, any number of calls leaves the whole session
    (all queues, the id counter, the active queue) as it is, and each returns
    what the undecorated method returns. *)
Theorem C13_off_calls_change_nothing s l :
  rec s = false -> run_calls s l = s /\ forall k, complete s k = (s, undecorated k).
Proof. exact (fun H => conj (run_calls_off s l H) (fun k => complete_off s k H)). Qed.
Print Assumptions C13_off_calls_change_nothing.

(** C13.  Recording is on exactly when the last switch turned it on (initially
    on). *)
Theorem C13_switch_resumes h : rec (history h) = last_rec true h.
Proof. exact (rec_history h). Qed.
Print Assumptions C13_switch_resumes.

(** C13.  A call marked __no_command__ changes the contents of no queue. *)
Theorem C13_no_command_never_recorded h k q :
  k_nocmd k = true -> commands (fst (complete (history h) k)) q = commands (history h) q.
Proof. exact (fun H => no_command_unrecorded (history h) k (wf_history h) H q). Qed.
Print Assumptions C13_no_command_never_recorded.

(** C13.  With recording on, the caller sees what the undecorated method
    returns or raises, or the error of the type check. *)
Theorem C13_on_result s k : rec s = true ->
  snd (complete s k) = match undecorated k with
                       | Err e => Err e
                       | Ok r => match call_params k with Ok _ => Ok r | Err e => Err e end end.
Proof. exact (complete_result s k). Qed.
Print Assumptions C13_on_result.

(** C14.  After every history, every queue holds exactly its log. *)
Theorem C14_queue_is_log h q : names_existing h -> commands (history h) q = log q h.
Proof. exact (commands_log h q). Qed.
Print Assumptions C14_queue_is_log.

(** C14.  Command ids in every queue are strictly increasing. *)
Theorem C14_ids_increase h q : increasing_upto (cids (history h)) (commands (history h) q).
Proof. exact (increasing_history h q). Qed.
Print Assumptions C14_ids_increase.

(** C15.  A push on a read-only queue is refused and changes nothing; on a
    writable queue it appends, and touches no other queue. *)
Theorem C15_push_refused s q c : readonly s q = true -> push s q c = (s, false).
Proof. exact (push_refused s q c). Qed.
Print Assumptions C15_push_refused.

Theorem C15_push_accepted s q c : q < length (qs s) -> readonly s q = false ->
  snd (push s q c) = true /\ commands (fst (push s q c)) q = (commands s q ++ [c])%list /\
  forall q', q' <> q -> commands (fst (push s q c)) q' = commands s q'.
Proof. exact (push_accepted s q c). Qed.
Print Assumptions C15_push_accepted.

(** C15.  Until its flag is assigned or it is emptied, no history changes a
    read-only queue. *)
Theorem C15_readonly_unchanged h h' q :
  readonly (history h) q = true ->
  (forall e, In e h' -> match e with ERo q' _ | EEmpty q' => Nat.eqb q q' | _ => false end = false) ->
  commands (history (h ++ h')) q = commands (history h) q /\ readonly (history (h ++ h')) q = true.
Proof. exact (readonly_frame h h' q). Qed.
Print Assumptions C15_readonly_unchanged.

(** C16.  Running a queue executes its commands in order, each once, up to the
    first that raises; its contents are unchanged either way; on normal return
    every read-only flag is as before. *)
Theorem C16_run_in_order W (beh : command -> W -> W * list call * res unit) h w q s' w' o :
  q < length (qs (history h)) -> run_queue beh (history h) w q = (s', w', o) ->
  executes beh w (commands (history h) q) w' o /\
  commands s' q = commands (history h) q /\
  (o = Ok tt -> forall q', readonly s' q' = readonly (history h) q').
Proof.
  exact (fun Hl H => let '(conj A (conj B (conj C _))) := run_queue_spec beh h w q s' w' o Hl H in
                     conj A (conj B C)).
Qed.
Print Assumptions C16_run_in_order.

(** C16 fails when a command raises: the queue is left read-only. *)
Theorem C16_flag_after_error_refuted :
  exists h q (beh : command -> unit -> unit * list call * res unit) s' e,
    q < length (qs (history h)) /\ run_queue beh (history h) tt q = (s', tt, Err e) /\
    readonly (history h) q = false /\ readonly s' q = true.
Proof. exact run_error_flag_witness. Qed.
Print Assumptions C16_flag_after_error_refuted.

Theorem C16_flag_after_error W (beh : command -> W -> W * list call * res unit) h w q s' w' e :
  q < length (qs (history h)) -> run_queue beh (history h) w q = (s', w', Err e) ->
  readonly s' q = true.
Proof.
  exact (fun Hl H => let '(conj _ (conj _ (conj _ (conj D _)))) := run_queue_spec beh h w q s' w' (Err e) Hl H in
                     D e eq_refl).
Qed.
Print Assumptions C16_flag_after_error.

(** C17.  Running the active queue, or any queue while recording is off, leaves
    every queue's contents unchanged. *)
Theorem C17_run_keeps_queues W (beh : command -> W -> W * list call * res unit) h w q s' w' o :
  q < length (qs (history h)) -> run_queue beh (history h) w q = (s', w', o) ->
  active (history h) = Some q \/ rec (history h) = false ->
  forall q', commands s' q' = commands (history h) q'.
Proof.
  exact (fun Hl H => let '(conj _ (conj _ (conj _ (conj _ E)))) := run_queue_spec beh h w q s' w' o Hl H in E).
Qed.
Print Assumptions C17_run_keeps_queues.

(** C17 fails in general: running a queue that is not active appends to the
    active one. *)
Theorem C17_run_keeps_queues_refuted :
  exists h q q' (beh : command -> unit -> unit * list call * res unit) s',
    q <> q' /\ run_queue beh (history h) tt q = (s', tt, Ok tt) /\
    commands s' q' <> commands (history h) q'.
Proof. exact run_records_elsewhere_witness. Qed.
Print Assumptions C17_run_keeps_queues_refuted.

(** C18.  Once asked for, a name always gives the same queue, whatever happened
    in between, and asking changes nothing. *)
Theorem C18_same_name_same_queue h h' n : n <> "active" ->
  get_queue (history (h ++ EGet (Some n) :: h')) (Some n) =
  (history (h ++ EGet (Some n) :: h'), ask (history h) (Some n)).
Proof. exact (same_name h h' n). Qed.
Print Assumptions C18_same_name_same_queue.

Theorem C18_different_names_different_queues h h' n1 n2 :
  n1 <> "active" -> n2 <> "active" -> n1 <> n2 ->
  ask (history h) (Some n1) <> ask (history (h ++ EGet (Some n1) :: h')) (Some n2).
Proof. exact (different_names h h' n1 n2). Qed.
Print Assumptions C18_different_names_different_queues.

(** C18.  "active" (or None) is the most recently created queue (queues are
    numbered in creation order); asking for it changes nothing if one
    exists. *)
Theorem C18_active_is_latest h n : n = None \/ n = Some "active" ->
  ask (history h) n = pred (length (qs (history h))) /\
  (qs (history h) <> [] -> fst (get_queue (history h) n) = history h).
Proof. exact (active_is_latest h n). Qed.
Print Assumptions C18_active_is_latest.

(** C18 fails for the queue created implicitly by the first recorded call: it
    is named "default" but is not what asking for "default" returns. *)
Theorem C18_implicit_default_refuted :
  exists h, let s := history h in
    q_name (nth (ask s None) (qs s) (mkQ "" false [])) = "default" /\
    ask s None <> ask s (Some "default").
Proof. exact implicit_default_witness. Qed.
Print Assumptions C18_implicit_default_refuted.

(** ** The hypotheses are met by non-trivial histories *)
Definition ex_h : list event :=
  [EGet (Some "a"); ECall (simple_call 1 "m"); EGet (Some "b"); ECall (simple_call 2 "n");
   ERec false; ECall (simple_call 3 "p"); ERec true; ERo 1 true; ECall (simple_call 4 "q");
   ERo 1 false; ECall (simple_call 5 "r"); EGet (Some "a"); ECall (simple_call 6 "s");
   EPush 0 Z.of_nat "Foo" "t" [("id", VInt 1)]].
Example ex_h_names : names_existing ex_h.
Proof.
  intros past e rest E. unfold ex_h in E.
  do 14 (destruct past as [|? past]; cbn [app] in E;
    [injection E; intros; subst; cbn; (lia || exact I) | injection E as <- E]).
  destruct past; discriminate.
Qed.
Example ex_h_queues :
  map (fun c => (c_id c, c_method c)) (commands (history ex_h) 0) = [(1%Z, "m"); (5%Z, "t")] /\
  map (fun c => (c_id c, c_method c)) (commands (history ex_h) 1) = [(2%Z, "n"); (3%Z, "r"); (4%Z, "s")].
Proof. split; reflexivity. Qed.
Example ex_readonly : readonly (history (firstn 8 ex_h)) 1 = true /\
  commands (history (firstn 9 ex_h)) 1 = commands (history (firstn 8 ex_h)) 1.
Proof. split; reflexivity. Qed.
Definition ex_beh (c : command) (w : list string) : list string * list call * res unit :=
  (c_method c :: w, [simple_call 7 "again"], if String.eqb (c_method c) "r" then Err ValueError else Ok tt).
Example ex_run : exists s', run_queue ex_beh (history ex_h) [] 1 = (s', ["r"; "n"], Err ValueError) /\
  active (history ex_h) = Some 1 /\ readonly s' 1 = true.
Proof. eexists. split; [reflexivity|]. split; reflexivity. Qed.
Example ex_run_ok : exists s', run_queue ex_beh (history ex_h) [] 0 = (s', ["t"; "m"], Ok tt) /\
  length (commands s' 1) = 5.
Proof. eexists. split; reflexivity. Qed.
