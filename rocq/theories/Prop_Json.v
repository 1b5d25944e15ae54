(** Properties of executing, saving and loading commands: C19 - C23. *)
From Verif Require Import Base Registry RegistrySpec Convert Command CommandSpec Queue QueueSpec QueueFacts
  Base64 Base64Facts Execute Json JsonSpec JsonFacts.
Open Scope string_scope.
Open Scope nat_scope.

(** C19.  Every executable constructor command ("__init__", the form commands
    have after loading) builds the object of its class from its arguments,
    gives it the recorded id and registers it under that id. *)
Theorem C19_constructor_executes B cls ap s c idv oid kw pre post :
  c_method c = "__init__" -> dget (c_params c) "id" = Some idv -> oid_of idv = Some oid ->
  resolve (objects s) cls ap (c_params c) = Ok kw ->
  b_class B (c_class c) = true -> b_new B (c_class c) kw = Ok (pre, post) ->
  exists s' r, execute B cls ap s c = Ok (s', Built r (c_class c) kw) /\
    id_of s' r = Some oid /\ lookup s' oid = Some r /\ length (heap s) <= r.
Proof. exact (execute_constructor B cls ap s c idv oid kw pre post). Qed.
Print Assumptions C19_constructor_executes.

(** C19.  A recorded constructor (dotted name), saved and loaded, does so. *)
Theorem C19_constructor_after_load txt pure oidf c c' oid B cls ap s kw pre post :
  same_command txt pure oidf c c' ->
  contains "." (c_method c) = true -> dget (c_params c) "id" = Some (VOid oid) ->
  resolve (objects s) cls ap (c_params c') = Ok kw ->
  b_class B (c_method c) = true -> b_new B (c_method c) kw = Ok (pre, post) ->
  exists s' r, execute B cls ap s c' = Ok (s', Built r (c_method c) kw) /\
    id_of s' r = Some oid /\ lookup s' oid = Some r /\ length (heap s) <= r.
Proof. exact (constructor_after_load txt pure oidf c c' oid B cls ap s kw pre post). Qed.
Print Assumptions C19_constructor_after_load.

(** C19 fails for execution straight from the recording queue: a recorded
    constructor (dotted name) always raises, for every backend and session. *)
Theorem C19_direct_execution_refuted B cls ap s c x :
  contains "." (c_method c) = true -> execute B cls ap s c <> Ok x.
Proof. exact (execute_dotted B cls ap s c x). Qed.
Print Assumptions C19_direct_execution_refuted.

(** C20.  What is written, and that saving leaves the session as it was, when
    conversions have no side effect. *)
Theorem C20_save_exact txt pure ap oidf s q fuel :
  (forall f v, ap f v = ([], pure f v)) -> commands s q <> [] ->
  (forall c, In c (commands s q) -> saveable txt pure oidf c) -> length (commands s q) <= fuel ->
  exists es, save_queue txt ap oidf fuel s (Some q) = (s, Ok es) /\
    Forall2 (written txt pure oidf) (commands s q) es.
Proof. exact (fun H => save_exact txt pure ap oidf H s q fuel). Qed.
Print Assumptions C20_save_exact.

(** C20.  Saving a queue and loading the file (in any session, into any
    non-empty writable queue). *)
Theorem C20_save_load txt pure ap oidf s q fuel s2 q2 :
  (forall f v, ap f v = ([], pure f v)) ->
  commands s q <> [] -> length (commands s q) <= fuel ->
  (forall c, In c (commands s q) -> saveable txt pure oidf c /\ slash_free c /\
     exists z, dget (c_params c) "id" = Some (VOid z) \/ dget (c_params c) "id" = Some (VInt z)) ->
  commands s2 q2 <> [] -> readonly s2 q2 = false ->
  exists file s', save_queue txt ap oidf fuel s (Some q) = (s, Ok file) /\
    load_queue s2 (Some q2) (Ok file) = (s', Ok q2) /\
    Forall2 (same_command txt pure oidf) (commands s q) (commands s' q2) /\
    (forall i c, nth_error (commands s' q2) i = Some c -> c_id c = (cids s2 + 1 + Z.of_nat i)%Z) /\
    (forall q', q' <> q2 -> commands s' q' = commands s2 q').
Proof. exact (roundtrip txt pure ap oidf s q fuel s2 q2). Qed.
Print Assumptions C20_save_load.

(** C20.  Numbers, strings, None and nested lists of them come back
    unchanged. *)
Theorem C20_native_values txt oidf v : native v ->
  exists j, encode txt oidf v = Ok j /\ decode j = v.
Proof. exact (native_roundtrip txt oidf v). Qed.
Print Assumptions C20_native_values.

(** C20 fails for empty queues: saving one writes the commands of the active
    queue. *)
Theorem C20_empty_queue_refuted :
  exists s q, commands s q = [] /\ forall txt ap oidf, exists e,
    snd (save_queue txt ap oidf 5 s (Some q)) = Ok [e] /\ e_method e = "Foo/a".
Proof. exact save_empty_witness. Qed.
Print Assumptions C20_empty_queue_refuted.
Theorem C20_empty_queue_exact txt ap oidf fuel s q : commands s q = [] ->
  save_queue txt ap oidf fuel s (Some q) = save_queue txt ap oidf fuel s None.
Proof. exact (save_empty_is_active txt ap oidf fuel s q). Qed.
Print Assumptions C20_empty_queue_exact.

(** C20 fails when a delayed conversion builds recorded objects (arrays given
    where a Buffer is expected): saving appends to the queue being saved, and
    the file creates the object after the command that uses it. *)
Theorem C20_late_conversion_refuted :
  exists s q s' e1 e2, save_queue (fun _ _ => None) late_conv Z.of_nat 5 s (Some q) = (s', Ok [e1; e2]) /\
    length (commands s q) = 1 /\ length (commands s' q) = 2 /\
    e_method e1 = "visual.Points" /\ dget (e_params e1) "positions(id)" = Some (JInt 7) /\
    e_method e2 = "core.Buffer" /\ dget (e_params e2) "id" = Some (JInt 7).
Proof. exact late_conversion_witness. Qed.
Print Assumptions C20_late_conversion_refuted.

(** C21.  A writable queue with at least one command is replaced by the
    contents of the file, and nothing else changes. *)
Theorem C21_load_replaces s q l :
  commands s q <> [] -> readonly s q = false -> (forall e, In e l -> has_id e) ->
  exists s', load_queue s (Some q) (Ok l) = (s', Ok q) /\
    commands s' q = loaded_from (cids s) l /\
    (forall q', q' <> q -> commands s' q' = commands s q') /\
    cids s' = (cids s + Z.of_nat (length l))%Z /\ inst s' = inst s /\ active s' = active s.
Proof. exact (load_into s q l). Qed.
Print Assumptions C21_load_replaces.

(** C21.  With no queue given, the active one is replaced. *)
Theorem C21_load_active s q l : active s = Some q -> q < length (qs s) ->
  readonly s q = false -> (forall e, In e l -> has_id e) ->
  exists s', load_queue s None (Ok l) = (s', Ok q) /\
    commands s' q = loaded_from (cids s) l /\
    (forall q', q' <> q -> commands s' q' = commands s q').
Proof. exact (load_active s q l). Qed.
Print Assumptions C21_load_active.

(** C21.  An unreadable file changes nothing. *)
Theorem C21_unreadable_file s q e : load_queue s q (Err e) = (s, Err e).
Proof. exact (load_parse_error s q e). Qed.
Print Assumptions C21_unreadable_file.

(** C21 fails for an empty queue that is not the active one: it stays empty
    and the active queue is replaced instead. *)
Theorem C21_load_into_empty_refuted :
  exists s q a file s', q <> a /\ commands s q = [] /\ commands s a <> [] /\ file <> [] /\
    load_queue s (Some q) (Ok file) = (s', Ok a) /\ commands s' q = [] /\ commands s' a <> commands s a.
Proof. exact load_empty_witness. Qed.
Print Assumptions C21_load_into_empty_refuted.
Theorem C21_load_into_empty_exact s q a l :
  commands s q = [] -> active s = Some a -> q <> a -> a < length (qs s) ->
  readonly s a = false -> (forall e, In e l -> has_id e) ->
  exists s', load_queue s (Some q) (Ok l) = (s', Ok a) /\
    commands s' q = [] /\ commands s' a = loaded_from (cids s) l.
Proof. exact (load_empty_goes_to_active s q a l). Qed.
Print Assumptions C21_load_into_empty_exact.

(** C21.  A read-only queue is emptied and receives nothing. *)
Theorem C21_load_into_readonly s q l :
  commands s q <> [] -> readonly s q = true -> (forall e, In e l -> has_id e) ->
  exists s', load_queue s (Some q) (Ok l) = (s', Ok q) /\ commands s' q = [] /\
    (forall q', q' <> q -> commands s' q' = commands s q').
Proof. exact (load_readonly s q l). Qed.
Print Assumptions C21_load_into_readonly.

(** C22.  Bytes written by saving and read by the backend Buffer. *)
Theorem C22_buffer_bytes txt oidf b : bytes_ok b ->
  exists j, encode txt oidf (VBytes b) = Ok j /\ buffer_data (decode j) = Ok (VBytes b) /\
    exists t, j = JStr t /\ all_chars b64_char t = true /\ String.length t = 4 * ((length b + 2) / 3).
Proof. exact (buffer_roundtrip txt oidf b). Qed.
Print Assumptions C22_buffer_bytes.
Theorem C22_distinct_bytes_distinct_text l l' : bytes_ok l -> bytes_ok l' -> b64encode l = b64encode l' -> l = l'.
Proof. exact (b64_injective l l'). Qed.
Print Assumptions C22_distinct_bytes_distinct_text.

(** C23 fails: loading a file of unknown format raises after forgetting the
    registered objects and emptying the active queue. *)
Theorem C23_failed_load_refuted :
  exists rs s q file, objects rs <> [] /\ active s = Some q /\ commands s q <> [] /\
    let '(rs', s', o) := gsp_load rs s false file in
    o = Err ValueError /\ objects rs' <> objects rs /\ commands s' q <> commands s q.
Proof. exact gsp_load_witness. Qed.
Print Assumptions C23_failed_load_refuted.

(** C23.  What is kept: the id counter and the objects themselves; what is
    lost: all registrations and the active queue's commands. *)
Theorem C23_load_effect rs s known file :
  let '(rs', s', o) := gsp_load rs s known file in
  objects rs' = [] /\ counter rs' = counter rs /\ heap rs' = heap rs /\
  (known = false -> o = Err ValueError /\
     s' = empty (fst (get_queue s None)) (snd (get_queue s None))).
Proof. exact (gsp_load_exact rs s known file). Qed.
Print Assumptions C23_load_effect.

(** ** The hypotheses are met *)
Definition ex_B : backend :=
  mkB (fun n => String.eqb n "core.Canvas") (fun _ _ => Ok (1, 2)) (fun _ _ => true) (fun _ _ _ _ => Ok VNone).
Definition ex_canvas : command := mkC 3 "Canvas" "core.Canvas" [("id", VOid 12); ("width", VInt 512)].
Definition ex_canvas' : command := mkC 9 "core.Canvas" "__init__" [("id", VInt 12); ("width", VInt 512)].
Definition no_txt (c : string) (z : Z) : option jval := None.
Definition ex_pure (f : func) (v : value) : res value := Ok (VSeq [v; VFloat 3]).
Example ex_same : same_command no_txt ex_pure Z.of_nat ex_canvas ex_canvas'.
Proof.
  split; [reflexivity|]. repeat constructor; do 2 eexists; (split; [reflexivity|]); split; reflexivity.
Qed.
Example ex_execute : exists s', execute ex_B (fun _ => "Canvas") (fun _ v => Ok v) (mkR 20 true [] []) ex_canvas'
  = Ok (s', Built 1 "core.Canvas" [("width", VInt 512)]) /\ lookup s' 12 = Some 1 /\ id_of s' 1 = Some 12%Z.
Proof. eexists. split; [reflexivity|]. split; reflexivity. Qed.
Definition ex_saved : sys := history
  [EGet (Some "q"); EPush 0 Z.of_nat "Canvas" "core.Canvas" [("id", VOid 3); ("size", VConv 1 (VInt 5)); ("parent", VObj "X" 8)];
   EPush 0 Z.of_nat "Canvas" "set" [("id", VOid 3); ("data", VBytes [1; 2]%N)]].
Example ex_save_hyps : forall c, In c (commands ex_saved 0) ->
  saveable no_txt ex_pure Z.of_nat c /\ slash_free c /\
  exists z, dget (c_params c) "id" = Some (VOid z) \/ dget (c_params c) "id" = Some (VInt z).
Proof.
  intros c Hc. cbn in Hc. destruct Hc as [<-|[<-|[]]]; (split; [|split; [split; reflexivity | exists 3%Z; left; reflexivity]]).
  - exists [("id", JInt 3); ("size", JList [JInt 5; JFloat 3]); ("parent", JInt 8)]. split.
    + repeat constructor; eexists; split; reflexivity.
    + repeat constructor; cbn; intuition discriminate.
  - exists [("id", JInt 3); ("data", JStr "AQI=")]. split.
    + repeat constructor; eexists; split; reflexivity.
    + repeat constructor; cbn; intuition discriminate.
Qed.
Example ex_load : exists s', load_queue (history ex_history) (Some 0)
    (Ok [mkEntry "core.Canvas" 4 [("id", JInt 3)]; mkEntry "Canvas/set" 9 [("id", JInt 3); ("data", JStr "AQI=")]]) = (s', Ok 0) /\
  commands s' 0 = [mkC 3 "core.Canvas" "__init__" [("id", VInt 3)];
                   mkC 4 "Canvas" "set" [("id", VInt 3); ("data", VStr "AQI=")]] /\
  commands s' 1 = commands (history ex_history) 1.
Proof. eexists. split; [reflexivity|]. split; reflexivity. Qed.
Example ex_bytes : bytes_ok [0; 255; 17; 128]%N.
Proof. intros b Hb. cbn in Hb. destruct Hb as [<-|[<-|[<-|[<-|[]]]]]; reflexivity. Qed.

(** C19.  What is refused, and how; no object is made or registered then. *)
Theorem C19_refused B cls ap s c :
  (dget (c_params c) "id" = None -> execute B cls ap s c = Err KeyError) /\
  (forall idv kw, dget (c_params c) "id" = Some idv -> resolve (objects s) cls ap (c_params c) = Ok kw ->
   contains "." (c_method c) = false ->
   (c_method c = "__init__" ->
      (b_class B (c_class c) = false -> execute B cls ap s c = Err AttributeError) /\
      (forall e, b_class B (c_class c) = true -> b_new B (c_class c) kw = Err e -> execute B cls ap s c = Err e)) /\
   (c_method c <> "__init__" -> forall z, idv = VInt z \/ idv = VOid z ->
      (lookup s z = None -> execute B cls ap s c = Err KeyError) /\
      (forall r, lookup s z = Some r ->
         (b_meth B (cls r) (c_method c) = false -> execute B cls ap s c = Err AttributeError) /\
         (forall e, b_meth B (cls r) (c_method c) = true -> b_call B (cls r) (c_method c) r kw = Err e -> execute B cls ap s c = Err e)))) /\
  (forall idv e, dget (c_params c) "id" = Some idv -> resolve (objects s) cls ap (c_params c) = Err e -> execute B cls ap s c = Err e).
Proof. exact (execute_refused B cls ap s c). Qed.
Print Assumptions C19_refused.
Example C19_refused_case : let B := mkB (fun _ => false) (fun _ _ => Ok (0, 0)) (fun _ _ => false) (fun _ _ _ _ => Ok VNone) in
  execute B (fun _ => "") (fun _ v => Ok v) rinit (mkC 0 "core.Nowhere" "__init__" [("id", VInt 1)]) = Err AttributeError /\
  execute B (fun _ => "") (fun _ v => Ok v) rinit (mkC 0 "Canvas" "render" [("id", VInt 1)]) = Err KeyError.
Proof. split; reflexivity. Qed.
