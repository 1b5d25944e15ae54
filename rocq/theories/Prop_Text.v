(** C83: commands as text. *)
From Verif Require Import Base Registry Convert Command Execute Text TextSpec TextFacts.
Local Open Scope string_scope.

(** What a terminal shows of a command: its number, method, time, then one line for
    each parameter, in order. *)
Theorem C83_lines_partial show showz names ap d date c :
  (forall z, one_line (showz z)) -> one_line date -> one_line (c_class c) -> one_line (c_method c) ->
  (forall k t, dget d k = Some t -> one_line (ansi_type t)) ->
  Forall (fun kv => one_line (fst kv) /\ (fst kv <> "id" -> exists t, dget d (base_key (fst kv)) = Some t) /\
                    exists v, value_text show showz names ap (snd kv) v /\ one_line v) (c_params c) ->
  exists s ls, dump_ansi show showz names ap (Some d) date c = Ok s /\
  Forall2 (param_line show showz names ap d) (c_params c) ls /\
  lines (plain s) = (showz (c_id c) ++ ". COMMAND") :: ("     - METHOD: """ ++ method_text c ++ """ (str)") ::
     ("     - COMMAND_ID: " ++ showz (c_id c) ++ " (int)") :: ("     - TIMESTAMP: " ++ date ++ " (datetime)") ::
     "   PARAMETERS" :: (ls ++ [""])%list.
Proof. exact (ansi_lines show showz names ap d date c). Qed.
Print Assumptions C83_lines_partial.
(** Without annotations there is no text: loaded commands, and parameters whose type is
    not given. *)
Theorem C83_loaded_refuted show showz names ap date c : Forall (fun kv => exists v, value_text show showz names ap (snd kv) v) (c_params c) ->
  (exists kv, In kv (c_params c) /\ fst kv <> "id") -> dump_ansi show showz names ap None date c = Err TypeError.
Proof. exact (ansi_loaded show showz names ap date c). Qed.
Print Assumptions C83_loaded_refuted.
Theorem C83_unannotated_refuted show showz names ap d date c : Forall (fun kv => exists v, value_text show showz names ap (snd kv) v) (c_params c) ->
  (exists kv, In kv (c_params c) /\ fst kv <> "id" /\ dget d (base_key (fst kv)) = None) ->
  dump_ansi show showz names ap (Some d) date c = Err KeyError.
Proof. exact (ansi_unannotated show showz names ap d date c). Qed.
Print Assumptions C83_unannotated_refuted.
(** The format without colours says the same when no parameter is an object ... *)
Theorem C83_formats_partial show showz names ap d date c :
  (forall z, contains esc (showz z) = false) -> contains esc date = false -> contains esc (c_class c) = false -> contains esc (c_method c) = false ->
  Forall (fun kv => contains esc (fst kv) = false /\ strip_id (fst kv) = None /\ contains esc (show (snd kv)) = false /\ (forall f w, snd kv <> VConv f w) /\
     (fst kv <> "id" -> exists n, dget d (fst kv) = Some (Named n) /\ contains esc n = false)) (c_params c) ->
  exists s t, dump_ansi show showz names ap (Some d) date c = Ok s /\ dump_text show showz ap (Some d) date c = Ok t /\ plain s = t.
Proof. exact (formats_agree show showz names ap d date c). Qed.
Print Assumptions C83_formats_partial.
(** ... and raises when one is: p(id) has no annotation of its own. *)
Theorem C83_text_objects_refuted show showz names ap d date c : Forall (fun kv => exists v, value_text show showz names ap (snd kv) v) (c_params c) ->
  (exists kv, In kv (c_params c) /\ fst kv <> "id" /\ dget d (fst kv) = None) ->
  dump_text show showz ap (Some d) date c = Err KeyError.
Proof. exact (text_objects show showz names ap d date c). Qed.
Print Assumptions C83_text_objects_refuted.
(** A queue is the texts of its commands, one after the other; an empty queue is taken
    for the active one. *)
Theorem C83_queue_partial show showz names ap l active ts : l <> [] -> texts show showz names ap l = map Ok ts ->
  ansi_dump show showz names ap (Some l) active = Ok (String.concat "" (map (fun t => t ++ eol) ts)).
Proof. exact (ansi_queue show showz names ap l active ts). Qed.
Print Assumptions C83_queue_partial.
Theorem C83_empty_refuted show showz names ap active : ansi_dump show showz names ap (Some []) active = ansi_dump show showz names ap None active.
Proof. exact (ansi_empty show showz names ap active). Qed.
Print Assumptions C83_empty_refuted.

(** A creation with an object and a number. *)
Example C83_case : let c := mkC 7 "Foo" "core.Foo" [("id", VOid 3); ("data(id)", VOid 1); ("count", VInt 5)] in
  let show v := match v with VOid 3 => "3" | VOid _ => "1" | _ => "5" end in
  let d := [("data", Union "Buffer | None" ["Buffer"; "NoneType"]); ("count", Named "int")] in
  (exists s, dump_ansi show (fun _ => "7") (fun _ => 0%Z) (fun _ v => Ok v) (Some d) "now" c = Ok s /\
   lines (plain s) = ["7. COMMAND"; "     - METHOD: ""core.Foo"" (str)"; "     - COMMAND_ID: 7 (int)"; "     - TIMESTAMP: now (datetime)"; "   PARAMETERS";
     "     - OBJECT_ID: 3 (int)"; "     - DATA_ID: 1 (Buffer | NoneType)"; "     - COUNT: 5 (int)"; ""]) /\
  dump_text show (fun _ => "7") (fun _ v => Ok v) (Some d) "now" c = Err KeyError /\
  dump_ansi show (fun _ => "7") (fun _ => 0%Z) (fun _ v => Ok v) None "now" c = Err TypeError.
Proof. split; [eexists; split; reflexivity|]. split; reflexivity. Qed.

(** Saving a queue as text, and loading from text, always fail. *)
Theorem C83_text_files_refuted : (forall s, text_dump <> Ok s) /\ (forall u, text_load <> Ok u).
Proof. split; discriminate. Qed.
Print Assumptions C83_text_files_refuted.
