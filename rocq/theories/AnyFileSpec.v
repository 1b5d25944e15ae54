(** Vocabulary for loading any file. *)
From Verif Require Import Base Registry Convert Command Queue Base64 Execute Json JsonText JsonFile AnyFile.
Open Scope string_scope.

(** A dictionary of the file gives [v] for the key [k]. *)
Definition gives (j : jt) (k : string) (v : jt) : Prop := exists d, j = TDict d /\ item d (of_string k) = Ok v.
Definition lacks (j : jt) (k : string) : Prop := exists d, j = TDict d /\ forall v, item d (of_string k) <> Ok v.
Definition a_dict (j : jt) : Prop := exists d, j = TDict d.
Definition a_str (j : jt) : Prop := exists s, j = TStr s.
(** The parameters of a command by name. *)
Definition names (d : list (pystr * jt)) : list string := map (fun kv => to_string (fst kv)) d.

(** An entry that makes a command: a method and parameters with an id. *)
Definition entry_ok (j : jt) : Prop :=
  exists m d, gives j "method" (TStr m) /\ gives j "parameters" (TDict d) /\ In "id" (names d).
(** The other entries, and the exceptions they raise. *)
Inductive refused : jt -> exn -> Prop :=
| not_a_dict j : ~ a_dict j -> refused j TypeError
| no_method j : lacks j "method" -> refused j KeyError
| method_not_text j m : gives j "method" m -> ~ a_str m -> refused j AttributeError
| no_parameters j m : gives j "method" (TStr m) -> lacks j "parameters" -> refused j KeyError
| parameters_not_dict j m p : gives j "method" (TStr m) -> gives j "parameters" p -> ~ a_dict p -> refused j AttributeError
| no_id j m d : gives j "method" (TStr m) -> gives j "parameters" (TDict d) -> ~ In "id" (names d) -> refused j ValueError.

(** The command made of an entry: "Class/method", or a class to be built. *)
Definition method_of (m c n : string) : Prop :=
  (m = c ++ "/" ++ n /\ contains "/" c = false /\ contains "/" n = false) \/
  (c = m /\ n = "__init__" /\ forall a b, m = a ++ "/" ++ b -> contains "/" a = true \/ contains "/" b = true).
(** What a value of the file is to the program. *)
Inductive means (fval : text -> Z) (code : list (pystr * jt) -> Z) : jt -> value -> Prop :=
| means_null : means fval code TNull VNone
| means_true : means fval code (TBool true) (VAtom "bool" 1)
| means_false : means fval code (TBool false) (VAtom "bool" 0)
| means_int z : means fval code (TInt z) (VInt z)
| means_float k : means fval code (TFloat k) (VFloat (fval k))
| means_str x : means fval code (TStr x) (VStr (to_string x))
| means_list l r : Forall2 (means fval code) l r -> means fval code (TList l) (VSeq r)
| means_dict d : means fval code (TDict d) (VAtom "dict" (code d)).
Definition made fval code (n : Z) (j : jt) (c : command) : Prop :=
  exists m d, gives j "method" (TStr m) /\ gives j "parameters" (TDict d) /\ c_id c = n /\
    method_of (to_string m) (c_class c) (c_method c) /\
    Forall2 (fun kv p => fst p = to_string (fst kv) /\ means fval code (snd kv) (snd p)) d (c_params c).
Inductive made_all fval code : Z -> list jt -> list command -> Prop :=
| made_none n : made_all fval code n [] []
| made_next n j l c r : made fval code (n + 1) j c -> made_all fval code (n + 1) l r -> made_all fval code n (j :: l) (c :: r).

(** The queue a file is loaded into: the one given if it has commands, else the active
    one, which [get_queue] makes if there is none. *)
Definition chosen (s : sys) (q : option qid) (s1 : sys) (q1 : qid) : Prop :=
  (q = Some q1 /\ commands s q1 <> [] /\ s1 = s) \/
  ((q = None \/ exists p, q = Some p /\ commands s p = []) /\ get_queue s None = (s1, q1)).
(** Only the contents of one queue and the number of commands drawn differ. *)
Definition only_queue (q : qid) (s s' : sys) : Prop :=
  length (qs s') = length (qs s) /\ inst s' = inst s /\ active s' = active s /\ rec s' = rec s /\
  (forall p, p <> q -> nth_error (qs s') p = nth_error (qs s) p) /\
  (forall d, nth_error (qs s) q = Some d -> exists d', nth_error (qs s') q = Some d' /\ q_name d' = q_name d /\ q_ro d' = q_ro d).

(** The text of a file, and the commands found in it. *)
Definition file_commands (x : text) (c : jt) : Prop := exists v, loads x = Ok v /\ gives v "commands" c.

(** A session with one command, and files: two commands of which the second has no id, no
    commands, and the version of another day. *)
Definition before : sys := history [EGet (Some "q"); EPush 0%nat Z.of_nat "Canvas" "core.Canvas" [("id", VOid 1)]].
Definition broken : text := t "{""commands"": [{""method"": ""core.Data"", ""parameters"": {""id"": 7}}, {""method"": ""Data/set"", ""parameters"": {}}]}".
Definition absent : text := t "{""gsp_version"": ""1.0"", ""commands"": null}".
Definition a_word : text := t "{""commands"": """"}".
Definition tomorrow : text := t "{""gsp_version"": ""9.9"", ""commands"": [{""method"": ""core.Data"", ""parameters"": {""id"": 7}}]}".
