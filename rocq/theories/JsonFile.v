(** Session files on disk.  Models gsp/io/json.py:60-90 with the text of JsonText.v:
    what [save] leaves in the file and what [load] finds there. *)
From Verif Require Import Base Registry Convert Command Queue Base64 Execute Json JsonText.
Open Scope string_scope.

(** The model's strings are bytes: read as the code points below 256.
    A change of representation, no code of its own. *)
Definition of_string (s : string) : pystr := map N_of_ascii (list_ascii_of_string s).
(** The way back, no code of its own. *)
Definition to_string (s : pystr) : string := string_of_list_ascii (map ascii_of_N s).

(** The tree json writes for a tree of Json.v.  [ftok]: float.__repr__. gsp/io/json.py:67-73. *)
Fixpoint tree_of (ftok : Z -> text) (j : jval) : jt :=
  match j with
  | JNull => TNull
  | JInt z => TInt z
  | JFloat z => TFloat (ftok z)
  | JStr s => TStr (of_string s)
  | JList l => TList (map (tree_of ftok) l)
  end.
(** The tree json writes for a value with the [default] hook, gsp/io/json.py:12-27. *)
Fixpoint value_tree (ftok : Z -> text) (txt : string -> Z -> option jval) (oidf : ref -> Z) (v : value) : jt :=
  match v with
  | VNone => TNull
  | VInt z => TInt z
  | VFloat z => TFloat (ftok z)
  | VStr s => TStr (of_string s)
  | VBytes b => TStr (of_string (b64encode b))
  | VSeq l => TList (map (value_tree ftok txt oidf) l)
  | VAtom c n => match txt c n with Some j => tree_of ftok j | None => TBad end
  | VObj _ r => TInt (oidf r)
  | VOid z => TInt z
  | VConv _ _ => TBad
  end.
(** gsp/io/json.py:51-54.  [stamp]: the text of the command's time. *)
Definition command_tree (ftok : Z -> text) txt oidf (stamp : text) (e : string * Z * dict string value) : jt :=
  TDict [(of_string "method", TStr (of_string (fst (fst e))));
         (of_string "id", TInt (snd (fst e)));
         (of_string "timestamp", TFloat stamp);
         (of_string "parameters", TDict (map (fun kv => (of_string (fst kv), value_tree ftok txt oidf (snd kv))) (snd e)))].
(** The loop of gsp/io/json.py:65-66. *)
Fixpoint command_trees ftok txt oidf (stamp : nat -> text) (i : nat) (l : list (string * Z * dict string value)) : list jt :=
  match l with
  | [] => []
  | e :: r => command_tree ftok txt oidf (stamp i) e :: command_trees ftok txt oidf stamp (S i) r
  end.
(** gsp/io/json.py:67. *)
Definition payload ftok txt oidf (stamp : nat -> text) (l : list (string * Z * dict string value)) : jt :=
  TDict [(of_string "gsp_version", TStr (of_string "1.0"));
         (of_string "commands", TList (command_trees ftok txt oidf stamp 0 l))].

(** What the disk holds, gsp/io/json.py:72 and 86. *)
Definition files := dict string text.
(** OSError. Raised by open, gsp/io/json.py:72 and 86. *)
Definition os_error : exn := UserError 0.

(** [save], gsp/io/json.py:60-80: the commands are collected, then the file is opened,
    which empties it, then the text is written piece by piece.  [can_open]: the file
    can be opened for writing. *)
Definition save_file (ftok : Z -> text) (stamp : nat -> text) (txt : string -> Z -> option jval) (ap : conv) (oidf : ref -> Z)
  (fuel : nat) (can_open : string -> bool) (fs : files) (s : sys) (q : option qid) (name : string) : files * sys * res unit :=
  let '(s0, q0) := queue_or_active s q in
  let '(s1, q1) := queue_or_active s0 (Some q0) in
  let '(s2, l) := dump_loop ap oidf fuel s1 q1 0 in
  match l with
  | Err e => (fs, s2, Err e)
  | Ok l =>
      if can_open name then
        let '(x, ok) := write Compact 0 (payload ftok txt oidf stamp l) in
        (dset fs name x, s2, if ok then Ok tt else Err TypeError)
      else (fs, s2, Err os_error)
  end.
(** [dump] without a file name, gsp/io/json.py:69-70: the text. *)
Definition dump_text (ftok : Z -> text) (stamp : nat -> text) (txt : string -> Z -> option jval) (ap : conv) (oidf : ref -> Z)
  (fuel : nat) (s : sys) (q : option qid) : sys * res text :=
  let '(s1, q1) := queue_or_active s q in
  let '(s2, l) := dump_loop ap oidf fuel s1 q1 0 in
  (s2, let* l := l in dumps Indented (payload ftok txt oidf stamp l)).

(** dictionary[key]. gsp/io/json.py:87, 94 and 99. *)
Fixpoint item (d : list (pystr * jt)) (k : pystr) : res jt :=
  match d with
  | [] => Err KeyError
  | (k', v) :: r => if pystr_eqb k' k then Ok v else item r k
  end.
(** A subscript by a text, gsp/io/json.py:87, 94 and 99. *)
Definition subscript (v : jt) (k : string) : res jt :=
  match v with TDict d => item d (of_string k) | _ => Err TypeError end.
(** The loop of gsp/io/json.py:93. *)
Fixpoint each {A B} (f : A -> res B) (l : list A) : res (list B) :=
  match l with [] => Ok [] | x :: r => let* y := f x in let* r' := each f r in Ok (y :: r') end.
(** A tree as Json.v has it.  Simplification: booleans and dictionaries, which [save]
    writes for no value of the model, are refused. gsp/io/json.py:99. *)
Fixpoint value_of (fval : text -> Z) (v : jt) : res jval :=
  match v with
  | TNull => Ok JNull
  | TInt z => Ok (JInt z)
  | TFloat k => Ok (JFloat (fval k))
  | TStr s => Ok (JStr (to_string s))
  | TList l =>
      let* l' := (fix go (l : list jt) : res (list jval) :=
                    match l with [] => Ok [] | x :: r => let* x' := value_of fval x in let* r' := go r in Ok (x' :: r') end) l in
      Ok (JList l')
  | TBool _ | TDict _ | TBad => Err NotImplementedError
  end.
(** gsp/io/json.py:94, 99 (the identifier is not looked at by [load]). *)
Definition read_entry (fval : text -> Z) (v : jt) : res entry :=
  let* m := subscript v "method" in
  let* i := subscript v "id" in
  let* p := subscript v "parameters" in
  match m, i, p with
  | TStr m, TInt i, TDict d =>
      let* p' := each (fun kv => let* j := value_of fval (snd kv) in Ok (to_string (fst kv), j)) d in
      Ok (mkEntry (to_string m) i p')
  | _, _, _ => Err TypeError
  end.
(** gsp/io/json.py:86-87 and what its loop finds in the result. *)
Definition read_text (fval : text -> Z) (x : text) : res (list entry) :=
  let* v := loads x in
  let* c := subscript v "commands" in
  match c with TList l => each (read_entry fval) l | _ => Err TypeError end.
(** open and json.load, gsp/io/json.py:86-87. *)
Definition read_file (fval : text -> Z) (fs : files) (name : string) : res (list entry) :=
  match dget fs name with Some x => read_text fval x | None => Err os_error end.
