(** Loading any file.  Models gsp/io/json.py:83-103 (json.load) on any text, with the
    checks of Command.__init__ (gsp/io/command.py:358-370) on whatever the file holds.

    Simplifications: floats as in JsonFile.v ([fval]); booleans are values of class bool,
    dictionaries inside parameters values of class dict, told apart by [code]; characters
    above 255 as in JsonFile.v. *)
From Verif Require Import Base Registry Convert Command Queue Base64 Execute Json JsonText JsonFile.
Open Scope string_scope.

Section Load.
Variable fval : text -> Z.
Variable code : list (pystr * jt) -> Z.

(** What json.load makes of a value. Python's json.load, called at gsp/io/json.py:87. *)
Fixpoint python_value (v : jt) : value :=
  match v with
  | TNull | TBad => VNone
  | TBool b => VAtom "bool" (if b then 1 else 0)%Z
  | TInt z => VInt z
  | TFloat k => VFloat (fval k)
  | TStr s => VStr (to_string s)
  | TList l => VSeq (map python_value l)
  | TDict d => VAtom "dict" (code d)
  end.
(** One round of the loop, json.py:93-101.  Strings, lists and numbers cannot be
    subscripted by a string; only strings have split; only dictionaries have keys. *)
Definition load_one (s : sys) (q : qid) (v : jt) : sys * res unit :=
  match subscript v "method" with
  | Err e => (s, Err e)
  | Ok (TStr m) =>
      let '(cn, mn) := split_method (to_string m) in
      match subscript v "parameters" with
      | Err e => (s, Err e)
      | Ok (TDict d) =>
          let '(s1, c) := new_command s (fun _ => 0%Z) cn mn (map (fun kv => (to_string (fst kv), python_value (snd kv))) d) in
          match c with Err e => (s1, Err e) | Ok c => (fst (push s1 q c), Ok tt) end
      | Ok _ => (fst (new_command s (fun _ => 0%Z) cn mn []), Err AttributeError)
      end
  | Ok _ => (s, Err AttributeError)
  end.
(** The loop of gsp/io/json.py:93-101: stops at the first round that raises. *)
Fixpoint load_each (s : sys) (q : qid) (l : list jt) : sys * res unit :=
  match l with
  | [] => (s, Ok tt)
  | v :: r => match load_one s q v with (s1, Ok _) => load_each s1 q r | (s1, Err e) => (s1, Err e) end
  end.
(** [for command in commands]: a string gives its characters, a dictionary its keys.
    gsp/io/json.py:93. *)
Definition iterate (v : jt) : res (list jt) :=
  match v with
  | TList l => Ok l
  | TStr s => Ok (map (fun c => TStr [c]) s)
  | TDict d => Ok (map (fun kv => TStr (fst kv)) d)
  | _ => Err TypeError
  end.
(** json.load of a file with this text. gsp/io/json.py:83-103. *)
Definition load_text (s : sys) (q : option qid) (x : text) : sys * res qid :=
  match (let* v := loads x in subscript v "commands") with
  | Err e => (s, Err e)
  | Ok c =>
      let '(s1, q1) := queue_or_active s q in
      let s2 := empty s1 q1 in
      match iterate c with
      | Err e => (s2, Err e)
      | Ok l => let '(s3, o) := load_each s2 q1 l in (s3, let* _ := o in Ok q1)
      end
  end.
End Load.
