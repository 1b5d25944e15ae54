(** Saving and loading command queues.  Models gsp/io/json.py and the save and
    load functions of gsp/__init__.py:57-92. *)
From Verif Require Import Base Registry Convert Command Queue Base64 Execute.
Open Scope string_scope.

(** JSON trees.  Here writing a tree as text and reading it back is taken to be the
    identity; JsonText.v and JsonFile.v model the text and the file. gsp/io/json.py:67-73 and 87. *)
Inductive jval :=
| JNull | JInt (z : Z) | JFloat (z : Z) | JStr (s : string) | JList (l : list jval).

(** Values json.dump accepts, with the [default] hook (gsp/io/json.py:12-27):
    bytes, memoryviews and arrays become base64 text; other library values
    ([VAtom]: dtype, Color, ...) go through [txt], which gives their JSON form or None
    when [default] raises TypeError; objects become their id. *)
Fixpoint encode (txt : string -> Z -> option jval) (oidf : ref -> Z) (v : value) : res jval :=
  match v with
  | VNone => Ok JNull
  | VInt z => Ok (JInt z)
  | VFloat z => Ok (JFloat z)
  | VStr s => Ok (JStr s)
  | VBytes b => Ok (JStr (b64encode b))
  | VSeq l =>
      let* l' := (fix go (l : list value) : res (list jval) :=
                    match l with
                    | [] => Ok []
                    | x :: r => let* x' := encode txt oidf x in let* r' := go r in Ok (x' :: r')
                    end) l in
      Ok (JList l')
  | VAtom c n => match txt c n with Some j => Ok j | None => Err TypeError end
  | VObj _ r => Ok (JInt (oidf r))
  | VOid z => Ok (JInt z)
  | VConv _ _ => Err TypeError
  end.

(** What json.load gives back for a tree. gsp/io/json.py:87. *)
Fixpoint decode (j : jval) : value :=
  match j with
  | JNull => VNone
  | JInt z => VInt z
  | JFloat z => VFloat z
  | JStr s => VStr s
  | JList l => VSeq (map decode l)
  end.

(** One entry of the "commands" list of a file. gsp/io/json.py:51-54. *)
Record entry := mkEntry { e_method : string; e_id : Z; e_params : dict string jval }.

(** The method text, gsp/io/json.py:43-49 (no method name is the empty
    string). *)
Definition method_text (c : command) : string :=
  if String.eqb (c_method c) "" then c_class c
  else if contains "." (c_method c) then c_method c
  else c_class c ++ "/" ++ c_method c.

(** The session during a dump: conversions run Python code, which can make
    decorated calls (for instance the array-to-Buffer converters of
    gsp_matplotlib/__init__.py build recorded Buffers).  [ap f v]: calls made,
    and the result. *)
Definition conv := func -> value -> list call * res value.

(** gsp/io/json.py:34-41. *)
Fixpoint dump_params (ap : conv) (oidf : ref -> Z) (s : sys) (p acc : dict string value)
  : sys * res (dict string value) :=
  match p with
  | [] => (s, Ok acc)
  | (k, v) :: r =>
      let '(s1, v') := match v with
                       | VConv f w => let '(calls, x) := ap f w in (run_calls s calls, x)
                       | _ => (s, Ok v)
                       end in
      match v' with
      | Err e => (s1, Err e)
      | Ok (VObj _ o) => dump_params ap oidf s1 r (dset acc (k ++ "(id)") (VInt (oidf o)))
      | Ok x => dump_params ap oidf s1 r (dset acc k x)
      end
  end.

(** gsp/io/json.py:30-58. *)
Definition dump_command (ap : conv) (oidf : ref -> Z) (s : sys) (c : command)
  : sys * res (string * Z * dict string value) :=
  let '(s1, p) := dump_params ap oidf s (c_params c) [] in
  (s1, let* p := p in Ok (method_text c, c_id c, p)).

(** The loop of gsp/io/json.py:65-66 iterates over the live list: commands
    appended meanwhile are visited too.  [n] bounds the number of
    iterations. *)
Fixpoint dump_loop (ap : conv) (oidf : ref -> Z) (n : nat) (s : sys) (q : qid) (i : nat)
  : sys * res (list (string * Z * dict string value)) :=
  match nth_error (commands s q) i with
  | None => (s, Ok [])
  | Some c =>
      match n with
      | O => (s, Err OutOfFuel)
      | S n =>
          let '(s1, e) := dump_command ap oidf s c in
          match e with
          | Err x => (s1, Err x)
          | Ok e => let '(s2, r) := dump_loop ap oidf n s1 q (S i) in (s2, let* r := r in Ok (e :: r))
          end
      end
  end.

(** The parameters of one command written, gsp/io/json.py:54 with the default of lines 12-27. *)
Fixpoint encode_params (txt : string -> Z -> option jval) (oidf : ref -> Z) (p : dict string value)
  : res (dict string jval) :=
  match p with
  | [] => Ok []
  | (k, v) :: r => let* j := encode txt oidf v in let* r' := encode_params txt oidf r in Ok ((k, j) :: r')
  end.
(** The commands written in order, gsp/io/json.py:67-73. *)
Fixpoint encode_all (txt : string -> Z -> option jval) (oidf : ref -> Z)
  (l : list (string * Z * dict string value)) : res (list entry) :=
  match l with
  | [] => Ok []
  | (m, i, p) :: r =>
      let* p' := encode_params txt oidf p in
      let* r' := encode_all txt oidf r in Ok (mkEntry m i p' :: r')
  end.

(** [queue or CommandQueue("active")], gsp/io/json.py:63, 79, 90: a queue with
    no commands is falsy (it has __len__). *)
Definition queue_or_active (s : sys) (q : option qid) : sys * qid :=
  match q with
  | Some q => match commands s q with [] => get_queue s None | _ => (s, q) end
  | None => get_queue s None
  end.

(** [save] / [dump] to a file, gsp/io/json.py:60-80.  The written entries.
    [save] and [dump] both evaluate [queue or ...]. *)
Definition save_queue (txt : string -> Z -> option jval) (ap : conv) (oidf : ref -> Z) (fuel : nat)
  (s : sys) (q : option qid) : sys * res (list entry) :=
  let '(s0, q0) := queue_or_active s q in
  let '(s1, q1) := queue_or_active s0 (Some q0) in
  let '(s2, l) := dump_loop ap oidf fuel s1 q1 0 in
  (s2, let* l := l in encode_all txt oidf l).

(** gsp/io/json.py:94-98. *)
Definition split_method (m : string) : string * string :=
  match split_on "/" m with [c; n] => (c, n) | _ => (m, "__init__") end.

(** The loop of gsp/io/json.py:93-101. *)
Fixpoint load_loop (s : sys) (q : qid) (l : list entry) : sys * res unit :=
  match l with
  | [] => (s, Ok tt)
  | e :: r =>
      let '(cn, mn) := split_method (e_method e) in
      let '(s1, c) := new_command s (fun _ => 0%Z) cn mn
                        (map (fun kv => (fst kv, decode (snd kv))) (e_params e)) in
      match c with
      | Err x => (s1, Err x)
      | Ok c => load_loop (fst (push s1 q c)) q r
      end
  end.

(** [load], gsp/io/json.py:83-103.  [file]: the "commands" list, or the error
    raised while opening or parsing the file. *)
Definition load_queue (s : sys) (q : option qid) (file : res (list entry)) : sys * res qid :=
  match file with
  | Err e => (s, Err e)
  | Ok l =>
      let '(s1, q1) := queue_or_active s q in
      let '(s2, o) := load_loop (empty s1 q1) q1 l in
      (s2, let* _ := o in Ok q1)
  end.

(** [gsp.load], gsp/__init__.py:73-92.  [known]: the format is "json". *)
Definition gsp_load (rs : rstate) (s : sys) (known : bool) (file : res (list entry))
  : rstate * sys * res qid :=
  let rs1 := mkR (counter rs) (recording rs) [] (heap rs) in
  let '(s1, q) := get_queue s None in
  let s2 := empty s1 q in
  if known then
    let '(s3, o) := load_queue s2 None file in (rs1, s3, let* _ := o in Ok q)
  else (rs1, s2, Err ValueError).

(** What the backend Buffer keeps as data, gsp_matplotlib/core/buffer.py:22-26:
    text is base64-decoded, anything else kept. *)
Definition buffer_data (v : value) : res value :=
  match v with VStr t => let* b := b64decode t in Ok (VBytes b) | v => Ok v end.
