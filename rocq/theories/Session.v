(** Whole sessions: a program using the protocol, its commands saved to a file,
    the file loaded and run by a backend.  Puts together gsp/object.py,
    gsp/io/command.py, gsp/io/json.py and gsp/__init__.py:57-92. *)
From Verif Require Import Base Registry Convert Command Queue Base64 Execute Json.
Open Scope string_scope.

(** What a client program does, step by step.
    - [New cl path pre post sg args kw]: make an object of class [cl], whose
      constructor is decorated with the name [path] (gsp/core/canvas.py:28-31, for
      example) and has signature [sg]; [pre] and [post] count the other objects
      its body makes before and after its own Object.__init__;
    - [Call r cl m sg args kw]: call the decorated method [m] of object [r]. *)
Inductive action :=
| New (cl path : string) (pre post : nat) (sg : sig) (args : list value) (kw : dict string value)
| Call (r : ref) (cl m : string) (sg : sig) (args : list value) (kw : dict string value).

(** The client: its objects, its queues, and the objects made so far by the
    steps, with the path of their class (the program's variables).
    gsp/object.py:64, gsp/io/command.py:72-95. *)
Record client := mkClient { cl_reg : rstate; cl_sys : sys; cl_made : list (ref * string) }.

(** [obj.id] (gsp/object.py:71-73).  A reference the program holds always
    denotes an object. *)
Definition oid_in (s : rstate) (r : ref) : Z := match id_of s r with Some z => z | None => 0%Z end.

(** One step: the body runs (Object.__init__, gsp/object.py:66-69, for a
    constructor), then the decorator records the call (gsp/io/command.py:202-303).
    Simplifications: bodies return normally and make no recorded calls
    themselves; classes and converters ([E], [d]) do not change during the
    session. *)
Definition act (E : cenv) (d : registry) (c : client) (a : action) : client :=
  match a with
  | New cl path pre post sg args kw =>
      let '(s2, (r, id)) := create (create_n pre (cl_reg c)) in
      let s3 := create_n post s2 in
      mkClient s3 (fst (complete (cl_sys c) (mkK E d (oid_in s3) id cl path sg args kw false (Ok VNone))))
               (cl_made c ++ [(r, path)])%list
  | Call r cl m sg args kw =>
      mkClient (cl_reg c)
               (fst (complete (cl_sys c)
                       (mkK E d (oid_in (cl_reg c)) (oid_in (cl_reg c) r) cl m sg args kw false (Ok VNone))))
               (cl_made c)
  end.
(** Steps one after the other, gsp/io/command.py:202-303. *)
Definition acts (E : cenv) (d : registry) (c : client) (l : list action) : client :=
  fold_left (act E d) l c.

(** The server's world: its objects, the class path of each, and what the
    commands executed so far did. gsp/object.py:64, gsp/io/command.py:409-455. *)
Definition world := (rstate * (ref -> string) * list outcome)%type.

(** Executing one command (gsp/io/command.py:409-455, see Execute.v).  [calls]:
    the decorated calls the backend makes meanwhile.
    Simplification: a command that raises leaves the registry alone. *)
Definition serve (B : backend) (ap : func -> value -> res value) (calls : command -> list call)
  (c : command) (w : world) : world * list call * res unit :=
  let '(s, cls, outs) := w in
  match execute B cls ap s c with
  | Ok (s', Built r p kw) =>
      ((s', (fun x => if Nat.eqb x r then p else cls x), (outs ++ [Built r p kw])%list), calls c, Ok tt)
  | Ok (s', o) => ((s', cls, (outs ++ [o])%list), calls c, Ok tt)
  | Err e => (w, calls c, Err e)
  end.

(** [queue = gsp.load(file); queue.run(backend)] (gsp/__init__.py:73-92,
    gsp/io/command.py:132-154). *)
Definition playback (B : backend) (ap : func -> value -> res value) (calls : command -> list call)
  (rs : rstate) (s : sys) (file : list entry) : sys * world * res unit :=
  let '(rs1, s1, o) := gsp_load rs s true (Ok file) in
  let w := (rs1, (fun _ => ""), []) in
  match o with
  | Err e => (s1, w, Err e)
  | Ok q => run_queue (serve B ap calls) s1 w q
  end.
