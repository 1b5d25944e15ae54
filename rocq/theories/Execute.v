(** Executing one command.  Models Command.execute, gsp/io/command.py:409-455. *)
From Verif Require Import Base Registry Convert Command.
Open Scope string_scope.

(** [s.split(c)] for a one-character separator. gsp/io/command.py:436. *)
Fixpoint split_on (c : ascii) (s : string) : list string :=
  match s with
  | EmptyString => [EmptyString]
  | String x r =>
      if Ascii.eqb x c then EmptyString :: split_on c r
      else match split_on c r with
           | [] => [String x EmptyString]
           | h :: t => String x h :: t
           end
  end.

(** What the backend offers.
    - [b_class n]: attribute path [n] of the backend module is a class
      (eval of "backend_module.<n>", line 446-447);
    - [b_new n kw]: calling it with keyword arguments [kw] either raises or
      returns a new object, building [pre] other objects before and [post]
      after registering itself (see [Registry.replay]);
    - [b_meth cl m]: class [cl] has a method [m];
    - [b_call cl m r kw]: calling it on object [r].
    Simplification: method bodies do not change the registry. *)
Record backend := mkB {
  b_class : string -> bool;
  b_new : string -> dict string value -> res (nat * nat);
  b_meth : string -> string -> bool;
  b_call : string -> string -> ref -> dict string value -> res value }.

(** What executing a command did. gsp/io/command.py:444, 451 and 455. *)
Inductive outcome :=
| Built (r : ref) (classname : string) (kw : dict string value)
| Called (r : ref) (m : string) (kw : dict string value) (v : value).

(** The id parameter as a registry key.  Simplification: identifiers are integers;
    the code would take any hashable value. gsp/io/command.py:413 and 442-454. *)
Definition oid_of (v : value) : option Z := match v with VOid z | VInt z => Some z | _ => None end.

(** gsp/io/command.py:435-440: a dotted method name.  [split] must give two
    parts (ValueError otherwise); then [globals[module]] subscripts the builtin
    function [globals], and [eval(name, globals, locals)] passes functions
    where mappings are required: TypeError in both cases. *)
Definition dotted (m : string) : exn :=
  match split_on "." m with [_; _] => TypeError | _ => ValueError end.

(** Command.execute, gsp/io/command.py:409-455. *)
Definition execute (B : backend) (cls : ref -> string) (ap : func -> value -> res value)
  (s : rstate) (c : command) : res (rstate * outcome) :=
  match dget (c_params c) "id" with
  | None => Err KeyError
  | Some idv =>
      let* kw := resolve (objects s) cls ap (c_params c) in
      if contains "." (c_method c) then Err (dotted (c_method c))
      else if String.eqb (c_method c) "__init__" then
        if b_class B (c_class c) then
          let* pp := b_new B (c_class c) kw in
          match oid_of idv with
          | Some oid => let '(s', r) := replay s (fst pp) (snd pp) oid in Ok (s', Built r (c_class c) kw)
          | None => Err TypeError
          end
        else Err AttributeError
      else
        match oid_of idv with
        | Some oid =>
            match lookup s oid with
            | Some r =>
                if b_meth B (cls r) (c_method c) then
                  let* v := b_call B (cls r) (c_method c) r kw in Ok (s, Called r (c_method c) kw v)
                else Err AttributeError
            | None => Err KeyError
            end
        | None => Err KeyError
        end
  end.
