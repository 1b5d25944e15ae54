(** Classes a program defines itself on top of gsp.Object, recorded, saved and
    loaded.  Models examples/io_saveload.py:38-50, examples/io_inheritance.py:20-40 and
    tests/test_io.py:9-17 for any such classes: gsp/object.py:66-80, the decorator
    (gsp/io/command.py:202-303) and Command.execute (409-455).

    Simplifications: attributes, arguments and defaults are not protocol objects; a
    call that raises ends the program; a constructor of a derived class hands the
    arguments of the recorded constructor over by name; conversions have no other
    effect than their result. *)
From Verif Require Import Base Registry Convert Command Execute Session.
Open Scope string_scope.

(** The attributes of an object, without its identifier.
    vars(self), as in examples/io_saveload.py:43. *)
Definition attrs := dict string value.
(** A recorded method: its parameters, and the attributes after the body.
    As in examples/io_saveload.py:45-47. *)
Record mdef := mkM { m_sig : sig; m_body : attrs -> dict string value -> res attrs }.
(** The constructor of a derived class (io_inheritance.py:36-40): its parameters,
    what it gives to the recorded constructor, and what it does to the attributes
    afterwards. *)
Record own := mkOwn { o_sig : sig; o_hand : dict string value -> res (dict string value);
                      o_after : dict string value -> attrs -> attrs }.
(** A class: its name, the name given to the decorator of the recorded constructor
    (which may be inherited), that constructor, its own constructor if it has one, and
    the recorded methods. As in examples/io_saveload.py:38-50. *)
Record class := mkClass { k_name : string; k_path : option string; k_sig : sig;
                          k_body : dict string value -> res attrs; k_own : option own;
                          k_meths : dict string mdef }.

(** A process: its registry, its objects by number, the commands recorded, and
    whether the active queue is writable.
    Object.objects, gsp/object.py:64, and the active queue, gsp/io/command.py:72-95. *)
Record proc := mkProc { p_reg : rstate; p_objs : list (class * attrs); p_log : list command; p_on : bool }.

Section Process.
Context (E : cenv) (d : registry) (ap : func -> value -> res value).

(** The end of the decorator, command.py:216-303: the types are checked, also when
    the queue is read-only; then the command is pushed. *)
Definition note (p : proc) (i : nat) (cn mn : string) (sg : sig) (args : list value) (kw : dict string value) : res proc :=
  let id := oid_in (p_reg p) i in
  let* ps := recorded_parameters E d id sg args kw in
  if p_on p then
    let* c := mk_command (oid_in (p_reg p)) (Z.of_nat (length (p_log p))) cn mn ps in
    Ok (mkProc (p_reg p) (p_objs p) (p_log p ++ [c])%list (p_on p))
  else Ok p.

(** What the recorded constructor is called with. examples/io_inheritance.py:39-40. *)
Definition handed (k : class) (args : list value) (kw : dict string value)
  : res (list value * dict string value * (attrs -> attrs)) :=
  match k_own k with
  | None => Ok (args, kw, fun a => a)
  | Some o => let* b := bind_args (o_sig o) args kw in
              let* h := o_hand o b in Ok ([], h, o_after o b)
  end.
(** The name under which a constructor is recorded, command.py:298-299. *)
Definition recorded_name (k : class) : string := match k_path k with Some s => s | None => "__init__" end.
(** Making an object. gsp/object.py:66-69 and gsp/io/command.py:202-303. *)
Definition make (p : proc) (k : class) (args : list value) (kw : dict string value) : res (proc * nat) :=
  let* h := handed k args kw in
  let '(args', kw', after) := h in
  let* b := bind_args (k_sig k) args' kw' in
  let* a := k_body k b in
  let i := length (p_objs p) in
  let p1 := mkProc (fst (create (p_reg p))) (p_objs p ++ [(k, after a)])%list (p_log p) (p_on p) in
  let* p2 := note p1 i (k_name k) (recorded_name k) (k_sig k) args' kw' in
  Ok (p2, i).
(** Calling a recorded method. gsp/io/command.py:202-303. *)
Definition call (p : proc) (i : nat) (m : string) (args : list value) (kw : dict string value) : res proc :=
  match nth_error (p_objs p) i with
  | None => Err KeyError
  | Some (k, a) =>
      match dget (k_meths k) m with
      | None => Err AttributeError
      | Some md =>
          let* b := bind_args (m_sig md) args kw in
          let* a' := m_body md a b in
          note (mkProc (p_reg p) (upd (p_objs p) i (k, a')) (p_log p) (p_on p)) i (k_name k) m (m_sig md) args kw
      end
  end.

(** A program. As in examples/io_saveload.py:61-62. *)
Inductive step := New (k : class) (args : list value) (kw : dict string value)
                | Do (i : nat) (m : string) (args : list value) (kw : dict string value).
(** One statement of it, as in examples/io_saveload.py:61-62. *)
Definition do_step (p : proc) (s : step) : res proc :=
  match s with
  | New k args kw => let* r := make p k args kw in Ok (fst r)
  | Do i m args kw => call p i m args kw
  end.
(** Statements in order; the first that raises ends the program. *)
Fixpoint do_steps (p : proc) (l : list step) : res proc :=
  match l with [] => Ok p | s :: r => let* q := do_step p s in do_steps q r end.

(** A command saved and loaded: gsp/io/json.py:43-49 and 95-98; a dotted name is a
    class to be built. *)
Definition reload (c : command) : command :=
  if contains "." (c_method c) then mkC (c_id c) (c_method c) "__init__" (c_params c) else c.
(** Command.execute, with the classes of the backend module. gsp/io/command.py:409-455. *)
Definition redo (B : dict string class) (p : proc) (c : command) : res proc :=
  match dget (c_params c) "id" with
  | None => Err KeyError
  | Some idv =>
      let* kw := resolve (objects (p_reg p)) (fun _ => "") ap (c_params c) in
      match oid_of idv with
      | None => Err TypeError
      | Some oid =>
          if String.eqb (c_method c) "__init__" then
            match dget B (c_class c) with
            | None => Err AttributeError
            | Some k =>
                let* r := make p k [] kw in
                let s := set_id (p_reg (fst r)) (snd r) oid in
                Ok (mkProc (mkR (counter s) (recording s) (dset (objects s) oid (snd r)) (heap s))
                           (p_objs (fst r)) (p_log (fst r)) (p_on (fst r)))
            end
          else
            match lookup (p_reg p) oid with
            | None => Err KeyError
            | Some i => call p i (c_method c) [] kw
            end
      end
  end.
(** Loading and CommandQueue.run, gsp/io/json.py:93-101 and gsp/io/command.py:152-153. *)
Fixpoint redo_all (B : dict string class) (p : proc) (l : list command) : res proc :=
  match l with [] => Ok p | c :: r => let* q := redo B p (reload c) in redo_all B q r end.
End Process.

(** A new process, and a process about to play commands back: the registry is
    cleared (gsp/__init__.py:83, examples/io_saveload.py:68 and 81) and the queue read-only
    (command.py:150-154). *)
Definition fresh : proc := mkProc rinit [] [] true.
(** Object.objects = {} and queue.readonly = True, examples/io_saveload.py:81 and gsp/io/command.py:151. *)
Definition loading (p : proc) : proc :=
  mkProc (mkR (counter (p_reg p)) (recording (p_reg p)) [] (heap (p_reg p))) (p_objs p) (p_log p) false.
